(** Models of the byte-level Python primitives used by pydarnio/dmap/dmap.py:
    [struct.pack], [struct.unpack_from], bytearray indexing and
    [numpy.frombuffer].  Native byte order is little-endian, the sizes are the
    native ones of a 64-bit Linux ('h' 2, 'i' 4, 'q' 8, 'f' 4, 'd' 8). *)
From Coq Require Import ZArith List Bool.
From Verif Require Import Base.
Import ListNotations.
Open Scope Z_scope.

(** Little-endian bytes of the low [8*n] bits of [z] (what [struct.pack] and
    [ndarray.tostring] emit on a little-endian host; dmap.py:1104-1107, 1155). *)
Fixpoint le_enc (n : nat) (z : Z) : bytes :=
  match n with
  | O => []
  | S n' => z mod 256 :: le_enc n' (z / 256)
  end.

(** Unsigned little-endian value of a byte string (dmap.py:718-722). *)
Fixpoint le_dec (bs : bytes) : Z :=
  match bs with
  | [] => 0
  | b :: bs' => b + 256 * le_dec bs'
  end.

(** [2^(8 n)]: number of values of an [n]-byte integer of [struct] (dmap.py:67-78). *)
Definition wrap_mod (n : nat) : Z := 2 ^ (8 * Z.of_nat n).

(** Two's complement reading of an unsigned [n]-byte value ([struct.unpack_from],
    dmap.py:718-720). *)
Definition to_signed (n : nat) (u : Z) : Z :=
  if u <? wrap_mod n / 2 then u else u - wrap_mod n.

(** Smallest value of an [n]-byte integer type that [struct.pack] takes
    (dmap.py:1061-1064, 1107). *)
Definition int_min (signed : bool) (n : nat) : Z :=
  if signed then - (wrap_mod n / 2) else 0.
(** Largest such value (dmap.py:1061-1064, 1107). *)
Definition int_max (signed : bool) (n : nat) : Z :=
  if signed then wrap_mod n / 2 - 1 else wrap_mod n - 1.

(** [struct.pack] of an integer: range check, then bytes
    (used at dmap.py:1061-1064, 1107, 1148, 1153). *)
Definition pack_int (signed : bool) (n : nat) (v : Z) : res bytes :=
  if (int_min signed n <=? v) && (v <=? int_max signed n)
  then Ok (le_enc n v)
  else Raise StructError.

(** Value of an [n]-byte integer field ([struct.unpack_from], dmap.py:718-720). *)
Definition unpack_int (signed : bool) (n : nat) (bs : bytes) : Z :=
  if signed then to_signed n (le_dec bs) else le_dec bs.

(** [buf[off:off+n]] for a non-negative offset: the bytes that dmap.py:711-713,
    718-720, 803-807 look at. *)
Definition slice (buf : bytes) (off n : Z) : bytes :=
  firstn (Z.to_nat n) (skipn (Z.to_nat off) buf).

(** Python indexing [buf[i]], with negative indices counting from the end
    (dmap.py:694, 699). *)
Definition py_index (buf : bytes) (i : Z) : res Z :=
  let j := if i <? 0 then i + zlen buf else i in
  if (0 <=? j) && (j <? zlen buf) then Ok (nth (Z.to_nat j) buf 0)
  else Raise IndexError.

(** The limits of C's [Py_ssize_t], the type of the offsets and counts of
    dmap.py:711-720, 803-807: the smallest value. *)
Definition ssize_min : Z := - 2 ^ 63.
(** The largest value of [Py_ssize_t] (dmap.py:711-720, 803-807). *)
Definition ssize_max : Z := 2 ^ 63 - 1.

(** The bytes [struct.unpack_from(fmt, buf, off)] looks at, [size] being the
    size of the format (dmap.py:711, 718).  Negative offsets count from the end
    of the buffer, as documented for [struct.unpack_from]. *)
Definition unpack_from (buf : bytes) (off size : Z) : res bytes :=
  if (off <? ssize_min) || (ssize_max <? off) then Raise OverflowError else
  if off <? 0 then
    if 0 <? off + size then Raise StructError else
    if off + zlen buf <? 0 then Raise StructError else
    if zlen buf - (off + zlen buf) <? size then Raise StructError
    else Ok (slice buf (off + zlen buf) size)
  else
    if zlen buf - off <? size then Raise StructError
    else Ok (slice buf off size).

(** Cut a byte string into [n] pieces of [k] bytes: the elements that
    [numpy.frombuffer] finds (dmap.py:803-807). *)
Fixpoint chunks (k n : nat) (bs : bytes) : list bytes :=
  match n with
  | O => []
  | S n' => firstn k bs :: chunks k n' (skipn k bs)
  end.

(** [numpy.frombuffer(buf, dtype, count, off)]: the raw elements
    (dmap.py:803-807).  A negative count means "the whole rest of the buffer",
    as in [PyArray_FromBuffer]. *)
Definition frombuffer (buf : bytes) (itemsize : nat) (count off : Z)
  : res (list bytes) :=
  if (count <? ssize_min) || (ssize_max <? count) then Raise OverflowError else
  if (off <? ssize_min) || (ssize_max <? off) then Raise OverflowError else
  if (off <? 0) || (zlen buf <? off) then Raise ValueError else
  let s := zlen buf - off in
  if count <? 0 then
    if negb (s mod Z.of_nat itemsize =? 0) then Raise ValueError
    else Ok (chunks itemsize (Z.to_nat (s / Z.of_nat itemsize))
                    (skipn (Z.to_nat off) buf))
  else
    if s <? count * Z.of_nat itemsize then Raise ValueError
    else Ok (chunks itemsize (Z.to_nat count) (skipn (Z.to_nat off) buf)).
