(** Data types of the DMAP layer: formats, Python values, numpy arrays,
    DmapScalar / DmapArray. *)
From Coq Require Import ZArith List Bool.
From Verif Require Import Base Bytes FloatBits.
Import ListNotations.
Open Scope Z_scope.

(** The format characters of DMAP_DATA_TYPES (pydarnio/dmap/dmap.py:67-78):
    'c' 'h' 'i' 'f' 'd' 's' 'q' 'B' 'H' 'I' 'Q'.  The empty format of the DMAP
    type 0 is represented by [None] in [dmap_data_types].  Simplified: format
    strings other than these eleven are not modelled. *)
Inductive fmt : Type :=
  Fc | Fh | Fi | Ff | Fd | Fs | Fq | FB | FH | FI | FQ.

(** [==] on formats (dmap.py:690, 697, 800, 1090-1101). *)
Definition fmt_eqb (a b : fmt) : bool :=
  match a, b with
  | Fc, Fc | Fh, Fh | Fi, Fi | Ff, Ff | Fd, Fd | Fs, Fs | Fq, Fq
  | FB, FB | FH, FH | FI, FI | FQ, FQ => true
  | _, _ => false
  end.

(** DMAP_DATA_TYPES[code][0] (pydarnio/dmap/dmap.py:67-78); outer [None]: the
    code is not a key, inner [None]: the format is '' (code 0, DMAP). *)
Definition dmap_data_types (code : Z) : option (option fmt) :=
  if code =? 0 then Some None else
  if code =? 1 then Some (Some Fc) else
  if code =? 2 then Some (Some Fh) else
  if code =? 3 then Some (Some Fi) else
  if code =? 4 then Some (Some Ff) else
  if code =? 8 then Some (Some Fd) else
  if code =? 9 then Some (Some Fs) else
  if code =? 10 then Some (Some Fq) else
  if code =? 16 then Some (Some FB) else
  if code =? 17 then Some (Some FH) else
  if code =? 18 then Some (Some FI) else
  if code =? 19 then Some (Some FQ) else None.

(** DMAP_DATA_TYPES[code][1], the byte size of a format
    (pydarnio/dmap/dmap.py:67-78). *)
Definition fmt_size (f : fmt) : nat :=
  match f with
  | Fc => 1 | Fh => 2 | Fi => 4 | Ff => 4 | Fd => 8 | Fs => 1 | Fq => 8
  | FB => 1 | FH => 2 | FI => 4 | FQ => 8
  end%nat.

(** Signedness of an integer format in [struct] (the formats of dmap.py:67-78). *)
Definition fmt_signed (f : fmt) : bool :=
  match f with Fh | Fi | Fq | Fc => true | _ => false end.

(** numpy scalar types that occur as [ndarray.dtype.type].  'q' and 'Q' give
    [np.longlong] / [np.ulonglong], which on 64-bit Linux are types distinct
    from [np.int64] / [np.uint64].  [DStr] is any string dtype, [DOther] any
    other type (pydarnio/utils/conversions.py:33-45, dmap.py:803-807). *)
Inductive dtype : Type :=
  DI8 | DI16 | DI32 | DI64 | DLL | DU8 | DU16 | DU32 | DU64 | DULL
| DF32 | DF64 | DStr | DOther.

(** [ndarray.itemsize].  Simplified: string arrays have one 4-byte character
    per element, [DOther] elements have 8 bytes (dmap.py:803-807, 1155). *)
Definition dtype_size (d : dtype) : nat :=
  match d with
  | DI8 | DU8 => 1 | DI16 | DU16 => 2 | DI32 | DU32 | DF32 | DStr => 4
  | DI64 | DLL | DU64 | DULL | DF64 | DOther => 8
  end%nat.

(** Is it a signed integer type (the elements of dmap.py:803-807)? *)
Definition dtype_signed (d : dtype) : bool :=
  match d with DI8 | DI16 | DI32 | DI64 | DLL => true | _ => false end.

(** A numpy array: element type, big-endian flag, shape, and the elements in
    row-major (C) order.  Integer elements are their values, floating-point
    elements their bit patterns.  Memory layout (strides) is abstracted:
    [flatten()] is the row-major list (dmap.py:803-809, 1155). *)
Record ndarray : Type := mk_ndarray {
  nd_dtype : dtype;
  nd_be    : bool;
  nd_shape : list Z;
  nd_data  : list Z
}.

(** numpy integer scalar types that matter to FORMAT_CONVERSION
    (pydarnio/utils/conversions.py:33-45). *)
Inductive npint : Type := NI8 | NI16 | NI32 | NI64 | NU8 | NU16 | NU32 | NU64.

(** Python values stored in records (pydarnio/utils/conversions.py:33-45, 60-150).
    Floats are bit patterns. *)
Inductive pyval : Type :=
| VInt (z : Z)                  (* int *)
| VNpInt (t : npint) (z : Z)    (* np.int8 ... np.uint64 *)
| VFloat (b : Z)                (* float, binary64 pattern *)
| VF32 (b : Z)                  (* np.float32, binary32 pattern *)
| VF64 (b : Z)                  (* np.float64, binary64 pattern *)
| VStr (s : pystr)              (* str *)
| VArr (a : ndarray)            (* np.ndarray *)
| VIntList (l : list Z)         (* list of int *)
| VOther.                       (* anything else *)

(** DmapScalar (pydarnio/dmap/datastructures.py:26-44). *)
Record dscalar : Type := mk_dscalar {
  sc_name  : pystr;
  sc_value : pyval;
  sc_type  : Z;
  sc_fmt   : fmt
}.

(** DmapArray (pydarnio/dmap/datastructures.py:47-71). *)
Record darray : Type := mk_darray {
  ar_name  : pystr;
  ar_value : ndarray;
  ar_type  : Z;
  ar_fmt   : fmt;
  ar_dim   : Z;
  ar_shape : list Z
}.

(** A value of a record dictionary: DMAP structures (dmap.py:465-471) or a plain
    value (pydarnio/utils/conversions.py:60-110). *)
Inductive item : Type :=
| IScalar (s : dscalar)
| IArray (a : darray)
| IPlain (v : pyval).

(** A record: an ordered dictionary of items (dmap.py:463). *)
Definition record := dict item.

(** The dtype [np.frombuffer] produces for a format (dmap.py:800-807); [None]
    for 's', which never reaches it. *)
Definition fmt_dtype (f : fmt) : option dtype :=
  match f with
  | Fc => Some DI8 | Fh => Some DI16 | Fi => Some DI32 | Ff => Some DF32
  | Fd => Some DF64 | Fs => None | Fq => Some DLL | FB => Some DU8
  | FH => Some DU16 | FI => Some DU32 | FQ => Some DULL
  end.

(** Decode one raw little-endian element of a numpy array (dmap.py:803-807). *)
Definition elem_dec (d : dtype) (bs : bytes) : Z :=
  unpack_int (dtype_signed d) (dtype_size d) bs.

(** Raw bytes of one element of a numpy array ([tostring], dmap.py:1155);
    big-endian arrays keep their byte order. *)
Definition elem_enc (d : dtype) (be : bool) (z : Z) : bytes :=
  let bs := le_enc (dtype_size d) z in if be then rev bs else bs.

(** "slist" (dmap.py:570). *)
Definition s_slist : pystr := [115; 108; 105; 115; 116].
