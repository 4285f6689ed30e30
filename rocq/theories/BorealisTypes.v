(** Data types of the Borealis layer: element types, values of record and array
    dictionaries, n-dimensional arrays. *)
From Coq Require Import ZArith List Bool.
From Verif Require Import Base.
Import ListNotations.
Open Scope Z_scope.

(** The Python and numpy types that occur as declared types in
    borealis_formats.py:72-568 ([str], [np.str_], ...), plus the remaining common
    numpy types.  [BStr] is the Python class [str]; it is never the [dtype.type]
    of an array.  [BOther] stands for any further numpy type. *)
Inductive btype : Type :=
  BStr | BNpStr | BBytes | BBool | BI8 | BI16 | BI32 | BI64
| BU8 | BU16 | BU32 | BU64 | BF32 | BF64 | BC64 | BC128 | BOther.

(** [==] on types (borealis_utilities.py:264-272, 324-348). *)
Definition btype_eqb (a b : btype) : bool :=
  match a, b with
  | BStr, BStr | BNpStr, BNpStr | BBytes, BBytes | BBool, BBool | BI8, BI8
  | BI16, BI16 | BI32, BI32 | BI64, BI64 | BU8, BU8 | BU16, BU16 | BU32, BU32
  | BU64, BU64 | BF32, BF32 | BF64, BF64 | BC64, BC64 | BC128, BC128
  | BOther, BOther => true
  | _, _ => false
  end.

(** One element of an array of these types (borealis_formats.py:72-568): an integer, a
    boolean (0 or 1) or the bit pattern of a float; the bit patterns of a complex
    number; a text. *)
Inductive cell : Type :=
| CZ (z : Z)
| CC (re im : Z)
| CS (s : pystr).

(** A value of a record or array dictionary.  Shapes are lists of natural
    numbers, elements are in row-major order.
    [BScalar]: a numpy scalar of type [t] (shape [()]);
    [BText]: a Python [str] (no [shape], no [dtype]);
    [BArr]: a numpy array;
    [BEmpty]: an [h5py.Empty] (its [shape] is [None]; base_format.py:1287);
    [BPlain]: any other Python value (no [shape], no [dtype]). *)
Inductive bval : Type :=
| BScalar (t : btype) (c : cell)
| BText (s : pystr)
| BArr (t : btype) (shape : list nat) (data : list cell)
| BEmpty (t : btype)
| BPlain.

(** A site record or an array dictionary: field names to values
    (base_format.py:1263, 1326). *)
Definition brecord := dict bval.

(** Site records: record names to records (base_format.py:1259-1299). *)
Definition brecords := dict brecord.

(** Number of elements of a shape (np.prod, base_format.py:608; ndarray.size). *)
Fixpoint size (shape : list nat) : nat :=
  match shape with
  | [] => 1
  | d :: ds => d * size ds
  end.

(** The first [k] rows of length [n] of a row-major list (the indexing of
    base_format.py:1136-1138, 1225-1228). *)
Fixpoint rows {A} (k n : nat) (l : list A) : list (list A) :=
  match k with
  | O => []
  | S k' => firstn n l :: rows k' n (skipn n l)
  end.

(** ** numpy operations *)

(** The number of elements [0:i] selects out of [n] (Python slicing; a negative
    stop counts from the end).  base_format.py:1131, 1225. *)
Definition slice_stop (i : Z) (n : nat) : nat :=
  if i <? 0 then Z.to_nat (Z.of_nat n + i) else Nat.min (Z.to_nat i) n.

(** [a[0:i1, 0:i2, ...]] on elements in row-major order: the shape and the
    elements selected.  Missing slices select everything; more slices than
    dimensions are an IndexError (base_format.py:1225-1228). *)
Fixpoint slice_shape (ds : list nat) (is : list Z) : res (list nat) :=
  match ds, is with
  | _, [] => Ok ds
  | [], _ :: _ => Raise IndexError
  | d :: ds', i :: is' => rlet r := slice_shape ds' is' in Ok (slice_stop i d :: r)
  end.

(** The elements of the leading corner of shape [ss] of an array of shape [ds]
    (see [slice_shape]; base_format.py:1225-1228). *)
Fixpoint corner {A} (ds ss : list nat) (l : list A) : list A :=
  match ds, ss with
  | d :: ds', s :: ss' =>
      flat_map (corner ds' ss') (firstn s (rows d (size ds') l))
  | _, _ => l
  end.

(** Replace the leading corner of shape [ss] of an array of shape [ds] by the
    elements [b] (assignment to a slice, base_format.py:1136). *)
Fixpoint paste {A} (ds ss : list nat) (l b : list A) : list A :=
  match ds, ss with
  | d :: ds', s :: ss' =>
      let rs := rows d (size ds') l in
      flat_map (fun p => paste ds' ss' (fst p) (snd p))
               (combine (firstn s rs) (rows s (size ss') b))
      ++ concat (skipn s rs)
  | _, _ => b
  end.

(** Broadcast the elements of shape [bs] to shape [ts], both of the same rank
    (assignment of an array to a slice, base_format.py:1136-1138). *)
Fixpoint spread {A} (bs ts : list nat) (b : list A) : res (list A) :=
  match bs, ts with
  | [], [] => Ok b
  | x :: xs, y :: ys =>
      if Nat.eqb x y then
        (fix go (l : list (list A)) : res (list A) :=
           match l with
           | [] => Ok []
           | r :: l' => rlet h := spread xs ys r in rlet t := go l' in Ok (h ++ t)
           end) (rows x (size xs) b)
      else if Nat.eqb x 1 then
        rlet h := spread xs ys b in Ok (concat (repeat h y))
      else Raise ValueError
  | _, _ => Raise ValueError
  end.

(** Broadcasting of an assigned value: leading dimensions 1 are added to, or
    dropped from, the value's shape to reach the rank of the target
    (base_format.py:1136-1138). *)
Definition broadcast {A} (bs ts : list nat) (b : list A) : res (list A) :=
  let nb := length bs in
  let nt := length ts in
  if Nat.leb nb nt then spread (repeat 1%nat (nt - nb) ++ bs) ts b
  else if forallb (Nat.eqb 1) (firstn (nb - nt) bs) then spread (skipn (nb - nt) bs) ts b
  else Raise ValueError.

(** [a[r]] for an array of shape [d :: ds]: the elements of row [r]
    (base_format.py:1138, 1208-1209). *)
Definition row_of {A} (ds : list nat) (r : nat) (l : list A) : list A :=
  firstn (size ds) (skipn (r * size ds) l).

(** The [shape] attribute (borealis_utilities.py:266, 326, 380; [None] inside
    [Some] is Python's None). *)
Definition bshape (v : bval) : option (option (list nat)) :=
  match v with
  | BScalar _ _ => Some (Some [])
  | BArr _ s _ => Some (Some s)
  | BEmpty _ => Some None
  | BText _ | BPlain => None
  end.

(** [v.dtype.type] (borealis_utilities.py:271, 346). *)
Definition bdtype (v : bval) : option btype :=
  match v with
  | BScalar t _ | BArr t _ _ | BEmpty t => Some t
  | BText _ | BPlain => None
  end.

(** [type(v) == t] for a declared type [t] (borealis_utilities.py:264, 324): an
    array, an [h5py.Empty] or another value never has a declared type. *)
Definition has_type (v : bval) (t : btype) : bool :=
  match v with
  | BScalar t' _ => btype_eqb t' t
  | BText _ => btype_eqb BStr t
  | _ => false
  end.

(** [isinstance(v, np.ndarray)] (borealis_utilities.py:306, 329). *)
Definition is_ndarray (v : bval) : bool :=
  match v with BArr _ _ _ => true | _ => false end.

(** [len(v)] (base_format.py:1489, 1532; borealis_formats.py:888).  Lists and
    other plain values are not modelled. *)
Definition blen (v : bval) : res nat :=
  match v with
  | BArr _ (d :: _) _ => Ok d
  | BText s | BScalar BNpStr (CS s) | BScalar BBytes (CS s) => Ok (length s)
  | BPlain => Raise OutOfModel
  | _ => Raise TypeError
  end.

(** [d[k]] on a dictionary (base_format.py:1101-1104, 1124-1138). *)
Definition dict_item {A} (d : dict A) (k : pystr) : res A :=
  match dict_get d k with Some v => Ok v | None => Raise KeyError end.

(** [d.update(e)] (borealis_formats.py:369, 394, ...). *)
Definition dict_update {A} (d e : dict A) : dict A :=
  fold_left (fun d p => dict_set d (fst p) (snd p)) e d.

(** [d.pop(k)] for a key that is present (borealis_formats.py:511-512, 566-567,
    2291-2293). *)
Definition dict_pop {A} (d : dict A) (k : pystr) : dict A :=
  filter (fun p => negb (str_eqb (fst p) k)) d.

(** [d[k].extend(l)], [d[k].append(x)] (borealis_formats.py:375, 513-519). *)
Definition dict_extend {A} (d : dict (list A)) (k : pystr) (l : list A) : dict (list A) :=
  map (fun p => if str_eqb (fst p) k then (fst p, snd p ++ l) else p) d.

(** [list.remove] (borealis_formats.py:422): the first occurrence. *)
Fixpoint list_remove (l : list pystr) (k : pystr) : list pystr :=
  match l with
  | [] => []
  | x :: l' => if str_eqb x k then l' else x :: list_remove l' k
  end.
