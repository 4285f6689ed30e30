(** What becomes of the values of plain dictionaries in dict2dmap and dmap2dict
    (pydarnio/utils/conversions.py:64-128). *)
From Coq Require Import ZArith List Bool.
From Verif Require Import Base Bytes BytesSpec FloatBits FloatSpec DmapTypes DmapSpec DmapWriteSpec.
Import ListNotations.
Open Scope Z_scope.

(** The numbers of the numpy integer types. *)
Definition of_type (t : npint) (z : Z) : Prop :=
  match t with
  | NI8 => fits true 1 z | NI16 => fits true 2 z | NI32 => fits true 4 z | NI64 => fits true 8 z
  | NU8 => fits false 1 z | NU16 => fits false 2 z | NU32 => fits false 4 z | NU64 => fits false 8 z
  end.
(** A value that can exist: a numpy number within the range of its type. *)
Definition proper (v : pyval) : Prop :=
  match v with VNpInt t z => of_type t z | VF32 b => 0 <= b < 2 ^ 32 | _ => True end.
(** All values of some dictionaries. *)
Definition proper_dicts (rs : list record) : Prop :=
  Forall (Forall (fun p : pystr * item => forall v, snd p = IPlain v -> proper v)) rs.

(** The same number as single [b] and double [b']; an infinity or a NaN stays one. *)
Definition same_float (b b' : Z) : Prop :=
  f64_sign b' = f32_sign b /\
  (f32_exp b <> 255 -> f64_exp b' <> 2047 /\ f64_val b' = f32_val b * 2 ^ 925) /\
  (f32_exp b = 255 -> f64_exp b' = 2047 /\ (f64_man b' = 0 <-> f32_man b = 0)).

(** A value and what it is after both conversions: np.int32 and np.float32 become the
    numbers of Python, lists become arrays, everything else stays. *)
Inductive comes_back : pyval -> pyval -> Prop :=
| cb_int z : comes_back (VInt z) (VInt z)
| cb_int32 z : comes_back (VNpInt NI32 z) (VInt z)
| cb_np t z : t <> NI32 -> comes_back (VNpInt t z) (VNpInt t z)
| cb_float b : comes_back (VFloat b) (VFloat b)
| cb_float32 b b' : same_float b b' -> comes_back (VF32 b) (VFloat b')
| cb_float64 b : comes_back (VF64 b) (VF64 b)
| cb_text s : comes_back (VStr s) (VStr s)
| cb_array a : comes_back (VArr a) (VArr a)
| cb_list l : l <> [] -> comes_back (VIntList l) (VArr (mk_ndarray DI64 false [zlen l] l))
| cb_empty : comes_back (VIntList []) (VArr (mk_ndarray DF64 false [0] [])).
(** The same for a field. *)
Definition field_back (p q : pystr * item) : Prop :=
  fst q = fst p /\ exists v w, snd p = IPlain v /\ snd q = IPlain w /\ comes_back v w.

(** Values that have a DMAP type. *)
Definition supported (it : item) : Prop :=
  match it with
  | IPlain VOther => False
  | IPlain (VArr a) => plain_dtype (nd_dtype a) <> None
  | IPlain (VIntList l) => Forall (fits true 8) l
  | IPlain _ => True
  | _ => False
  end.
(** Lists that the model leaves out: integers of 64 bits, some of them beyond the
    largest int64. *)
Definition left_out (it : item) : Prop :=
  exists l, it = IPlain (VIntList l) /\ Forall (fun z => - 2 ^ 63 <= z < 2 ^ 64) l /\ Exists (fun z => 2 ^ 63 <= z) l.

(** Two items of the same name and type. *)
Definition same_layout (p q : pystr * item) : Prop :=
  fst q = fst p /\
  match snd p, snd q with
  | IScalar s, IScalar s' => sc_name s' = sc_name s /\ sc_type s' = sc_type s /\ sc_fmt s' = sc_fmt s
  | IArray a, IArray a' => a' = a
  | _, _ => False
  end.
