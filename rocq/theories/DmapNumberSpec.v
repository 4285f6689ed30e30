(** Specification of integers given for float, double and text fields: the float
    or the text that stands for them.  Independent of the writer. *)
From Coq Require Import ZArith List Bool.
From Verif Require Import Base FloatBits FloatSpec DmapTypes DmapSpec DmapWriteSpec NumeralSpec.
Import ListNotations.
Open Scope Z_scope.

(** A finite binary64 or binary32 number. *)
Definition finite64 (b : Z) : Prop := 0 <= b < 2 ^ 64 /\ f64_exp b <> 2047.
Definition finite32 (c : Z) : Prop := 0 <= c < 2 ^ 32 /\ f32_exp c <> 255.

(** [b] is the double nearest to the integer [z], of two equally near ones the one
    with an even mantissa; negative only for negative numbers.  Values of doubles
    are in units of 2^-1074.  From half way between the largest double and 2^1024
    on there is none. *)
Definition nearest_double (z b : Z) : Prop :=
  Z.abs z < 2 ^ 1024 - 2 ^ 970 /\ finite64 b /\ (f64_sign b = 1 <-> z < 0) /\
  forall c, finite64 c ->
    Z.abs (z * 2 ^ 1074 - f64_val b) <= Z.abs (z * 2 ^ 1074 - f64_val c) /\
    (Z.abs (z * 2 ^ 1074 - f64_val b) = Z.abs (z * 2 ^ 1074 - f64_val c) ->
     f64_val b <> f64_val c -> Z.even (f64_man b) = true).

(** Likewise for singles; their values are in units of 2^-149. *)
Definition nearest_single (z c : Z) : Prop :=
  finite32 c /\ (f32_sign c = 1 <-> z < 0) /\
  forall d, finite32 d ->
    Z.abs (z * 2 ^ 149 - f32_val c) <= Z.abs (z * 2 ^ 149 - f32_val d) /\
    (Z.abs (z * 2 ^ 149 - f32_val c) = Z.abs (z * 2 ^ 149 - f32_val d) ->
     f32_val c <> f32_val d -> Z.even (f32_man c) = true).

(** [stands_for f v w]: in a field of format [f] the value [w] stands for [v].  For
    an integer that is a float or its decimal numeral; other values stand for
    themselves. *)
Inductive stands_for : fmt -> pyval -> pyval -> Prop :=
| sf_double v z b : int_of v = Some z -> nearest_double z b -> stands_for Fd v (VFloat b)
| sf_single v z b : int_of v = Some z -> v = VInt z \/ Z.abs z <= 2 ^ 53 -> nearest_double z b ->
    stands_for Ff v (VFloat b)
| sf_text v z s : int_of v = Some z -> Z.abs z < 10 ^ 4300 -> numeral z s -> stands_for Fs v (VStr s)
| sf_other f v : (In f [Ff; Fd; Fs] -> int_of v = None) -> stands_for f v v.

Inductive item_stands : item -> item -> Prop :=
| is_scalar_field name v w t f : stands_for f v w ->
    item_stands (IScalar (mk_dscalar name v t f)) (IScalar (mk_dscalar name w t f))
| is_array_field a : item_stands (IArray a) (IArray a).

(** The same names in the same order. *)
Definition record_stands (r r' : record) : Prop :=
  Forall2 (fun p p' => fst p = fst p' /\ item_stands (snd p) (snd p')) r r'.
