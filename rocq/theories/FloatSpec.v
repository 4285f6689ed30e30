(** What finite IEEE numbers mean, for the statements about float scalars.
    Independent of the conversion functions of FloatBits.v (it shares only the
    field extraction). *)
From Coq Require Import ZArith Bool.
From Verif Require Import FloatBits.
Open Scope Z_scope.

(** Value of a finite binary32 number in units of 2^-149, and of a finite
    binary64 number in units of 2^-1074 (IEEE 754). *)
Definition f32_val (b : Z) : Z :=
  let sig := if f32_exp b =? 0 then f32_man b else f32_man b + 2 ^ 23 in
  (if f32_sign b =? 0 then 1 else -1) * sig * 2 ^ (Z.max (f32_exp b) 1 - 1).
Definition f64_val (b : Z) : Z :=
  let sig := if f64_exp b =? 0 then f64_man b else f64_man b + 2 ^ 52 in
  (if f64_sign b =? 0 then 1 else -1) * sig * 2 ^ (Z.max (f64_exp b) 1 - 1).

