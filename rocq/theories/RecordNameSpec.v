(** What C108 says about names of records. *)
From Coq Require Import ZArith List Sorting.Sorted.
From Verif Require Import Base FloatSpec.
Open Scope Z_scope.

(** One second in the units of [f64_val], which are 2^-1074. *)
Definition second : Z := 2 ^ 1074.

(** The bits of a number that is not negative ([-0.0] left out). *)
Definition not_negative (b : Z) : Prop := 0 <= b < 2 ^ 63.

(** A time between 2001-09-09 and 2286-11-20: from a second after
    10^9 seconds to a second before 10^10 seconds. *)
Definition in_era (b : Z) : Prop :=
  not_negative b /\ 1000000001 * second <= f64_val b <= 9999999999 * second.

(** [b'] is more than 1.1 milliseconds after [b]. *)
Definition well_after (b b' : Z) : Prop := 11 * second < 10000 * (f64_val b' - f64_val b).
