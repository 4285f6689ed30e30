(** Specification of decimal numerals, for the texts made of numbers. *)
From Coq Require Import ZArith List.
From Verif Require Import Base.
Import ListNotations.
Open Scope Z_scope.

(** A text of decimal digits, without zeros in front, and its value. *)
Definition digit (c : Z) : Prop := 48 <= c <= 57.
Definition digits_value (s : pystr) : Z := fold_left (fun a c => 10 * a + (c - 48)) s 0.
Definition natural_numeral (z : Z) (s : pystr) : Prop :=
  Forall digit s /\ digits_value s = z /\ (s = [48] \/ exists c s', s = c :: s' /\ c <> 48).
(** str(z): 45 is '-'. *)
Definition numeral (z : Z) (s : pystr) : Prop :=
  0 <= z /\ natural_numeral z s \/ z < 0 /\ exists s', s = 45 :: s' /\ natural_numeral (- z) s'.
