(** Specification of C105. *)
From Coq Require Import ZArith List.
From Verif Require Import Base DmapTypes DmapSpec.
Import ListNotations.
Open Scope Z_scope.

(** Where the blocks of these lengths end. *)
Fixpoint sum (ns : list Z) : Z := match ns with [] => 0 | n :: ns' => n + sum ns' end.

(** No array of the block has a negative size. *)
Definition tame (b : block) : Prop := Forall (fun a => Forall (fun n => 0 <= n) (ar_shape a)) (snd b).
