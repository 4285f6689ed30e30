(** Small vocabulary about byte strings used in the specifications. *)
From Coq Require Import ZArith List.
From Verif Require Import Base.
Import ListNotations.
Open Scope Z_scope.

(** [x] stands in [buf] at position [c]. *)
Definition occurs (buf : bytes) (c : Z) (x : bytes) : Prop :=
  exists pre post, buf = pre ++ x ++ post /\ zlen pre = c.

(** Little-endian number. *)
Definition le_num (bs : bytes) : Z := fold_right (fun b acc => b + 256 * acc) 0 bs.
