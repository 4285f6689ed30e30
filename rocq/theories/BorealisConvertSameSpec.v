(** Words for converting a site file and the array file made of it. *)
From Coq Require Import String ZArith List.
From Verif Require Import Base SDarnFormats BorealisTypes BorealisFormats BorealisArrays BorealisCatalogue.
Import ListNotations.
Open Scope Z_scope.

(** Phase offsets that come through both kinds of file: none, or one for each pulse; not
    two, where they are a common field. *)
Definition phases_alike (g : generation) (r : brecord) : Prop :=
  exists s l ty p l', dict_get r (str "pulse_phase_offset") = Some (BArr BF32 s l) /\ length l = size s /\
    dict_get r (str "pulses") = Some (BArr ty [p] l') /\
    (s = [0%nat] \/ (s = [p] /\ (p <> 2%nat \/ role_of g Bfiq (str "pulse_phase_offset") Varying))).

(** A row of phase offsets for each sequence, of two or more pulses. *)
Definition rows_of_phases (r : brecord) : Prop :=
  exists n q l, dict_get r (str "pulse_phase_offset") = Some (BArr BF32 [n; q] (map CZ l)) /\ length l = (n * q)%nat /\ (1 <= n)%nat /\ (2 <= q)%nat.
