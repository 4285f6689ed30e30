(** Specification of array files that come back from site files. *)
From Coq Require Import String ZArith List Bool.
From Verif Require Import Base SDarnFormats BorealisTypes BorealisFormats BorealisFile BorealisSpec BorealisFileSpec
  BorealisRestructureFileSpec.
Import ListNotations.
Open Scope list_scope.

(** Only texts are stored as empty attributes. *)
Definition no_empty_numbers (F : format) (f : hfile) : Prop :=
  forall k t, In (k, HEmpty t) (h_attrs f) -> text_name F k.

(** The phase offsets, if there are any, are one for each pulse. *)
Definition phases_shaped (r : brecord) : Prop :=
  forall v p s sp, dict_get r (str "pulse_phase_offset") = Some v -> dict_get r (str "pulses") = Some p ->
    has_shape v s -> has_shape p sp -> s = sp.

(** There are several phase offsets, and not one for each pulse of each sequence. *)
Definition wrong_phases (r : brecord) : Prop :=
  exists ty s l ty' s' l' ty'' z,
    dict_get r (str "pulse_phase_offset") = Some (BArr ty s l) /\
    dict_get r (str "pulses") = Some (BArr ty' s' l') /\
    dict_get r (str "num_sequences") = Some (BScalar ty'' (CZ z)) /\
    (2 <= size s)%nat /\ Z.of_nat (size s) <> (z * Z.of_nat (size s'))%Z.

(** Several pulses and several sequences. *)
Definition several_pulses (r : brecord) : Prop :=
  exists ty s l ty' z,
    dict_get r (str "pulses") = Some (BArr ty s l) /\ (2 <= size s)%nat /\
    dict_get r (str "num_sequences") = Some (BScalar ty' (CZ z)) /\ (2 <= z)%Z.
