(** Specification of the groups that restructuring an array file makes. *)
From Coq Require Import String ZArith List Bool.
From Verif Require Import Base SDarnFormats BorealisTypes BorealisFormats BorealisFile BorealisFileSpec.
Import ListNotations.
Open Scope list_scope.

(** The array of timestamps has [n] rows; row [j] starts with the float [b]. *)
Definition time_rows (f : hfile) (n : nat) : Prop :=
  exists d al ds, In (str "sqn_timestamps", HDset d al) (h_items f) /\ hd_shape d = n :: ds.
Definition row_time (f : hfile) (j : nat) (b : Z) : Prop :=
  exists d al n w, In (str "sqn_timestamps", HDset d al) (h_items f) /\ hd_shape d = [n; w] /\
    (j < n)%nat /\ nth_error (hd_data d) (j * w) = Some (CZ b).

(** The members and attributes of the output file before: none if there is no file. *)
Definition output_before (fs : hfs) (o : pystr) (f : hfile) : Prop :=
  holds fs o f \/ (fs o = None /\ f = mk_hfile [] []).
