(** Specification of the files that BorealisRestructure can restructure like the
    readers do it in memory. *)
From Coq Require Import String ZArith List Bool.
From Verif Require Import Base SDarnFormats BorealisTypes BorealisFormats BorealisFile BorealisSpec BorealisFileSpec
  BorealisShapes.
Import ListNotations.
Open Scope list_scope.
Open Scope Z_scope.

(** A field of texts. *)
Definition text_name (F : format) (k : pystr) : Prop :=
  exists t, (In (k, t) (fm_array F) \/ In (k, t) (fm_single F)) /\ (t = BStr \/ t = BNpStr).

(** The fields with the names of the data's dimensions. *)
Definition names_of_dims (k : pystr) : Prop := k = str "data_descriptors" \/ k = str "correlation_descriptors".

(** An array file laid out as the format says: the shared single elements are
    attributes, all other fields datasets; the texts, and only they, are bytes with
    an item size (but the names of the data's dimensions, which are not used, may
    be either); no name stands for two things. *)
Definition array_layout (F : format) (f : hfile) : Prop :=
  NoDup (keys (h_items f)) /\ NoDup (keys (h_attrs f)) /\
  (forall k, In k (keys (h_items f)) -> ~ In k (keys (h_attrs f))) /\
  (forall k t, array_attr F k t -> In k (keys (h_attrs f))) /\
  (forall k t, array_dset F k t ->
     exists d al, In (k, HDset d al) (h_items f) /\
       (names_of_dims k \/ (hd_item d <> None <-> text_name F k))).

(** The numbers of sequences, beams and blanked samples are not negative. *)
Definition count_fields : list pystr :=
  [str "num_sequences"; str "num_beams"; str "num_blanked_samples"].
Definition counts_not_negative (a : brecord) : Prop :=
  forall k t s l z, In k count_fields -> dict_get a k = Some (BArr t s l) -> In (CZ z) l -> 0 <= z.

(** The phase offsets, if there are any, are at least as many as each record has
    sequences. *)
Definition phases_enough (a : brecord) : Prop :=
  forall t s l t' s' l' z, dict_get a (str "pulse_phase_offset") = Some (BArr t s l) ->
    dict_get a (str "num_sequences") = Some (BArr t' s' l') -> In (CZ z) l' ->
    (exists n, s = [n; 0%nat]) \/ z <= Z.of_nat (size s).

(** The phase offsets do not have the shape (2,) of broken files. *)
Definition phases_whole (f : hfile) : Prop :=
  forall d al, In (str "pulse_phase_offset", HDset d al) (h_items f) -> hd_shape d <> [2%nat].

(** [n] timestamps. *)
Definition number_of_times (a : brecord) (n : nat) : Prop :=
  exists t ds l, dict_get a (str "sqn_timestamps") = Some (BArr t (n :: ds) l).

(** ** Site files *)

(** How a single element is stored: a text as a byte string of fixed length (an
    empty one without any elements only if all records share it), a number as
    itself. *)
Definition attr_stored (F : format) (k : pystr) (x : hattr) : Prop :=
  (text_name F k -> (exists b, x = HBytes b) \/ (x = HEmpty BBytes /\ In k (fm_shared F))) /\
  (~ text_name F k -> exists v, x = HValue v).

(** A group laid out as the format says: the single elements are attributes, all
    other fields datasets; the texts, and only they, are bytes with an item size;
    no name stands for two things. *)
Definition group_layout (F : format) (i : hitem) : Prop :=
  exists ds als, i = HGroup ds als /\ NoDup (keys ds) /\ NoDup (keys als) /\
    (forall k, In k (keys ds) -> ~ In k (keys als)) /\
    (forall k t, site_attr F k t -> exists x, In (k, x) als /\ attr_stored F k x) /\
    (forall k t, site_dset F k t -> exists d, In (k, d) ds /\ (hd_item d <> None <-> text_name F k)).

(** A site file: groups, none of them called borealis_git_hash, and no attributes of
    the file but those that HDF5 tools add. *)
Definition site_layout (F : format) (f : hfile) : Prop :=
  NoDup (keys (h_items f)) /\ ~ In (str "borealis_git_hash") (keys (h_items f)) /\
  (forall k, In k (keys (h_attrs f)) -> In k (map str ["CLASS"; "TITLE"; "VERSION";
     "DEEPDISH_IO_VERSION"; "PYTABLES_FORMAT_VERSION"]%string)) /\
  (forall n i, In (n, i) (h_items f) -> group_layout F i).

(** No record has more beams than the first. *)
Definition widest_first (cs : list counts) : Prop :=
  match cs with
  | [] => True
  | c0 :: _ => forall c, In c cs -> (c_beam c <= c_beam c0)%nat
  end.

(** The phase offsets, if there are any, are one for each pulse of each sequence. *)
Definition phases_of_pulses (r : brecord) : Prop :=
  forall ty s l ty' s' l' ty'' z,
    dict_get r (str "pulse_phase_offset") = Some (BArr ty s l) ->
    dict_get r (str "pulses") = Some (BArr ty' s' l') ->
    dict_get r (str "num_sequences") = Some (BScalar ty'' (CZ z)) ->
    size s = 0%nat \/ Z.of_nat (size s) = z * Z.of_nat (size s').
