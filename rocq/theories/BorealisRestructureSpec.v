(** Specification for BorealisRestructure. *)
From Coq Require Import String ZArith List Bool.
From Verif Require Import Base SDarnFormats BorealisTypes BorealisFormats BorealisFile BorealisSpec BorealisFileSpec.
Import ListNotations.
Open Scope list_scope.

(** An array file has a member or an attribute of the root named borealis_git_hash; any
    other file is a site file. *)
Definition array_file (f : hfile) : Prop :=
  In (str "borealis_git_hash") (keys (h_items f)) \/ In (str "borealis_git_hash") (keys (h_attrs f)).

(** The structure and the version of a file. *)
Definition has_structure (f : hfile) (s : pystr) : Prop :=
  (s = str "array" /\ array_file f) \/ (s = str "site" /\ ~ array_file f).
Definition has_version (f : hfile) (v : pystr) : Prop :=
  exists h, hash_version h v /\ (root_hash f h \/ (~ array_file f /\ first_hash f h)).
