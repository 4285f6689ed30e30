(** What writing to a file that is there should do, and which files have no hash. *)
From Coq Require Import String ZArith List.
From Verif Require Import Base SDarnFormats BorealisTypes BorealisSpec BorealisFile BorealisFileSpec.
Import ListNotations.
Open Scope list_scope.

(** Every member of [f] is in [f'], unchanged. *)
Definition keeps (f f' : hfile) : Prop :=
  forall n i, dict_get (h_items f) n = Some i -> dict_get (h_items f') n = Some i.

(** What is in the file [name] stays there; a file that is not HDF5 stays as it
    is. *)
Definition file_kept (name : pystr) (fs fs' : hfs) : Prop :=
  (forall f, holds fs name f -> exists f', holds fs' name f' /\ keeps f f') /\
  (fs name = Some NotHdf -> fs' name = Some NotHdf).

(** No member, or a first member without hash. *)
Definition no_first_hash (f : hfile) : Prop :=
  h_items f = [] \/
  exists n i, In (n, i) (h_items f) /\ (forall n', In n' (keys (h_items f)) -> n' = n \/ str_lt n n') /\
    ~ In (str "borealis_git_hash") (keys (item_attrs i)).

(** A group of a file. *)
Definition is_group (i : hitem) : Prop := exists ds als, i = HGroup ds als.

(** The attributes that PyTables and deepdish add. *)
Definition library_attrs : list pystr :=
  [str "CLASS"; str "TITLE"; str "VERSION"; str "DEEPDISH_IO_VERSION"; str "PYTABLES_FORMAT_VERSION"].
Definition of_library (k : pystr) : Prop := In k library_attrs.

(** The same attributes, in the same order, but for those of the libraries. *)
Inductive same_attrs : dict hattr -> dict hattr -> Prop :=
| sa_nil   : same_attrs [] []
| sa_both  : forall k a d e, same_attrs d e -> same_attrs ((k, a) :: d) ((k, a) :: e)
| sa_left  : forall k a d e, of_library k -> same_attrs d e -> same_attrs ((k, a) :: d) e
| sa_right : forall k a d e, of_library k -> same_attrs d e -> same_attrs d ((k, a) :: e).

(** The same members and the same files, but for such attributes. *)
Inductive same_item : hitem -> hitem -> Prop :=
| si_group : forall ds a b, same_attrs a b -> same_item (HGroup ds a) (HGroup ds b)
| si_dset  : forall d a b, same_attrs a b -> same_item (HDset d a) (HDset d b).
Definition same_file (f f' : hfile) : Prop :=
  Forall2 (fun p q => fst p = fst q /\ same_item (snd p) (snd q)) (h_items f) (h_items f') /\
  same_attrs (h_attrs f) (h_attrs f').
