(** Specification of the checks of BorealisUtilities for any tables of fields, not
    only those of the Borealis formats. *)
From Coq Require Import ZArith List Bool.
From Verif Require Import Base SDarnFormats BorealisTypes BorealisSpec.
Import ListNotations.
Open Scope list_scope.

(** ** Names *)

(** [k] is a field of one of the tables. *)
Definition declared (tables : list (dict btype)) (k : pystr) : Prop :=
  exists t, In t tables /\ In k (keys t).

Definition lacking (tables : list (dict btype)) (names : list pystr) (k : pystr) : Prop :=
  declared tables k /\ ~ In k names.

Definition unknown (tables : list (dict btype)) (names : list pystr) (k : pystr) : Prop :=
  In k names /\ ~ declared tables k.

(** No two of the tables have a field in common. *)
Definition apart (tables : list (dict btype)) : Prop :=
  forall pre t mid u post, tables = pre ++ t :: mid ++ u :: post ->
    forall k, In k (keys t) -> ~ In k (keys u).

(** No field is there, and each is declared by one table only. *)
Definition nothing_there (tables : list (dict btype)) (names : list pystr) : Prop :=
  (forall k, declared tables k -> ~ In k names) /\ apart tables.

(** ** Types of a record *)

(** A line of one of the two tables of types. *)
Inductive line : Type :=
| Attr (k : pystr) (t : btype)
| Dset (k : pystr) (t : btype).

Definition line_name (p : line) : pystr := match p with Attr k _ | Dset k _ => k end.

(** The lines in the order in which they are looked at. *)
Definition all_lines (attrs dsets : dict btype) : list line :=
  map (fun p => Attr (fst p) (snd p)) attrs ++ map (fun p => Dset (fst p) (snd p)) dsets.

(** The record has the field, and a value whose type can be told. *)
Inductive judged (r : brecord) : line -> Prop :=
| judged_attr : forall k t v, In (k, v) r -> ~ attr_foreign t v -> judged r (Attr k t)
| judged_dset : forall k t v t', In (k, v) r -> np_type v t' -> judged r (Dset k t).

(** The record has the field with the type of the line. *)
Inductive fits (r : brecord) : line -> Prop :=
| fits_attr : forall k t v, In (k, v) r -> attr_ok t v -> fits r (Attr k t)
| fits_dset : forall k t v, In (k, v) r -> np_type v t -> fits r (Dset k t).

(** ** Types of an array dictionary *)

Definition is_array (v : bval) : Prop := exists t s l, v = BArr t s l.

(** All these fields are there. *)
Definition there (names : list pystr) (r : brecord) : Prop := forall k, In k names -> In k (keys r).

(** The attributes are there, are no arrays, and have types that can be told. *)
Definition attrs_judged (attrs : dict btype) (r : brecord) : Prop :=
  there (keys attrs) r /\
  forall k t v, In (k, t) attrs -> In (k, v) r -> ~ is_array v /\ ~ attr_foreign t v.

(** The datasets are there and are arrays. *)
Definition dsets_arrays (dsets : dict btype) (r : brecord) : Prop :=
  there (keys dsets) r /\ forall k v, In k (keys dsets) -> In (k, v) r -> is_array v.

Definition ill_typed (attrs dsets : dict btype) (r : brecord) (k : pystr) : Prop :=
  exists t v, In (k, v) r /\
    ((In (k, t) attrs /\ ~ attr_ok t v) \/ (In (k, t) dsets /\ ~ dset_array_ok k t v)).

(** What the check of the types says; each case excludes those before it. *)
Inductive array_types (attrs dsets : dict btype) (r : brecord) : res unit -> Prop :=
| at_attr_absent : forall k, In k (keys attrs) -> ~ In k (keys r) ->
    array_types attrs dsets r (Raise KeyError)
| at_attr_array : forall k v, there (keys attrs) r -> In k (keys attrs) -> In (k, v) r -> is_array v ->
    array_types attrs dsets r (Raise BorealisStructureError)
| at_foreign : forall k t v, there (keys attrs) r ->
    (forall k v, In k (keys attrs) -> In (k, v) r -> ~ is_array v) ->
    In (k, t) attrs -> In (k, v) r -> attr_foreign t v ->
    array_types attrs dsets r (Raise AttributeError)
| at_dset_absent : forall k, attrs_judged attrs r -> In k (keys dsets) -> ~ In k (keys r) ->
    array_types attrs dsets r (Raise KeyError)
| at_dset_single : forall k v, attrs_judged attrs r -> there (keys dsets) r ->
    In k (keys dsets) -> In (k, v) r -> ~ is_array v ->
    array_types attrs dsets r (Raise BorealisStructureError)
| at_wrong : forall l, attrs_judged attrs r -> dsets_arrays dsets r ->
    l <> [] -> lists l (ill_typed attrs dsets r) ->
    array_types attrs dsets r (Raise (BorealisDataFormatTypeError l))
| at_good : attrs_judged attrs r -> dsets_arrays dsets r ->
    (forall k, ~ ill_typed attrs dsets r k) -> array_types attrs dsets r (Ok tt).

(** The same outcome, but for the order of the fields. *)
Definition same_outcome (x y : res unit) : Prop :=
  x = y \/ exists l l', x = Raise (BorealisDataFormatTypeError l) /\
    y = Raise (BorealisDataFormatTypeError l') /\ forall k, In k l <-> In k l'.

(** ** Numbers of records *)

(** The record has the field, with a value that has a shape. *)
Inductive shaped (r : brecord) (k : pystr) : Prop :=
| shaped_scalar : forall t c, In (k, BScalar t c) r -> shaped r k
| shaped_array  : forall t s l, In (k, BArr t s l) r -> shaped r k
| shaped_empty  : forall t, In (k, BEmpty t) r -> shaped r k.

(** An array with [n] entries along its first dimension. *)
Definition has_entries (r : brecord) (n : nat) (k : pystr) : Prop :=
  exists t s l, In (k, BArr t (n :: s) l) r.

Definition counted (r : brecord) (k : pystr) : Prop := exists n, has_entries r n k.
