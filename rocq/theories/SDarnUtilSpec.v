(** Specification of the field checks of SDarnUtilities for any lists of field
    groups, not only those of the six file types. *)
From Coq Require Import ZArith List Bool.
From Verif Require Import Base DmapTypes SDarnFormats.
Import ListNotations.

(** A group is a dictionary of field names and formats. *)
Definition dictionary (g : group) : Prop := NoDup (map fst g).

(** Two groups are the same dictionary, in whatever order. *)
Definition same_group (g o : group) : Prop := forall k f, In (k, f) g <-> In (k, f) o.

(** [k] is missing: it is in a group that is not one of the optional ones, and the
    record has another field of that group but not [k]. *)
Definition missing (gs opts : list group) (r : record) (k : pystr) : Prop :=
  exists g, In g gs /\ (forall o, In o opts -> ~ same_group g o) /\
    In k (map fst g) /\ ~ In k (map fst r) /\ exists k', In k' (map fst g) /\ In k' (map fst r).

(** [k] is extra: a field of the record that is in no group. *)
Definition extra (gs : list group) (r : record) (k : pystr) : Prop :=
  In k (map fst r) /\ forall g, In g gs -> ~ In k (map fst g).

(** The format declared for [k]: the last group with such a field decides. *)
Definition declares (gs : list group) (k : pystr) (f : fmt) : Prop :=
  exists pre g post, gs = pre ++ g :: post /\ In (k, f) g /\
    forall g', In g' post -> ~ In k (map fst g').

(** The format an item has, if it is a DMAP structure. *)
Definition format_of (it : item) (f : fmt) : Prop :=
  match it with
  | IScalar s => sc_fmt s = f
  | IArray a => ar_fmt a = f
  | IPlain _ => False
  end.

(** A field that can be compared: a DMAP structure whose name is in some group. *)
Definition comparable (gs : list group) (p : pystr * item) : Prop :=
  (exists f, format_of (snd p) f) /\ exists g, In g gs /\ In (fst p) (map fst g).

Definition mistyped (gs : list group) (p : pystr * item) : Prop :=
  exists f d, format_of (snd p) f /\ declares gs (fst p) d /\ f <> d.
