(** What the Borealis field checks should accept, stated on the tables of
    single-element and array types of a format. *)
From Coq Require Import String ZArith List Bool.
From Verif Require Import Base SDarnFormats BorealisTypes BorealisFormats.
Import ListNotations.
Open Scope list_scope.
Open Scope Z_scope.

(** Field names of a dictionary. *)
Definition keys {A} (d : dict A) : list pystr := map fst d.

(** File types that hold data in site and array structure. *)
Definition has_structures (t : filetype) : Prop := t <> Rawrf.

(** Fields that only exist in array structure. *)
Definition array_only (k : pystr) : Prop :=
  k = str "num_beams" \/ k = str "num_blanked_samples".

(** Fields that only exist in site structure. *)
Definition site_only (k : pystr) : Prop :=
  k = str "data_dimensions" \/ k = str "correlation_dimensions".

(** Attributes and datasets of a site record, with their types. *)
Definition site_attr (F : format) (k : pystr) (t : btype) : Prop :=
  In (k, t) (fm_single F) /\ ~ array_only k.
Definition site_dset (F : format) (k : pystr) (t : btype) : Prop :=
  In (k, t) (fm_array F).

(** Attributes and datasets of an array file: a single-element field is an
    attribute if the records share it, else a dataset with one element per
    record. *)
Definition array_attr (F : format) (k : pystr) (t : btype) : Prop :=
  In (k, t) (fm_single F) /\ In k (fm_shared F).
Definition array_dset (F : format) (k : pystr) (t : btype) : Prop :=
  (In (k, t) (fm_array F) /\ ~ site_only k) \/ (In (k, t) (fm_single F) /\ ~ In k (fm_shared F)).

(** The fields that have one entry per record in an array file. *)
Definition per_record (F : format) (k : pystr) : Prop :=
  exists d, fm_dims_array F = Ok d /\ In k (keys d).

(** ** Values *)

(** An attribute of type [t]: a value of that very type, or an h5py.Empty. *)
Inductive attr_ok (t : btype) : bval -> Prop :=
| attr_scalar : forall c, attr_ok t (BScalar t c)
| attr_text   : forall s, t = BStr -> attr_ok t (BText s)
| attr_empty  : forall t', attr_ok t (BEmpty t').

(** A value whose type cannot be judged: it is no numpy value and no text where a
    text is due. *)
Inductive attr_foreign (t : btype) : bval -> Prop :=
| foreign_plain : attr_foreign t BPlain
| foreign_text  : forall s, t <> BStr -> attr_foreign t (BText s).

(** The numpy type of a value. *)
Inductive np_type : bval -> btype -> Prop :=
| np_scalar : forall t c, np_type (BScalar t c) t
| np_array  : forall t s l, np_type (BArr t s l) t
| np_empty  : forall t, np_type (BEmpty t) t.

(** ** Verdict on one site record *)

(** A field of the format that the record lacks. *)
Definition site_field (F : format) (k : pystr) : Prop :=
  exists t, site_attr F k t \/ site_dset F k t.
Definition lacks (F : format) (r : brecord) (k : pystr) : Prop :=
  site_field F k /\ ~ In k (keys r).
Definition surplus (F : format) (r : brecord) (k : pystr) : Prop :=
  In k (keys r) /\ ~ site_field F k.

(** A field of a wrong type. *)
Definition wrong (F : format) (r : brecord) (k : pystr) : Prop :=
  exists v t, In (k, v) r /\
    ((site_attr F k t /\ ~ attr_ok t v) \/ (site_dset F k t /\ ~ np_type v t)).

(** A field whose type cannot be judged. *)
Definition foreign (F : format) (r : brecord) (k : pystr) : Prop :=
  exists v t, In (k, v) r /\
    ((site_attr F k t /\ attr_foreign t v) \/
     (site_dset F k t /\ forall t', ~ np_type v t')).

(** [l] lists exactly the names with property [P]. *)
Definition lists (l : list pystr) (P : pystr -> Prop) : Prop := forall k, In k l <-> P k.

(** The one thing said about a record; the first that applies. *)
Inductive verdict (F : format) (r : brecord) : res unit -> Prop :=
| v_no_field : (forall k, site_field F k -> ~ In k (keys r)) ->
    verdict F r (Raise BorealisStructureError)
| v_missing : forall l, lists l (lacks F r) -> l <> [] ->
    (exists k, site_field F k /\ In k (keys r)) ->
    verdict F r (Raise (BorealisFieldMissingError l))
| v_extra : forall l, (forall k, ~ lacks F r k) -> lists l (surplus F r) -> l <> [] ->
    verdict F r (Raise (BorealisExtraFieldError l))
| v_foreign : forall k, (forall k, ~ lacks F r k) -> (forall k, ~ surplus F r k) ->
    foreign F r k -> verdict F r (Raise AttributeError)
| v_wrong : forall l, (forall k, ~ lacks F r k) -> (forall k, ~ surplus F r k) ->
    (forall k, ~ foreign F r k) -> lists l (wrong F r) -> l <> [] ->
    verdict F r (Raise (BorealisDataFormatTypeError l))
| v_good : (forall k, ~ lacks F r k) -> (forall k, ~ surplus F r k) ->
    (forall k, ~ wrong F r k) -> verdict F r (Ok tt).

(** A good site record. *)
Definition site_record_ok (F : format) (r : brecord) : Prop :=
  (forall k, In k (keys r) <-> site_field F k) /\
  (forall k v t, In (k, v) r -> site_attr F k t -> attr_ok t v) /\
  (forall k v t, In (k, v) r -> site_dset F k t -> np_type v t).

(** Dictionaries of records whose keys are distinct. *)
Definition proper (rs : brecords) : Prop :=
  NoDup (keys rs) /\ forall n r, In (n, r) rs -> NoDup (keys r).

(** [d] has an entry for exactly the records with a verdict [E l], and the entry
    is such an [l]. *)
Definition reports (F : format) (rs : brecords) (d : dict (list pystr)) (E : list pystr -> exn) : Prop :=
  (forall n, In n (keys d) <-> exists r l, In (n, r) rs /\ verdict F r (Raise (E l))) /\
  (forall n l r, In (n, l) d -> In (n, r) rs -> verdict F r (Raise (E l))).

(** ** Array dictionaries *)

(** A field of the array file. *)
Definition array_field (F : format) (k : pystr) : Prop :=
  exists t, array_attr F k t \/ array_dset F k t.

(** A dataset of type [t]: an array of that type or of texts; besides, a
    pulse_phase_offset of two int64 values is let through. *)
Inductive dset_array_ok (k : pystr) (t : btype) : bval -> Prop :=
| dset_typed  : forall s l, dset_array_ok k t (BArr t s l)
| dset_text   : forall s l, dset_array_ok k t (BArr BNpStr s l)
| dset_broken : forall l, k = str "pulse_phase_offset" ->
    dset_array_ok k t (BArr BI64 [2%nat] l).

(** A good array dictionary. *)
Definition arrays_ok (F : format) (a : brecord) : Prop :=
  (forall k, In k (keys a) <-> array_field F k) /\
  (forall k v t, In (k, v) a -> array_attr F k t -> attr_ok t v) /\
  (forall k v t, In (k, v) a -> array_dset F k t -> dset_array_ok k t v) /\
  (exists n, forall k v, In (k, v) a -> per_record F k ->
     exists t ds l, v = BArr t (n :: ds) l).

(** The one thing said about an array dictionary; the first that applies. *)
Definition array_lacks (F : format) (a : brecord) (k : pystr) : Prop :=
  array_field F k /\ ~ In k (keys a).
Definition array_surplus (F : format) (a : brecord) (k : pystr) : Prop :=
  In k (keys a) /\ ~ array_field F k.
Definition exact_fields (F : format) (a : brecord) : Prop :=
  forall k, In k (keys a) <-> array_field F k.
Definition attr_array (F : format) (a : brecord) : Prop :=
  exists k v t, In (k, v) a /\ array_attr F k t /\ exists t' s l, v = BArr t' s l.
Definition attr_unjudged (F : format) (a : brecord) : Prop :=
  exists k v t, In (k, v) a /\ array_attr F k t /\ attr_foreign t v.
Definition dset_no_array (F : format) (a : brecord) : Prop :=
  exists k v t, In (k, v) a /\ array_dset F k t /\ forall t' s l, v <> BArr t' s l.
Definition array_wrong (F : format) (a : brecord) (k : pystr) : Prop :=
  exists v t, In (k, v) a /\
    ((array_attr F k t /\ ~ attr_ok t v) \/ (array_dset F k t /\ ~ dset_array_ok k t v)).
Definition same_counts (F : format) (a : brecord) : Prop :=
  exists n, forall k v, In (k, v) a -> per_record F k -> exists t ds l, v = BArr t (n :: ds) l.

Inductive array_verdict (F : format) (a : brecord) : res unit -> Prop :=
| av_no_field : (forall k, array_field F k -> ~ In k (keys a)) ->
    array_verdict F a (Raise BorealisStructureError)
| av_missing : forall l, lists l (array_lacks F a) -> l <> [] ->
    (exists k, array_field F k /\ In k (keys a)) ->
    array_verdict F a (Raise (BorealisFieldMissingError l))
| av_extra : forall l, (forall k, ~ array_lacks F a k) -> lists l (array_surplus F a) -> l <> [] ->
    array_verdict F a (Raise (BorealisExtraFieldError l))
| av_attr_array : exact_fields F a -> attr_array F a ->
    array_verdict F a (Raise BorealisStructureError)
| av_unjudged : exact_fields F a -> ~ attr_array F a -> attr_unjudged F a ->
    array_verdict F a (Raise AttributeError)
| av_no_array : exact_fields F a -> ~ attr_array F a -> ~ attr_unjudged F a -> dset_no_array F a ->
    array_verdict F a (Raise BorealisStructureError)
| av_wrong : forall l, exact_fields F a -> ~ attr_array F a -> ~ attr_unjudged F a ->
    ~ dset_no_array F a -> lists l (array_wrong F a) -> l <> [] ->
    array_verdict F a (Raise (BorealisDataFormatTypeError l))
| av_counts : exact_fields F a -> (forall k, ~ array_wrong F a k) -> ~ same_counts F a ->
    array_verdict F a (Raise BorealisNumberOfRecordsError)
| av_good : arrays_ok F a -> array_verdict F a (Ok tt).
