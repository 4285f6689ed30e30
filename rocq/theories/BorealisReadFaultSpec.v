(** Words for what can be wrong with a Borealis file, in the order in which a reader meets
    it, and for what a file shows when nothing is.  Independent of the readers. *)
From Coq Require Import String ZArith List Bool Sorted.
From Verif Require Import Base Utf8 SDarnFormats BorealisTypes BorealisFormats BorealisSpec BorealisFile BorealisFileSpec
  DmapWriteFaultSpec BorealisRefuseSpec.
Import ListNotations.
Open Scope list_scope.
Open Scope Z_scope.

(** ** Datasets *)

(** The four bytes of the [p]-th character are those of [z]. *)
Definition point_at (data : list cell) (p : nat) (z : Z) : Prop :=
  exists a b c d, nth_error data (4 * p) = Some (CZ a) /\ nth_error data (4 * p + 1) = Some (CZ b) /\
    nth_error data (4 * p + 2) = Some (CZ c) /\ nth_error data (4 * p + 3) = Some (CZ d) /\
    z = a + 256 * b + 65536 * c + 16777216 * d.

(** A dataset marked as texts holds bytes, as many as its shape says. *)
Definition dset_known (d : hdset) : Prop :=
  hd_item d <> None ->
  hd_item d <> Some 0%nat /\ hd_type d = BU8 /\ length (hd_data d) = size (hd_shape d) /\
  Forall (fun c => exists b, c = CZ b) (hd_data d).

(** A dataset needs a dimension; one of texts of [w] characters is cut into items of
    four bytes for each character. *)
Inductive dset_fault (d : hdset) : fault :=
| df_scalar : hd_shape d = [] -> dset_fault d ValueError
| df_cut    : forall w s n, hd_item d = Some w -> hd_shape d = s ++ [n] ->
    (forall k, n <> k * (4 * w))%nat -> dset_fault d ValueError.

(** What a dataset shows: its array, or an array of texts without trailing NULs. *)
Inductive dset_shows (d : hdset) : bval -> Prop :=
| ds_array : hd_shape d <> [] -> hd_item d = None -> dset_shows d (BArr (hd_type d) (hd_shape d) (hd_data d))
| ds_texts : forall w s k ts, hd_item d = Some w -> hd_shape d = s ++ [(k * (4 * w))%nat] -> length ts = size (s ++ [k]) ->
    (forall i t, nth_error ts i = Some t ->
       (length t <= w)%nat /\ last t 1 <> 0 /\ forall j, (j < w)%nat -> point_at (hd_data d) (i * w + j) (nth j t 0)) ->
    dset_shows d (BArr BNpStr (s ++ [k]) (map CS ts)).

(** ** Attributes *)

(** The attributes the reader is judged on: texts, empty numbers and byte strings,
    scalars and arrays. *)
Inductive attr_known : hattr -> Prop :=
| ak_bytes : forall b, attr_known (HBytes b)
| ak_str   : forall s, attr_known (HStr s)
| ak_none  : attr_known (HEmpty BBytes)
| ak_zero  : forall t, number_type t -> attr_known (HEmpty t)
| ak_value : forall v s, has_shape v s -> attr_known (HValue v).

(** Byte strings are decoded. *)
Definition attr_fault (a : hattr) : fault :=
  fun e => e = UnicodeDecodeError /\ exists b, a = HBytes b /\ utf8_dec b = None.

(** The complex types. *)
Definition complex_type (t : btype) : Prop := t = BC64 \/ t = BC128.

(** What an attribute shows: an empty one shows the zero of its type. *)
Inductive attr_shows : hattr -> bval -> Prop :=
| as_bytes   : forall b s, utf8_dec b = Some s -> attr_shows (HBytes b) (BText s)
| as_str     : forall s, attr_shows (HStr s) (BText s)
| as_none    : attr_shows (HEmpty BBytes) (BText [])
| as_zero    : forall t, number_type t -> ~ complex_type t -> attr_shows (HEmpty t) (BScalar t (CZ 0))
| as_complex : forall t, complex_type t -> attr_shows (HEmpty t) (BScalar t (CC 0 0))
| as_value   : forall v, attr_shows (HValue v) v.

(** The attributes that are no fields. *)
Definition bookkeeping (k : pystr) : Prop :=
  In k [str "CLASS"; str "TITLE"; str "VERSION"; str "DEEPDISH_IO_VERSION"; str "PYTABLES_FORMAT_VERSION"].

(** Fields made of datasets and of attributes; an attribute goes over a dataset of the
    same name. *)
Definition fields_shown (ds : dict hdset) (ats : dict hattr) (r : brecord) : Prop :=
  NoDup (keys r) /\
  (forall k a, dict_get ats k = Some a -> ~ bookkeeping k -> exists v, dict_get r k = Some v /\ attr_shows a v) /\
  (forall k d, dict_get ds k = Some d -> bookkeeping k \/ ~ In k (keys ats) -> exists v, dict_get r k = Some v /\ dset_shows d v) /\
  (forall k, In k (keys r) -> In k (keys ds) \/ In k (keys ats) /\ ~ bookkeeping k).

(** The first entry of a dictionary, in its order, that has fault [P]. *)
Definition in_order_fault {A} (P : A -> fault) (ok : pystr -> Prop) (d : dict A) : fault :=
  fun e => exists pre k x post, d = pre ++ (k, x) :: post /\ ok k /\ P x e /\
    forall k' x' e', In (k', x') pre -> ok k' -> ~ P x' e'.

(** The first entry by name that has fault [P]. *)
Definition by_name_fault {A} (P : A -> fault) (d : dict A) : fault :=
  fun e => exists n x, In (n, x) d /\ P x e /\ forall n' x' e', In (n', x') d -> str_lt n' n -> ~ P x' e'.

(** ** Site files *)

(** A member of a site file: a dataset is no record; of a group first the datasets, then
    the attributes. *)
Inductive member_fault : hitem -> fault :=
| mf_dset : forall d a, member_fault (HDset d a) AttributeError
| mf_inside : forall ds ats e, in_order_fault dset_fault (fun _ => True) ds e -> member_fault (HGroup ds ats) e
| mf_attr : forall ds ats e, (forall k d e', In (k, d) ds -> ~ dset_fault d e') ->
    in_order_fault attr_fault (fun k => ~ bookkeeping k) ats e -> member_fault (HGroup ds ats) e.

(** Names are there once, and the reader is judged on all that is there. *)
Definition item_known (i : hitem) : Prop :=
  match i with
  | HGroup ds ats => NoDup (keys ds) /\ NoDup (keys ats) /\
      (forall k d, In (k, d) ds -> dset_known d) /\ (forall k a, In (k, a) ats -> attr_known a)
  | HDset d ats => NoDup (keys ats) /\ dset_known d
  end.
Definition file_known (f : hfile) : Prop :=
  NoDup (keys (h_items f)) /\ NoDup (keys (h_attrs f)) /\
  (forall n i, In (n, i) (h_items f) -> item_known i) /\ (forall k a, In (k, a) (h_attrs f) -> attr_known a).

(** The records a file shows, in the order of their names. *)
Definition records_shown (f : hfile) (rs : brecords) : Prop :=
  StronglySorted str_lt (keys rs) /\ (forall n, In n (keys rs) <-> In n (keys (h_items f))) /\
  forall n r i, In (n, r) rs -> In (n, i) (h_items f) -> exists ds ats, i = HGroup ds ats /\ fields_shown ds ats r.

(** Phase offsets that cannot be looked at. *)
Inductive offsets_fault (r : brecord) : fault :=
| of_text   : forall s, dict_get r (str "pulse_phase_offset") = Some (BText s) -> offsets_fault r AttributeError
| of_alone  : forall v s, dict_get r (str "pulse_phase_offset") = Some v -> has_shape v s -> ~ In (str "pulses") (keys r) ->
    offsets_fault r KeyError
| of_pulses : forall v s p, dict_get r (str "pulse_phase_offset") = Some v -> has_shape v s -> dict_get r (str "pulses") = Some (BText p) ->
    offsets_fault r AttributeError.

(** The records after that look: as [record_back] says. *)
Definition records_looked (rs rs' : brecords) : Prop :=
  keys rs' = keys rs /\ forall n r r', In (n, r) rs -> In (n, r') rs' -> record_back r r' /\ NoDup (keys r').

(** The member whose name comes first. *)
Definition first_member (f : hfile) (i : hitem) : Prop :=
  exists n, In (n, i) (h_items f) /\ forall n', In n' (keys (h_items f)) -> n' = n \/ str_lt n n'.

(** A hash attribute that is no text. *)
Inductive hash_fault (ats : dict hattr) : fault :=
| hf_none  : ~ In (str "borealis_git_hash") (keys ats) -> hash_fault ats BorealisStructureError
| hf_other : forall a, dict_get ats (str "borealis_git_hash") = Some a -> (forall b, a <> HBytes b) -> hash_fault ats AttributeError
| hf_bytes : forall b, dict_get ats (str "borealis_git_hash") = Some (HBytes b) -> utf8_dec b = None -> hash_fault ats UnicodeDecodeError.

(** What is wrong with a file as a site file of type [t]. *)
Inductive site_fault (t : filetype) (f : hfile) : fault :=
| sf_empty   : h_items f = [] -> site_fault t f BorealisStructureError
| sf_hash    : forall i e, first_member f i -> hash_fault (item_attrs i) e -> site_fault t f e
| sf_version : forall h v, first_hash f h -> hash_version h v -> (forall g, ~ supported v g) -> site_fault t f BorealisVersionError
| sf_member  : forall h v g e, first_hash f h -> hash_version h v -> supported v g ->
    by_name_fault member_fault (h_items f) e -> site_fault t f e
| sf_offsets : forall h v g rs e, first_hash f h -> hash_version h v -> supported v g -> records_shown f rs ->
    by_name_fault offsets_fault rs e -> site_fault t f e
| sf_fields  : forall h v g rs rs' e, first_hash f h -> hash_version h v -> supported v g -> records_shown f rs ->
    records_looked rs rs' -> refusal (format_class g t) rs' e -> site_fault t f e.

(** ** Array files *)

(** A member of an array file: a group is no array. *)
Inductive array_member_fault : hitem -> fault :=
| am_group : forall ds ats, array_member_fault (HGroup ds ats) TypeError
| am_dset  : forall d ats e, dset_fault d e -> array_member_fault (HDset d ats) e.

(** The arrays a file shows: its datasets and its attributes. *)
Definition arrays_shown (f : hfile) (a : brecord) : Prop :=
  exists ds, (forall k d, dict_get ds k = Some d <-> exists ats, dict_get (h_items f) k = Some (HDset d ats)) /\
    (forall k, In k (keys (h_items f)) -> In k (keys ds)) /\ fields_shown ds (h_attrs f) a.

(** Phase offsets of the shape (2,) are dropped, for which num_sequences is needed. *)
Inductive array_offsets_fault (a : brecord) : fault :=
| ao_text : forall s, dict_get a (str "pulse_phase_offset") = Some (BText s) -> array_offsets_fault a AttributeError
| ao_alone : forall v, dict_get a (str "pulse_phase_offset") = Some v -> has_shape v [2%nat] -> ~ In (str "num_sequences") (keys a) ->
    array_offsets_fault a KeyError
| ao_scalar : forall v n, dict_get a (str "pulse_phase_offset") = Some v -> has_shape v [2%nat] ->
    dict_get a (str "num_sequences") = Some n -> has_shape n [] -> array_offsets_fault a IndexError
| ao_words : forall v s, dict_get a (str "pulse_phase_offset") = Some v -> has_shape v [2%nat] ->
    dict_get a (str "num_sequences") = Some (BText s) -> array_offsets_fault a AttributeError.

(** What is wrong with a file as an array file of type [t]. *)
Inductive array_fault (t : filetype) (f : hfile) : fault :=
| af_hash    : forall e, hash_fault (h_attrs f) e -> array_fault t f e
| af_version : forall h v, root_hash f h -> hash_version h v -> (forall g, ~ supported v g) -> array_fault t f BorealisVersionError
| af_member  : forall h v g e, root_hash f h -> hash_version h v -> supported v g ->
    by_name_fault array_member_fault (h_items f) e -> array_fault t f e
| af_attr    : forall h v g e, root_hash f h -> hash_version h v -> supported v g ->
    (forall n i e', In (n, i) (h_items f) -> ~ array_member_fault i e') ->
    in_order_fault attr_fault (fun k => ~ bookkeeping k) (h_attrs f) e -> array_fault t f e
| af_offsets : forall h v g a e, root_hash f h -> hash_version h v -> supported v g -> arrays_shown f a ->
    array_offsets_fault a e -> array_fault t f e
| af_fields  : forall h v g a a' e, root_hash f h -> hash_version h v -> supported v g -> arrays_shown f a ->
    arrays_back a a' -> NoDup (keys a') -> array_verdict (format_class g t) a' (Raise e) -> array_fault t f e.
