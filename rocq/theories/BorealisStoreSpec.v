(** Specification of what writing Borealis data puts into an HDF5 file, and of what is
    left there when it fails on the way. *)
From Coq Require Import String ZArith List Bool.
From Verif Require Import Base Bytes SDarnFormats BorealisTypes BorealisFormats BorealisSpec BorealisFile BorealisFileSpec.
Import ListNotations.
Open Scope list_scope.
Open Scope Z_scope.

(** ** Values *)

Definition ascii (s : pystr) : Prop := Forall (fun c => 0 <= c < 128) s.
(** The types that are stored as they are. *)
Definition raw_type (t : btype) : Prop := number_type t \/ t = BBytes.
(** An item that is a text of code points. *)
Definition is_text (c : cell) : Prop := exists s, c = CS s /\ Forall (fun x => 0 <= x < 1114112) s.

(** Attributes: texts, numbers and empty ones; datasets: arrays of numbers, bytes or texts,
    and single values. *)
Inductive attr_known : bval -> Prop :=
| ak_text : forall s, attr_known (BText s)
| ak_number : forall t c, number_type t -> attr_known (BScalar t c)
| ak_empty : forall t, raw_type t -> attr_known (BEmpty t).
Inductive dset_known : bval -> Prop :=
| dk_array : forall t s l, raw_type t -> dset_known (BArr t s l)
| dk_texts : forall s l, Forall is_text l -> dset_known (BArr BNpStr s l)
| dk_scalar : forall t c, raw_type t -> dset_known (BScalar t c).

(** An attribute is stored as it is, a text without the NULs at its end. *)
Inductive attr_stored : bval -> hattr -> Prop :=
| as_text : forall b n, ascii b -> last b 1 <> 0 -> attr_stored (BText (b ++ repeat 0 n)) (HBytes b)
| as_number : forall t c, number_type t -> attr_stored (BScalar t c) (HValue (BScalar t c))
| as_empty : forall t, raw_type t -> attr_stored (BEmpty t) (HEmpty t).
(** Other texts are not. *)
Inductive attr_fault : bval -> exn -> Prop :=
| at_text : forall s, ~ ascii s -> attr_fault (BText s) UnicodeEncodeError.

(** Data of a shape that can be stored with the compression asked for. *)
Definition compressible (available : pystr -> bool) (c : option pystr) (s : list nat) : Prop :=
  c = None \/ s <> [] /\ exists n, c = Some n /\ available n = true.

(** The number of characters of the longest text, at least one. *)
Definition text_width (l : list cell) (w : nat) : Prop :=
  (1 <= w)%nat /\ (forall s, In (CS s) l -> (length s <= w)%nat) /\ (w = 1%nat \/ exists s, In (CS s) l /\ length s = w).
(** Texts as bytes: four for each character, the lowest first, and NULs up to the width. *)
Inductive text_block (w : nat) : list cell -> list cell -> Prop :=
| tb_nil : text_block w [] []
| tb_cons : forall s l b, text_block w l b ->
    text_block w (CS s :: l) (map CZ (flat_map (le_enc 4) (s ++ repeat 0 (w - length s))) ++ b).

Inductive dset_stored (available : pystr -> bool) (c : option pystr) : bval -> hdset -> Prop :=
| ds_array : forall t s l, raw_type t -> compressible available c s ->
    dset_stored available c (BArr t s l) (mk_hdset t s l None)
| ds_texts : forall init n l w b, compressible available c (init ++ [n]) -> text_width l w -> text_block w l b ->
    dset_stored available c (BArr BNpStr (init ++ [n]) l) (mk_hdset BU8 (init ++ [(n * (4 * w))%nat]) b (Some w))
| ds_scalar : forall t x, raw_type t -> c = None -> dset_stored available c (BScalar t x) (mk_hdset t [] [x] None).
(** Not stored: what has no dimension and is to be compressed, texts without a dimension,
    data to be compressed by a filter that is not there. *)
Inductive dset_fault (available : pystr -> bool) (c : option pystr) : bval -> exn -> Prop :=
| df_scalar : forall t x, raw_type t -> c <> None -> dset_fault available c (BScalar t x) TypeError
| df_point : forall t l, raw_type t -> c <> None -> dset_fault available c (BArr t [] l) TypeError
| df_text : forall l, dset_fault available c (BArr BNpStr [] l) ValueError
| df_filter : forall t s l n, raw_type t \/ t = BNpStr -> s <> [] -> c = Some n -> available n = false ->
    dset_fault available c (BArr t s l) ValueError.

(** ** Fields: those of [A] are attributes, the others datasets *)

Definition known_fields (A : pystr -> Prop) (r : brecord) : Prop :=
  forall k v, In (k, v) r -> (A k -> attr_known v) /\ (~ A k -> dset_known v).
Inductive fields_stored (A : pystr -> Prop) (available : pystr -> bool) (c : option pystr) : brecord -> dict hdset -> dict hattr -> Prop :=
| fs_nil : fields_stored A available c [] [] []
| fs_attr : forall k v r a ds als, A k -> attr_stored v a -> fields_stored A available c r ds als ->
    fields_stored A available c ((k, v) :: r) ds ((k, a) :: als)
| fs_dset : forall k v r d ds als, ~ A k -> dset_stored available c v d -> fields_stored A available c r ds als ->
    fields_stored A available c ((k, v) :: r) ((k, d) :: ds) als.
Definition field_fault (A : pystr -> Prop) (available : pystr -> bool) (c : option pystr) (k : pystr) (v : bval) (e : exn) : Prop :=
  A k /\ attr_fault v e \/ ~ A k /\ dset_fault available c v e.

(** ** Records: a group for each *)

Definition groups_stored (A : pystr -> Prop) (available : pystr -> bool) (c : option pystr) (rs : brecords) (its : dict hitem) : Prop :=
  Forall2 (fun p q => fst p = fst q /\ exists ds als, snd q = HGroup ds als /\ fields_stored A available c (snd p) ds als) rs its.
(** None of the names is taken. *)
Definition all_new {B C} (rs : dict B) (old : dict C) : Prop := forall n, In n (keys rs) -> ~ In n (keys old).

(** How writing the records to a file with the members [old] ends, and which members it
    adds: all groups; or those before a name that is taken; or those before a field that
    cannot be stored, and the part of its record before it. *)
Inductive records_outcome (A : pystr -> Prop) (available : pystr -> bool) (c : option pystr) (old : dict hitem) :
    brecords -> dict hitem -> res unit -> Prop :=
| ro_done : forall rs its, groups_stored A available c rs its -> all_new rs old -> records_outcome A available c old rs its (Ok tt)
| ro_taken : forall pre n r post its, groups_stored A available c pre its -> all_new pre old -> In n (keys old) ->
    records_outcome A available c old (pre ++ (n, r) :: post) its (Raise ValueError)
| ro_fault : forall pre n before k v after post its ds als e, groups_stored A available c pre its -> all_new pre old -> ~ In n (keys old) ->
    fields_stored A available c before ds als -> field_fault A available c k v e ->
    records_outcome A available c old (pre ++ (n, before ++ (k, v) :: after) :: post) (its ++ [(n, HGroup ds als)]) (Raise e).

(** ** Arrays: a member or attribute of the root for each *)

Inductive arrays_outcome (A : pystr -> Prop) (available : pystr -> bool) (c : option pystr) (old : dict hitem) :
    brecord -> dict hdset -> dict hattr -> res unit -> Prop :=
| ao_done : forall a ds als, fields_stored A available c a ds als -> all_new ds old -> arrays_outcome A available c old a ds als (Ok tt)
| ao_taken : forall before k v after ds als d, fields_stored A available c before ds als -> all_new ds old ->
    ~ A k -> dset_stored available c v d -> In k (keys old) ->
    arrays_outcome A available c old (before ++ (k, v) :: after) ds als (Raise ValueError)
| ao_fault : forall before k v after ds als e, fields_stored A available c before ds als -> all_new ds old ->
    field_fault A available c k v e -> arrays_outcome A available c old (before ++ (k, v) :: after) ds als (Raise e).

(** The attributes [als] over those of [old]. *)
Definition laid_over (old als new : dict hattr) : Prop :=
  forall k, dict_get new k = match dict_get als k with Some a => Some a | None => dict_get old k end.

(** The file before: an HDF5 file, or an empty one that is made. *)
Definition file_before (fs : hfs) (name : pystr) (f : hfile) : Prop :=
  holds fs name f \/ fs name = None /\ f = mk_hfile [] [].

Definition site_attribute (F : format) (k : pystr) : Prop := exists t, site_attr F k t.
Definition array_attribute (F : format) (k : pystr) : Prop := exists t, array_attr F k t.
