(** C107: the tables of the SuperDARN types agree with one catalogue of fields, and tell
    the types apart. *)
From Coq Require Import String ZArith List Bool Ascii Lia.
From Verif Require Import Base BytesProofs DmapTypes DmapSpec DmapRead DmapWrite Conversions SDarnFormats SDarn SDarnSpec SDarnProofs SDarnProps
  DmapReadProofs DmapFileProofs SDarnCatalogueSpec SDarnCatalogueProofs.
Import ListNotations.
Open Scope list_scope.
Open Scope Z_scope.

(** Every group has the fields and formats the catalogue has for it, and no others. *)
Theorem C107_groups : forall t i g k f, nth_error (sd_groups t) i = Some g -> In (k, f) g <-> placed t k f (mark i).
Proof. exact group_placed. Qed.
Print Assumptions C107_groups.

Theorem C107_loose : forall t k f, In (k, f) (sd_loose t) <-> placed t k f "o".
Proof. exact loose_placed. Qed.
Print Assumptions C107_loose.

(** The catalogue has one row for each field, *)
Theorem C107_rows : NoDup (map (fun r => str (fst (fst r))) catalogue) /\ length catalogue = 200%nat.
Proof. split; [exact catalogue_names|reflexivity]. Qed.
Print Assumptions C107_rows.

(** so a field has one format, whatever the type. *)
Theorem C107_one_format : forall t t' k f f', declared t k f -> declared t' k f' -> f = f'.
Proof. exact one_format. Qed.
Print Assumptions C107_one_format.

(** All fields of Grid are fields of Map. *)
Theorem C107_grid_map : forall k f, declared Grid k f -> declared Map k f.
Proof. exact grid_map. Qed.
Print Assumptions C107_grid_map.

(** A record with a field of the main group is acceptable as one type only. *)
Theorem C107_one_type : forall t t' r, acceptable t r -> acceptable t' r -> has_main t r -> t = t'.
Proof. exact one_type. Qed.
Print Assumptions C107_one_type.

(** So no file with such a record can be read as two types. *)
Theorem C107_files : forall t t' fs buf rs rd ds ds', Forall is_byte buf -> dmap_read buf = Ok rs ->
  sd_reader_init fs (FromStream buf) = Ok rd -> Exists (has_main t) rs ->
  fst (sd_read t rd) = Ok ds -> fst (sd_read t' rd) = Ok ds' -> t = t'.
Proof.
  intros t t' fs buf rs rd ds ds' HB HR HI HM H H'.
  assert (D : forall u x, fst (sd_read u rd) = Ok x -> Forall (acceptable u) rs).
  { intros u x HU. destruct (C27_files u fs buf rs rd HB HR HI) as [_ HN].
    assert (HD : Forall (acceptable u) rs \/ ~ Forall (acceptable u) rs).
    { clear. induction rs as [|r rs IH]; auto. destruct (acceptable_dec u r), IH; auto; right; intros HX; inversion HX; tauto. }
    destruct HD as [HD|HD]; auto. destruct (HN HD) as (e & n & HE & _). rewrite HU in HE. discriminate. }
  pose proof (D _ _ H) as A. pose proof (D _ _ H') as A'. apply Exists_exists in HM as (r & I & M).
  rewrite Forall_forall in A, A'. now apply (one_type t t' r); auto.
Qed.
Print Assumptions C107_files.

(** ** Cases *)

Example C107_case : acceptable Rawacf (block_fields ex_rawacf) /\ has_main Rawacf (block_fields ex_rawacf) /\
  declared Rawacf (str "slist") Fh /\ declared Fitacf (str "slist") Fh /\ placed Fitacf (str "slist") Fh "1" /\
  placed Rawacf (str "slist") Fh "0" /\ placed Fitacf (str "x_qflg") Fc "3".
Proof.
  splits.
  - apply ex_fields.
  - exists (str "cp"). split; vm_compute; tauto.
  - right. exists rawacf_types. split; vm_compute; tauto.
  - right. exists fitacf_fitted_fields. split; vm_compute; tauto.
  - apply (group_placed Fitacf 1 fitacf_fitted_fields); [reflexivity|vm_compute; tauto].
  - apply (group_placed Rawacf 0 rawacf_types); [reflexivity|vm_compute; tauto].
  - apply (group_placed Fitacf 3 fitacf_xcf_fields_fitacf2); [reflexivity|vm_compute; tauto].
Qed.

Example C107_files_case :
  (rlet bs := dmap_write [block_fields ex_rawacf] in
   rlet rd := sd_reader_init (fun _ => None) (FromStream bs) in
   rlet ds := fst (sd_read Rawacf rd) in
   Ok (map zlen ds, match fst (sd_read Fitacf rd) with Raise (SuperDARNFieldMissingError _ _) => true | _ => false end)) = Ok ([52], true).
Proof. vm_compute. reflexivity. Qed.

(** Without a main field it may be acceptable as two types. *)
Theorem C107_refuted : ~ (forall t t' r, r <> [] -> acceptable t r -> acceptable t' r -> t = t').
Proof.
  intros H. specialize (H Grid Map (block_fields ex_grid) ltac:(vm_compute; discriminate)).
  discriminate (H (proj1 (proj2 ex_fields)) ltac:(apply (C27_read_accepts Map _ 0); vm_compute; reflexivity)).
Qed.
Print Assumptions C107_refuted.
