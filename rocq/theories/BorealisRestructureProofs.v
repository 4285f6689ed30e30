(** Proofs about BorealisRestructure. *)
From Coq Require Import String ZArith List Bool Lia.
From Verif Require Import Base BytesProofs SDarnFormats BorealisTypes BorealisFormats BorealisChecks BorealisArrays
  BorealisFile BorealisRestructure BorealisSpec BorealisFileSpec BorealisRestructureSpec BorealisCheckProofs
  BorealisFileProofs SDarnChecks DmapFileProofs.
Import ListNotations.
Open Scope list_scope.

Lemma structure_iff f s : has_structure f s <-> borealis_structure (record_names f) = s.
Proof.
  pose proof (structure_array f) as HA. fold (array_file f) in HA.
  destruct (structure_two f) as [E|E]; rewrite E in *; unfold has_structure.
  - split; [|intros <-; left; split; [reflexivity|now apply HA]].
    intros [[-> _]|[-> C]]; [reflexivity|]. elim C. now apply HA.
  - assert (N : ~ array_file f) by (intros C; apply HA in C; vm_compute in C; discriminate C).
    split; [|intros <-; right; split; [reflexivity|exact N]].
    intros [[-> C]|[-> _]]; [contradiction|reflexivity].
Qed.

Lemma version_known f v : NoDup (keys (h_items f)) -> has_version f v ->
  file_version f (borealis_structure (record_names f)) = Ok v.
Proof.
  intros HN (h & HV & H). destruct (file_version_ok f h v HN HV) as [A B]. destruct H as [H|[NA H]]; [auto|].
  apply B; [exact H|]. apply structure_iff. right. now split.
Qed.

Lemma restructured_name t : has_structures t -> restructured_type (type_name t) = Some t.
Proof. intros H. destruct t; try reflexivity. now elim H. Qed.
Lemma restructured_iff s t : restructured_type s = Some t -> s = type_name t /\ has_structures t.
Proof.
  unfold restructured_type, filetype_of.
  destruct (str_eqb s (str "bfiq")) eqn:E1; [apply str_eqb_eq in E1; intros H; injection H as <-; split; [exact E1|discriminate]|].
  destruct (str_eqb s (str "antennas_iq")) eqn:E2; [apply str_eqb_eq in E2; intros H; injection H as <-; split; [exact E2|discriminate]|].
  destruct (str_eqb s (str "rawacf")) eqn:E3; [apply str_eqb_eq in E3; intros H; injection H as <-; split; [exact E3|discriminate]|].
  destruct (str_eqb s (str "rawrf")); discriminate.
Qed.

Lemma only_refl n fs : only_file n fs fs.
Proof. intros m _. reflexivity. Qed.
Lemma only_trans n a b c : only_file n a b -> only_file n b c -> only_file n a c.
Proof. intros H1 H2 m Hm. rewrite (H2 m Hm). now apply H1. Qed.

Section Filters.
Variable av : pystr -> bool.

Lemma write_records_only F fs n rs c : only_file n fs (fst (write_records av F fs n rs c)).
Proof.
  unfold write_records. destruct (site_single_element_types F); [|apply only_refl].
  destruct (site_array_dtypes F); [|apply only_refl]. destruct (h5_append fs n); [|apply only_refl].
  destruct (write_groups _ _ _ _ _). apply only_close.
Qed.
Lemma write_arrays_only F fs n a c : only_file n fs (fst (write_arrays av F fs n a c)).
Proof.
  unfold write_arrays. destruct (array_single_element_types F); [|apply only_refl].
  destruct (array_array_dtypes F); [|apply only_refl]. destruct (unshared_fields F); [|apply only_refl].
  destruct (h5_append fs n); [|apply only_refl]. destruct (write_members _ _ _ _ _). apply only_close.
Qed.
Lemma site_loop_only F attrs f out c : forall times rec fs,
  only_file out fs (fst (site_file_loop av F attrs f out c times rec fs)).
Proof.
  induction times as [|row times IH]; intros rec fs; cbn [site_file_loop]; [apply only_refl|].
  destruct (site_record_of_file F attrs f row rec) as [rs|e]; [|apply only_refl].
  pose proof (write_records_only F fs out rs c) as HW. destruct (write_records av F fs out rs c) as [fs' [u|e]]; [|exact HW].
  eapply only_trans; [exact HW|apply IH].
Qed.

Lemma restructure_only fs i o ft s c : only_file o fs (fst (restructure av fs i o ft s c)).
Proof.
  unfold restructure. destruct (restructured_type ft) as [t|]; [|apply only_refl].
  destruct (negb _); [apply only_refl|]. destruct (str_eqb i o); [apply only_refl|].
  destruct (rbind _ _) as [[f [have g]]|e]; [|apply only_refl].
  destruct (str_eqb have s); [apply only_refl|]. destruct (negb _); [apply only_refl|].
  destruct (str_eqb s (str "site")).
  - unfold array_to_site_file. destruct (site_single_element_types _) as [attrs|]; [|apply only_refl].
    destruct (timestamp_rows _ attrs f) as [times|]; [|apply only_refl].
    pose proof (site_loop_only (format_class g t) attrs f o c times 0 fs) as H.
    destruct (site_file_loop _ _ _ _ _ _ _ _ _). exact H.
  - unfold site_to_array_file. destruct (arrays_of_file g t f) as [a|]; [|apply only_refl].
    pose proof (write_arrays_only (format_class g t) fs o a c) as H. destruct (write_arrays _ _ _ _ _ _). exact H.
Qed.

(** Neither structures nor types of another name. *)
Lemma restructure_type fs i o ft s c : (forall t, has_structures t -> ft <> type_name t) ->
  restructure av fs i o ft s c = (fs, Raise BorealisFileTypeError).
Proof.
  intros H. unfold restructure. destruct (restructured_type ft) as [t|] eqn:E; [|reflexivity].
  apply restructured_iff in E. destruct E as [E1 E2]. elim (H t E2 E1).
Qed.
Lemma restructure_structure fs i o t s c : has_structures t -> s <> str "site" -> s <> str "array" ->
  restructure av fs i o (type_name t) s c = (fs, Raise BorealisStructureError).
Proof.
  intros HT H1 H2. unfold restructure. rewrite restructured_name by exact HT.
  apply str_eqb_neq in H1, H2. now rewrite H1, H2.
Qed.
Lemma restructure_overwrite fs i t s c : has_structures t -> s = str "site" \/ s = str "array" ->
  restructure av fs i i (type_name t) s c = (fs, Raise ConvertFileOverWriteError).
Proof.
  intros HT H. unfold restructure. rewrite restructured_name by exact HT. rewrite str_eqb_refl.
  destruct H as [-> | ->]; reflexivity.
Qed.

Lemma restructure_start fs i o f t s c v : has_structures t -> s = str "site" \/ s = str "array" -> i <> o ->
  holds fs i f -> NoDup (keys (h_items f)) -> has_version f v ->
  restructure av fs i o (type_name t) s c =
  match version_generation v with
  | None => (fs, Raise KeyError)
  | Some g =>
      if str_eqb (borealis_structure (record_names f)) s then (fs, Ok tt)
      else if str_eqb s (str "site") then array_to_site_file av (format_class g t) fs f o c
      else site_to_array_file av g t fs f o c
  end.
Proof.
  intros HT HS HO HF HN HV. unfold restructure. rewrite restructured_name by exact HT.
  assert (E1 : negb (str_eqb s (str "site") || str_eqb s (str "array")) = false)
    by (destruct HS as [-> | ->]; reflexivity).
  rewrite E1. apply str_eqb_neq in HO. rewrite HO.
  assert (EO : h5_open fs i = Ok f) by (unfold h5_open; now rewrite HF).
  rewrite EO. cbn [rbind]. unfold input_format. rewrite (version_known f v HN HV). cbn [rbind].
  destruct (version_generation v) as [g|]; [|reflexivity]. cbn [rbind].
  destruct (str_eqb (borealis_structure (record_names f)) s); [reflexivity|].
  assert (ER : fm_restructureable (format_class g t) = true).
  { clear - HT. destruct t; try (destruct g; reflexivity). now elim HT. }
  now rewrite ER.
Qed.
End Filters.
