(** Proofs for C109. *)
From Coq Require Import String ZArith List Bool Lia Sorting.Sorted.
From Verif Require Import Base BytesProofs SDarnFormats SDarnChecks BorealisTypes BorealisFormats BorealisChecks BorealisSpec BorealisCatalogue
  BorealisCatalogueProofs BorealisCheckProofs BorealisFile BorealisFileSpec BorealisFileProofs BorealisReadFaultSpec BorealisReadFaultProofs.
Import ListNotations.
Open Scope list_scope.

(** ** Five telling fields *)

Definition has_site (g : generation) (t : filetype) (k : pystr) : bool :=
  existsb (fun r => str_eqb (fr_name r) k && fr_in r t g &&
    match fr_kind r, fr_role r g with One, MadeArray => false | _, _ => true end) catalogue.
Definition has_array (g : generation) (t : filetype) (k : pystr) : bool :=
  existsb (fun r => str_eqb (fr_name r) k && fr_in r t g &&
    match fr_kind r, fr_role r g with Many, MadeSite => false | _, _ => true end) catalogue.

Lemma site_has g t k : has_structures t -> site_field (format_class g t) k <-> has_site g t k = true.
Proof.
  intros HT. destruct (spec_tables g t HT) as (S1 & S2 & _). cbv zeta in *. unfold site_field, has_site. rewrite existsb_exists. split.
  - intros (ty & [H|H]); [apply S1 in H as (ro & (r & R1 & R2 & R3 & R4 & R5 & R6) & N)|apply S2 in H as (ro & (r & R1 & R2 & R3 & R4 & R5 & R6))];
      exists r; (split; [exact R1|]); rewrite R2, str_eqb_refl, R5, R3, ?R6; [destruct ro; try reflexivity; now destruct N|reflexivity].
  - intros (r & R1 & H). apply andb_true_iff in H as [H R3]. apply andb_true_iff in H as [H R2]. apply str_eqb_eq in H.
    exists (fr_type r g). destruct (fr_kind r) eqn:K; [left; apply S1; exists (fr_role r g); split; [exists r; auto 10|intros E; rewrite E in R3; discriminate]
      |right; apply S2; exists (fr_role r g); exists r; auto 10].
Qed.

Lemma array_has g t k : has_structures t -> array_field (format_class g t) k <-> has_array g t k = true.
Proof.
  intros HT. destruct (spec_tables g t HT) as (_ & _ & S3 & S4 & _). cbv zeta in *. unfold array_field, has_array. rewrite existsb_exists. split.
  - intros (ty & [H|H]); [apply S3 in H as (r & R1 & R2 & R3 & R4 & R5 & R6)|apply S4 in H as [(ro & (r & R1 & R2 & R3 & R4 & R5 & R6) & N)|(ro & (r & R1 & R2 & R3 & R4 & R5 & R6) & N)]];
      exists r; (split; [exact R1|]); rewrite R2, str_eqb_refl, R5, R3, ?R6; [reflexivity|destruct ro; try reflexivity; now destruct N|reflexivity].
  - intros (r & R1 & H). apply andb_true_iff in H as [H R3]. apply andb_true_iff in H as [H R2]. apply str_eqb_eq in H.
    exists (fr_type r g). destruct (fr_kind r) eqn:K.
    + assert (D : fr_role r g = Common \/ fr_role r g <> Common) by (destruct (fr_role r g); auto; right; discriminate).
      destruct D as [D|D]; [left; apply S3; exists r; auto 10|right; apply S4; right; exists (fr_role r g); split; [exists r; auto 10|exact D]].
    + right. apply S4. left. exists (fr_role r g). split; [exists r; auto 10|]. intros E. rewrite E in R3. discriminate.
Qed.

Definition telling : list pystr := map str ["tx_antenna_phases"; "agc_status_word"; "slice_id"; "main_acfs"; "lags"]%string.
Definition tellings (g : generation) (t : filetype) : list bool :=
  let n := gen_num g in
  let raw := match t with BRawacf => true | _ => false end in
  let anten := match t with AntennasIq => true | _ => false end in
  [Nat.leb 7 n; Nat.leb 6 n; Nat.leb 5 n; raw; Nat.leb 7 n || negb anten].

Lemma tell_site g t : has_structures t -> map (has_site g t) telling = tellings g t.
Proof. intros HT. destruct t; try (exfalso; apply HT; reflexivity); destruct g; vm_compute; reflexivity. Qed.
Lemma tell_array g t : has_structures t -> map (has_array g t) telling = tellings g t.
Proof. intros HT. destruct t; try (exfalso; apply HT; reflexivity); destruct g; vm_compute; reflexivity. Qed.

Lemma told g t g' t' : has_structures t -> has_structures t' -> tellings g t = tellings g' t' ->
  g = g' /\ (t = t' \/ (g = G7 /\ t <> BRawacf /\ t' <> BRawacf)).
Proof.
  intros HT HT'. destruct t; try (exfalso; apply HT; reflexivity); destruct t'; try (exfalso; apply HT'; reflexivity);
    destruct g; destruct g'; intros E; vm_compute in E; try discriminate E; (split; [reflexivity|]);
    first [now left|right; split; [reflexivity|split; discriminate]].
Qed.

Lemma same_bool (a b : bool) : (a = true <-> b = true) -> a = b.
Proof. destruct a, b; intuition congruence. Qed.

Lemma site_told g t g' t' r : has_structures t -> has_structures t' -> site_record_ok (format_class g t) r -> site_record_ok (format_class g' t') r ->
  g = g' /\ (t = t' \/ (g = G7 /\ t <> BRawacf /\ t' <> BRawacf)).
Proof.
  intros HT HT' [H _] [H' _]. apply told; auto. rewrite <- tell_site, <- tell_site by assumption. apply map_ext. intros k.
  apply same_bool. rewrite <- !site_has by assumption. now rewrite <- H, <- H'.
Qed.
Lemma array_told g t g' t' a : has_structures t -> has_structures t' -> arrays_ok (format_class g t) a -> arrays_ok (format_class g' t') a ->
  g = g' /\ (t = t' \/ (g = G7 /\ t <> BRawacf /\ t' <> BRawacf)).
Proof.
  intros HT HT' [H _] [H' _]. apply told; auto. rewrite <- tell_array, <- tell_array by assumption. apply map_ext. intros k.
  apply same_bool. rewrite <- !array_has by assumption. now rewrite <- H, <- H'.
Qed.

(** num_beams is in array files only. *)
Lemma structure_told g t g' t' r : has_structures t -> has_structures t' -> site_record_ok (format_class g t) r -> ~ arrays_ok (format_class g' t') r.
Proof.
  intros HT HT' [H _] [H' _].
  assert (A : has_array g' t' (str "num_beams") = true) by (destruct t'; try (exfalso; apply HT'; reflexivity); destruct g'; vm_compute; reflexivity).
  assert (B : has_site g t (str "num_beams") = false) by (destruct t; try (exfalso; apply HT; reflexivity); destruct g; vm_compute; reflexivity).
  apply array_has in A; [|assumption]. apply H', H, site_has in A; [|assumption]. congruence.
Qed.

(** ** antennas_iq and bfiq of version 0.7 *)

Definition is_iq (t : filetype) : Prop := t = AntennasIq \/ t = Bfiq.
Lemma iq_structures t : is_iq t -> has_structures t.
Proof. intros [-> | ->]; discriminate. Qed.

Lemma rows_same : Forall (fun r => fr_in r AntennasIq G7 = fr_in r Bfiq G7) catalogue.
Proof. repeat (apply Forall_cons; [vm_compute; reflexivity|]). apply Forall_nil. Qed.

Lemma listed_iq t t' k kd ty ro : is_iq t -> is_iq t' -> listed G7 t k kd ty ro -> listed G7 t' k kd ty ro.
Proof.
  intros HT HT' (r & R1 & R2 & R3 & R4 & R5 & R6). exists r. repeat (split; [assumption|]). split; [|assumption].
  pose proof rows_same as A. rewrite Forall_forall in A. specialize (A r R1). destruct HT as [-> | ->], HT' as [-> | ->]; congruence.
Qed.

Lemma role_iq t t' k ro : is_iq t -> is_iq t' -> role_of G7 t k ro -> role_of G7 t' k ro.
Proof. intros HT HT' (kd & ty & L). exists kd, ty. now apply (listed_iq t t'). Qed.

Lemma tables_iq t t' : is_iq t -> is_iq t' -> let F := format_class G7 t in let F' := format_class G7 t' in
  (forall k ty, site_attr F k ty -> site_attr F' k ty) /\ (forall k ty, site_dset F k ty -> site_dset F' k ty) /\
  (forall k ty, array_attr F k ty -> array_attr F' k ty) /\ (forall k ty, array_dset F k ty -> array_dset F' k ty) /\
  (forall k, per_record F k -> per_record F' k).
Proof.
  intros HT HT'. destruct (spec_tables G7 t (iq_structures t HT)) as (A1 & A2 & A3 & A4 & A5).
  destruct (spec_tables G7 t' (iq_structures t' HT')) as (B1 & B2 & B3 & B4 & B5). cbv zeta in *.
  repeat split; intros.
  - apply A1 in H as (ro & L & N). apply B1. exists ro. split; [now apply (listed_iq t t')|exact N].
  - apply A1 in H as (ro & L & N). apply (B1 k ty). exists ro. split; [now apply (listed_iq t t')|exact N].
  - apply A2 in H as (ro & L). apply B2. exists ro. now apply (listed_iq t t').
  - apply A3 in H. apply (B3 k ty). now apply (listed_iq t t').
  - apply A3 in H. apply (B3 k ty). now apply (listed_iq t t').
  - apply A4 in H. apply B4. destruct H as [(ro & L & N)|(ro & L & N)]; [left|right]; exists ro; (split; [now apply (listed_iq t t')|exact N]).
  - apply A5 in H. apply B5. now apply (role_iq t t').
Qed.

Lemma site_iq t t' r : is_iq t -> is_iq t' -> site_record_ok (format_class G7 t) r -> site_record_ok (format_class G7 t') r.
Proof.
  intros HT HT' (H1 & H2 & H3). destruct (tables_iq t t' HT HT') as (A1 & A2 & _). destruct (tables_iq t' t HT' HT) as (B1 & B2 & _).
  split; [|split].
  - intros k. rewrite H1. split; intros (ty & [H|H]); exists ty; auto.
  - intros k v ty HI HA. exact (H2 k v ty HI (B1 _ _ HA)).
  - intros k v ty HI HA. exact (H3 k v ty HI (B2 _ _ HA)).
Qed.

Lemma array_iq t t' r : is_iq t -> is_iq t' -> arrays_ok (format_class G7 t) r -> arrays_ok (format_class G7 t') r.
Proof.
  intros HT HT' (H1 & H2 & H3 & (n & H4)). destruct (tables_iq t t' HT HT') as (_ & _ & A1 & A2 & A3). destruct (tables_iq t' t HT' HT) as (_ & _ & B1 & B2 & B3).
  split; [|split; [|split]].
  - intros k. rewrite H1. split; intros (ty & [H|H]); exists ty; auto.
  - intros k v ty HI HA. exact (H2 k v ty HI (B1 _ _ HA)).
  - intros k v ty HI HA. exact (H3 k v ty HI (B2 _ _ HA)).
  - exists n. intros k v HI HP. exact (H4 k v HI (B3 _ HP)).
Qed.

(** ** Files *)

Lemma site_parts fs name f t rd : holds fs name f -> has_structures t -> site_read fs name (type_name t) = Ok rd ->
  exists h rs, site_hash f = Ok h /\ sr_version rd = version_of h /\ generation_of (version_of h) = Ok (sr_gen rd) /\
    BorealisFile.read_records f = Ok rs /\ exists rs', ppo_site_fix rs = Ok rs' /\ check_site_records (format_class (sr_gen rd) t) rs' = Ok tt /\
    sr_records rd = sort_dict rs' /\ sr_type rd = t.
Proof.
  intros HF HT. unfold site_read. rewrite type_name_of. unfold h5_open. rewrite HF. cbn [rbind].
  destruct (site_hash f) as [h|e]; cbn [rbind]; [|discriminate]. destruct (generation_of (version_of h)) as [g|e] eqn:EG; cbn [rbind]; [|discriminate].
  unfold site_read_file. destruct (site_tables_ok g t HT) as (ta & td & -> & ->). cbn [rbind].
  destruct (BorealisFile.read_records f) as [rs|e]; cbn [rbind]; [|discriminate]. destruct (ppo_site_fix rs) as [rs'|e] eqn:EP; cbn [rbind]; [|discriminate].
  destruct (check_site_records (format_class g t) rs') as [[]|e] eqn:EC; cbn [rbind]; [|discriminate].
  intros H. injection H as <-. exists h, rs. cbn [sr_version sr_gen sr_records sr_type]. repeat (split; [reflexivity || assumption|]).
  exists rs'. now repeat (split; [reflexivity || assumption|]).
Qed.

Lemma site_files fs name f t t' rd rd' : holds fs name f -> file_known f -> has_structures t -> has_structures t' ->
  site_read fs name (type_name t) = Ok rd -> site_read fs name (type_name t') = Ok rd' ->
  sr_records rd' = sr_records rd /\ sr_gen rd' = sr_gen rd /\ (t = t' \/ (sr_gen rd = G7 /\ t <> BRawacf /\ t' <> BRawacf)).
Proof.
  intros HF HK HT HT' H H'. destruct (site_parts fs name f t rd HF HT H) as (h & rs & A1 & _ & A3 & A4 & rs1 & A5 & _ & A6 & _).
  destruct (site_parts fs name f t' rd' HF HT' H') as (h' & rs' & B1 & _ & B3 & B4 & rs1' & B5 & _ & B6 & _).
  assert (E : sr_records rd' = sr_records rd) by congruence. assert (G : sr_gen rd' = sr_gen rd) by congruence.
  split; [exact E|]. split; [exact G|].
  pose proof (site_outcome fs name f t HF HK HT) as O. pose proof (site_outcome fs name f t' HF HK HT') as O'. rewrite H in O. rewrite H' in O'.
  destruct O as (_ & (h0 & rs0 & (n & i & b & FI & _) & _ & _ & (_ & S2 & _) & (L & _)) & O). destruct O' as (_ & _ & O').
  assert (I : In n (keys (sr_records rd))) by (rewrite L; apply S2, keys_in; eauto). apply keys_in in I as (r & I).
  destruct (site_told (sr_gen rd) t (sr_gen rd') t' r HT HT' (O n r I)) as (_ & X); [apply (O' n r); now rewrite E|exact X].
Qed.

Lemma site_files_iq fs name f t t' rd : holds fs name f -> file_known f -> is_iq t -> is_iq t' ->
  site_read fs name (type_name t) = Ok rd -> sr_gen rd = G7 ->
  exists rd', site_read fs name (type_name t') = Ok rd' /\ sr_type rd' = t' /\ sr_records rd' = sr_records rd.
Proof.
  intros HF HK HT HT' H HG. destruct (site_parts fs name f t rd HF (iq_structures t HT) H) as (h & rs & A1 & _ & A3 & A4 & rs1 & A5 & A6 & A7 & _).
  rewrite HG in *. exists (mk_site_reader (version_of h) G7 t' (sort_dict rs1)). split; [|split; [reflexivity|now rewrite A7]].
  unfold site_read. rewrite type_name_of. unfold h5_open. rewrite HF. cbn [rbind]. rewrite A1. cbn [rbind]. rewrite A3. cbn [rbind].
  unfold site_read_file. destruct (site_tables_ok G7 t' (iq_structures t' HT')) as (ta & td & -> & ->). cbn [rbind]. rewrite A4. cbn [rbind]. rewrite A5. cbn [rbind].
  pose proof (read_records_sound f HK) as HR. rewrite A4 in HR. destruct HR as [HR _]. pose proof (look_all f rs HK HR) as HL. rewrite A5 in HL. destruct HL as [HL _].
  pose proof (looked_proper rs rs1 (proj1 HR) HL) as HP.
  assert (C : check_site_records (format_class G7 t') rs1 = Ok tt).
  { apply site_check_iff; [exact (iq_structures t' HT')|exact HP|]. intros n r I. apply (site_iq t t'); auto.
    exact (proj1 (site_check_iff G7 t rs1 (iq_structures t HT) HP) A6 n r I). }
  now rewrite C.
Qed.

Lemma array_parts fs name f t rd : holds fs name f -> has_structures t -> array_read fs name (type_name t) = Ok rd ->
  exists h a, array_hash f = Ok h /\ ar_version rd = version_of h /\ generation_of (version_of h) = Ok (ar_gen rd) /\
    BorealisFile.read_arrays f = Ok a /\ ppo_array_fix a = Ok (ar_arrays rd) /\ check_array_dict (format_class (ar_gen rd) t) (ar_arrays rd) = Ok tt.
Proof.
  intros HF HT. unfold array_read. rewrite type_name_of. unfold h5_open. rewrite HF. cbn [rbind].
  destruct (array_hash f) as [h|e]; cbn [rbind]; [|discriminate]. destruct (generation_of (version_of h)) as [g|e] eqn:EG; cbn [rbind]; [|discriminate].
  unfold array_read_file. destruct (array_tables_ok g t HT) as (ta & td & tu & -> & -> & ->). cbn [rbind].
  destruct (BorealisFile.read_arrays f) as [a|e]; cbn [rbind]; [|discriminate]. destruct (ppo_array_fix a) as [a'|e] eqn:EP; cbn [rbind]; [|discriminate].
  destruct (check_array_dict (format_class g t) a') as [[]|e] eqn:EC; cbn [rbind]; [|discriminate].
  intros H. injection H as <-. exists h, a. cbn [ar_version ar_gen ar_arrays]. now repeat (split; [reflexivity || assumption|]).
Qed.

Lemma array_files fs name f t t' rd rd' : holds fs name f -> file_known f -> has_structures t -> has_structures t' ->
  array_read fs name (type_name t) = Ok rd -> array_read fs name (type_name t') = Ok rd' ->
  ar_arrays rd' = ar_arrays rd /\ ar_gen rd' = ar_gen rd /\ (t = t' \/ (ar_gen rd = G7 /\ t <> BRawacf /\ t' <> BRawacf)).
Proof.
  intros HF HK HT HT' H H'. destruct (array_parts fs name f t rd HF HT H) as (h & a & A1 & _ & A3 & A4 & A5 & _).
  destruct (array_parts fs name f t' rd' HF HT' H') as (h' & a' & B1 & _ & B3 & B4 & B5 & _).
  assert (E : ar_arrays rd' = ar_arrays rd) by congruence. assert (G : ar_gen rd' = ar_gen rd) by congruence.
  split; [exact E|]. split; [exact G|].
  pose proof (array_outcome fs name f t HF HK HT) as O. pose proof (array_outcome fs name f t' HF HK HT') as O'. rewrite H in O. rewrite H' in O'.
  destruct O as (_ & _ & O). destruct O' as (_ & _ & O'). rewrite E, G in O'.
  exact (proj2 (array_told (ar_gen rd) t (ar_gen rd) t' (ar_arrays rd) HT HT' O O')).
Qed.

Lemma array_files_iq fs name f t t' rd : holds fs name f -> file_known f -> is_iq t -> is_iq t' ->
  array_read fs name (type_name t) = Ok rd -> ar_gen rd = G7 ->
  exists rd', array_read fs name (type_name t') = Ok rd' /\ BorealisFile.ar_type rd' = t' /\ ar_arrays rd' = ar_arrays rd.
Proof.
  intros HF HK HT HT' H HG. destruct (array_parts fs name f t rd HF (iq_structures t HT) H) as (h & a & A1 & _ & A3 & A4 & A5 & A6).
  pose proof (array_outcome fs name f t HF HK (iq_structures t HT)) as O. rewrite H in O. destruct O as (_ & _ & O).
  rewrite HG in *. exists (mk_array_reader (version_of h) G7 t' (ar_arrays rd)). split; [|split; reflexivity].
  unfold array_read. rewrite type_name_of. unfold h5_open. rewrite HF. cbn [rbind]. rewrite A1. cbn [rbind]. rewrite A3. cbn [rbind].
  unfold array_read_file. destruct (array_tables_ok G7 t' (iq_structures t' HT')) as (ta & td & tu & -> & -> & ->). cbn [rbind]. rewrite A4. cbn [rbind]. rewrite A5. cbn [rbind].
  pose proof (read_arrays_sound f HK) as HR. rewrite A4 in HR. destruct HK as (_ & _ & _ & KA).
  assert (HP : forall k v, dict_get a k = Some v -> plain_value v).
  { destruct HR as (ds & _ & _ & HS). intros k v. exact (fields_plain ds (h_attrs f) a k v KA HS). }
  assert (N : NoDup (keys a)) by (destruct HR as (ds & _ & _ & HS); exact (proj1 HS)).
  pose proof (array_look_sound a N HP) as HL. rewrite A5 in HL. cbn [sound] in HL. destruct HL as [[_ NA] _].
  assert (C : check_array_dict (format_class G7 t') (ar_arrays rd) = Ok tt).
  { apply arrays_ok_check; [exact (iq_structures t' HT')|exact NA|]. now apply (array_iq t t'). }
  now rewrite C.
Qed.

Lemma structure_files fs name f t t' rd rd' : holds fs name f -> file_known f -> has_structures t -> has_structures t' ->
  site_read fs name (type_name t) = Ok rd -> array_read fs name (type_name t') <> Ok rd'.
Proof.
  intros HF HK HT HT' H H'.
  pose proof (site_outcome fs name f t HF HK HT) as O. pose proof (array_outcome fs name f t' HF HK HT') as O'. rewrite H in O. rewrite H' in O'.
  destruct O as (_ & (h0 & rs0 & (n & i & b & FI & _) & _ & _ & (_ & S2 & S3) & _) & _).
  destruct O' as (_ & (h1 & a & _ & _ & _ & (ds & D1 & D2 & _) & _) & _).
  assert (K : In n (keys (h_items f))) by (apply keys_in; eauto). pose proof (proj2 (S2 n) K) as KR. apply keys_in in KR as (r & KR).
  destruct (S3 n r i KR FI) as (gd & ga & -> & _). specialize (D2 n K). apply keys_in in D2 as (d & D2).
  destruct (dict_get ds n) as [d'|] eqn:ED.
  - apply D1 in ED as (ats & ED). destruct HK as (N & _). apply (dict_in_get _ _ _ N) in FI. congruence.
  - apply dict_get_none in ED. apply ED. apply keys_in. eauto.
Qed.
