(** The tables of the format classes are those of the catalogue. *)
From Coq Require Import String ZArith List Bool Lia.
From Verif Require Import Base BytesProofs SDarnFormats BorealisTypes BorealisFormats BorealisSpec
  BorealisCatalogue BorealisCheckProofs DmapFileProofs DmapWriteFacts.
Import ListNotations.
Open Scope list_scope.

(** Boolean tests on rows (BorealisCatalogue). *)
Definition kind_eqb (a b : field_kind) : bool :=
  match a, b with One, One | Many, Many => true | _, _ => false end.
Definition role_eqb (a b : field_role) : bool :=
  match a, b with
  | Common, Common | Varying, Varying | MadeBoth, MadeBoth | MadeArray, MadeArray
  | MadeSite, MadeSite => true
  | _, _ => false
  end.

Lemma kind_eqb_eq a b : kind_eqb a b = true <-> a = b.
Proof. destruct a, b; cbn; split; congruence. Qed.
Lemma role_eqb_eq a b : role_eqb a b = true <-> a = b.
Proof. destruct a, b; cbn; split; congruence. Qed.

Definition rows_of (g : generation) (t : filetype) (f : field_row -> bool) : list field_row :=
  filter (fun r => fr_in r t g && f r) catalogue.
Definition entries (g : generation) (l : list field_row) : list (pystr * btype) :=
  map (fun r => (fr_name r, fr_type r g)) l.
Definition entry_eqb (a b : pystr * btype) : bool :=
  str_eqb (fst a) (fst b) && btype_eqb (snd a) (snd b).

Lemma entry_eqb_eq a b : entry_eqb a b = true <-> a = b.
Proof.
  destruct a as [k t], b as [k' t']. unfold entry_eqb. cbn [fst snd].
  rewrite andb_true_iff, str_eqb_eq, btype_eqb_eq. split; [intros [-> ->]; reflexivity|intros H; now inversion H].
Qed.

Definition same_list {A} (eqb : A -> A -> bool) (a b : list A) : bool :=
  forallb (fun x => existsb (eqb x) b) a && forallb (fun x => existsb (eqb x) a) b.

Lemma same_list_In {A} (eqb : A -> A -> bool) (Heq : forall x y, eqb x y = true <-> x = y) a b :
  same_list eqb a b = true -> forall x, In x a <-> In x b.
Proof.
  unfold same_list. rewrite andb_true_iff, !forallb_forall. intros [H1 H2] x. split; intros H.
  - apply H1, existsb_exists in H as (y & Hy & E). apply Heq in E. now subst.
  - apply H2, existsb_exists in H as (y & Hy & E). apply Heq in E. now subst.
Qed.

Lemma in_rows g t f r : In r (rows_of g t f) <-> In r catalogue /\ fr_in r t g = true /\ f r = true.
Proof. unfold rows_of. rewrite filter_In, andb_true_iff. tauto. Qed.

Lemma in_entries_kind g t kd k ty :
  In (k, ty) (entries g (rows_of g t (fun r => kind_eqb (fr_kind r) kd))) <->
  exists ro, listed g t k kd ty ro.
Proof.
  unfold entries. rewrite in_map_iff. split.
  - intros (r & E & Hr). apply in_rows in Hr as (Hc & Hi & Hk). apply kind_eqb_eq in Hk. inversion E; subst.
    exists (fr_role r g), r. auto 10.
  - intros (ro & r & Hc & Hn & Hk & Ht & Hi & Hr). exists r. split; [now subst|]. apply in_rows.
    splits; [assumption|assumption|]. now apply kind_eqb_eq.
Qed.

Lemma in_names_role g t (f : field_role -> bool) k :
  In k (map fr_name (rows_of g t (fun r => f (fr_role r g)))) <->
  exists kd ty ro, f ro = true /\ listed g t k kd ty ro.
Proof.
  rewrite in_map_iff. split.
  - intros (r & E & Hr). apply in_rows in Hr as (Hc & Hi & Hf).
    exists (fr_kind r), (fr_type r g), (fr_role r g). split; [assumption|]. exists r. auto 10.
  - intros (kd & ty & ro & Hf & r & Hc & Hn & Hk & Ht & Hi & Hr). exists r. split; [assumption|].
    apply in_rows. splits; [assumption|assumption|]. now subst.
Qed.

(** What is to be computed for each of the 12 formats. *)
Definition named (g : generation) (t : filetype) (f : field_role -> bool) : list pystr :=
  map fr_name (rows_of g t (fun r => f (fr_role r g))).
Definition is_common (r : field_role) : bool := match r with Common => true | _ => false end.
Definition is_varying (r : field_role) : bool := match r with Varying => true | _ => false end.
Definition is_array_made (r : field_role) : bool := match r with MadeArray | MadeBoth => true | _ => false end.
Definition is_site_made (r : field_role) : bool := match r with MadeSite | MadeBoth => true | _ => false end.
Definition in_site (r : field_role) : bool := match r with MadeArray => false | _ => true end.
Definition in_array (r : field_role) : bool := match r with MadeSite => false | _ => true end.

(** pulse_phase_offset if it is a varying field of the format. *)
Definition ppo_varying (g : generation) (t : filetype) : list pystr :=
  filter (fun k => str_eqb k (str "pulse_phase_offset")) (named g t is_varying).

Definition catalogue_facts (g : generation) (t : filetype) : bool :=
  let F := format_class g t in
  same_list entry_eqb (fm_single F) (entries g (rows_of g t (fun r => kind_eqb (fr_kind r) One))) &&
  same_list entry_eqb (fm_array F) (entries g (rows_of g t (fun r => kind_eqb (fr_kind r) Many))) &&
  same_list str_eqb (fm_shared F) (named g t is_common ++ ppo_varying g t) &&
  match unshared_fields F, site_fields F, array_fields F with
  | Ok u, Ok s, Ok a =>
      same_list str_eqb u (named g t is_varying) &&
      same_list str_eqb s (named g t in_site) && same_list str_eqb a (named g t in_array)
  | _, _, _ => false
  end &&
  same_list str_eqb (map fst (fm_dims_site F)) (named g t is_varying) &&
  same_list str_eqb (array_specific_fields F) (named g t is_array_made) &&
  same_list str_eqb (site_specific_fields F) (named g t is_site_made).

Lemma all_catalogue g t : has_structures t -> catalogue_facts g t = true.
Proof. intros H. destruct t; [| | |now destruct H]; destruct g; vm_compute; reflexivity. Qed.

Lemma catalogue_names : nodupb (map fr_name catalogue) = true.
Proof. vm_compute. reflexivity. Qed.

Lemma listed_unique g t k kd ty ro kd' ty' ro' :
  listed g t k kd ty ro -> listed g t k kd' ty' ro' -> kd = kd' /\ ty = ty' /\ ro = ro'.
Proof.
  intros (r & Hc & Hn & <- & <- & _ & <-) (r' & Hc' & Hn' & <- & <- & _ & <-).
  assert (E : r = r'); [|subst; auto].
  pose proof catalogue_names as HN. apply nodupb_ok in HN. clear - Hc Hn Hc' Hn' HN.
  induction catalogue as [|x l IH]; [contradiction|]. cbn [map] in HN. inversion HN as [|? ? Hx HN']; subst.
  destruct Hc as [->|Hc], Hc' as [->|Hc']; try reflexivity.
  - destruct Hx. rewrite <- Hn'. apply in_map. assumption.
  - destruct Hx. rewrite Hn'. apply in_map. assumption.
  - now apply IH.
Qed.

(** The names with a role that satisfies [f]. *)
Definition with_role (g : generation) (t : filetype) (f : field_role -> bool) (k : pystr) : Prop :=
  exists kd ty ro, f ro = true /\ listed g t k kd ty ro.

Lemma in_named g t f k : In k (named g t f) <-> with_role g t f k.
Proof. apply in_names_role. Qed.

Lemma catalogue_tables g t : has_structures t ->
  let F := format_class g t in
  (forall k ty, In (k, ty) (fm_single F) <-> exists ro, listed g t k One ty ro) /\
  (forall k ty, In (k, ty) (fm_array F) <-> exists ro, listed g t k Many ty ro) /\
  (forall k, In k (fm_shared F) <->
     with_role g t is_common k \/ (k = str "pulse_phase_offset" /\ with_role g t is_varying k)) /\
  (exists u s a, unshared_fields F = Ok u /\ site_fields F = Ok s /\ array_fields F = Ok a /\
     (forall k, In k u <-> with_role g t is_varying k) /\
     (forall k, In k s <-> with_role g t in_site k) /\
     (forall k, In k a <-> with_role g t in_array k)) /\
  (forall k, In k (map fst (fm_dims_site F)) <-> with_role g t is_varying k) /\
  (forall k, In k (array_specific_fields F) <-> with_role g t is_array_made k) /\
  (forall k, In k (site_specific_fields F) <-> with_role g t is_site_made k).
Proof.
  intros HT. pose proof (all_catalogue g t HT) as H. unfold catalogue_facts in H.
  cbv zeta in *. set (F := format_class g t) in *.
  rewrite !andb_true_iff in H. destruct H as ((((((H1 & H2) & H3) & H4) & H5) & H6) & H7).
  splits.
  - intros k ty. rewrite (same_list_In _ entry_eqb_eq _ _ H1 (k, ty)). apply in_entries_kind.
  - intros k ty. rewrite (same_list_In _ entry_eqb_eq _ _ H2 (k, ty)). apply in_entries_kind.
  - intros k. rewrite (same_list_In _ str_eqb_eq _ _ H3 k), in_app_iff, in_named.
    unfold ppo_varying. rewrite filter_In, in_named, str_eqb_eq. tauto.
  - destruct (unshared_fields F) as [u|]; [|discriminate].
    destruct (site_fields F) as [s|]; [|discriminate].
    destruct (array_fields F) as [a|]; [|discriminate].
    rewrite !andb_true_iff in H4. destruct H4 as ((H4 & H8) & H9).
    exists u, s, a. splits; try reflexivity; intros k; rewrite <- in_named; now apply (same_list_In _ str_eqb_eq).
  - intros k. rewrite <- in_named. now apply (same_list_In _ str_eqb_eq).
  - intros k. rewrite <- in_named. now apply (same_list_In _ str_eqb_eq).
  - intros k. rewrite <- in_named. now apply (same_list_In _ str_eqb_eq).
Qed.

Lemma with_role_of g t f k : with_role g t f k <-> exists ro, f ro = true /\ role_of g t k ro.
Proof. split; [intros (kd & ty & ro & H & L); exists ro; split; [assumption|now exists kd, ty]
  |intros (ro & H & kd & ty & L); now exists kd, ty, ro]. Qed.

Lemma role_unique g t k ro ro' : role_of g t k ro -> role_of g t k ro' -> ro = ro'.
Proof. intros (kd & ty & L) (kd' & ty' & L'). now destruct (listed_unique _ _ _ _ _ _ _ _ _ L L') as (_ & _ & E). Qed.

Ltac role_cases := rewrite with_role_of; split;
  [intros (ro & E & L); destruct ro; try discriminate E; auto
  |intros L; repeat match type of L with _ \/ _ => destruct L as [L|L] end; eexists; (split; [|exact L]; reflexivity)].

Lemma catalogue_lists g t : has_structures t ->
  let F := format_class g t in
  (forall k ty, In (k, ty) (fm_single F) <-> exists ro, listed g t k One ty ro) /\
  (forall k ty, In (k, ty) (fm_array F) <-> exists ro, listed g t k Many ty ro) /\
  (forall k, In k (fm_shared F) <->
     role_of g t k Common \/ (k = str "pulse_phase_offset" /\ role_of g t k Varying)) /\
  (exists u s a, unshared_fields F = Ok u /\ site_fields F = Ok s /\ array_fields F = Ok a /\
     (forall k, In k u <-> role_of g t k Varying) /\
     (forall k, In k s <-> exists ro, role_of g t k ro /\ ro <> MadeArray) /\
     (forall k, In k a <-> exists ro, role_of g t k ro /\ ro <> MadeSite)) /\
  (forall k, In k (map fst (fm_dims_site F)) <-> role_of g t k Varying) /\
  (forall k, In k (array_specific_fields F) <-> role_of g t k MadeArray \/ role_of g t k MadeBoth) /\
  (forall k, In k (site_specific_fields F) <-> role_of g t k MadeSite \/ role_of g t k MadeBoth).
Proof.
  intros HT. destruct (catalogue_tables g t HT) as (H1 & H2 & H3 & (u & s & a & Eu & Es & Ea & Hu & Hs & Ha) & H5 & H6 & H7).
  cbv zeta. splits; try assumption.
  - intros k. rewrite H3.
    assert (A : with_role g t is_common k <-> role_of g t k Common) by role_cases.
    assert (B : with_role g t is_varying k <-> role_of g t k Varying) by role_cases. tauto.
  - exists u, s, a. splits; try assumption.
    + intros k. rewrite Hu. role_cases.
    + intros k. rewrite Hs, with_role_of. split; intros (ro & A & B); exists ro.
      * split; [assumption|]. now intros ->.
      * split; [|assumption]. destruct ro; [reflexivity|reflexivity|reflexivity|now destruct B|reflexivity].
    + intros k. rewrite Ha, with_role_of. split; intros (ro & A & B); exists ro.
      * split; [assumption|]. now intros ->.
      * split; [|assumption]. destruct ro; [reflexivity|reflexivity|reflexivity|reflexivity|now destruct B].
  - intros k. rewrite H5. role_cases.
  - intros k. rewrite H6. role_cases.
  - intros k. rewrite H7. role_cases.
Qed.

(** The tables of the specification in terms of the catalogue. *)
Lemma array_only_role g t k : has_structures t -> (exists ro, role_of g t k ro) ->
  (role_of g t k MadeArray <-> array_only k).
Proof.
  intros HT (ro & kd & ty & L). split.
  - intros (kd' & ty' & r & Hc & <- & _ & _ & _ & Hr). clear L.
    assert (E : forallb (fun r => negb (role_eqb (fr_role r g) MadeArray) ||
       str_eqb (fr_name r) (str "num_beams") || str_eqb (fr_name r) (str "num_blanked_samples")) catalogue = true)
      by (destruct g; vm_compute; reflexivity).
    rewrite forallb_forall in E. apply E in Hc. rewrite Hr in Hc. cbn [role_eqb negb orb] in Hc.
    apply orb_true_iff in Hc as [Hc|Hc]; apply str_eqb_eq in Hc; [left|right]; assumption.
  - intros Ho. exists kd, ty. destruct L as (r & Hc & Hn & Hk & Ht & Hi & Hr). exists r. splits; try assumption.
    assert (E : forallb (fun r => negb (str_eqb (fr_name r) (str "num_beams") || str_eqb (fr_name r) (str "num_blanked_samples")) ||
       role_eqb (fr_role r g) MadeArray) catalogue = true)
      by (destruct g; vm_compute; reflexivity).
    rewrite forallb_forall in E. apply E in Hc. rewrite Hn in Hc.
    assert (A : str_eqb k (str "num_beams") || str_eqb k (str "num_blanked_samples") = true)
      by (destruct Ho as [->| ->]; vm_compute; reflexivity).
    rewrite A in Hc. cbn [negb orb] in Hc. now apply role_eqb_eq.
Qed.

Lemma site_only_role g t k : has_structures t -> (exists ro, role_of g t k ro) ->
  (role_of g t k MadeSite <-> site_only k).
Proof.
  intros HT (ro & kd & ty & L). split.
  - intros (kd' & ty' & r & Hc & <- & _ & _ & _ & Hr). clear L.
    assert (E : forallb (fun r => negb (role_eqb (fr_role r g) MadeSite) ||
       str_eqb (fr_name r) (str "data_dimensions") || str_eqb (fr_name r) (str "correlation_dimensions")) catalogue = true)
      by (destruct g; vm_compute; reflexivity).
    rewrite forallb_forall in E. apply E in Hc. rewrite Hr in Hc. cbn [role_eqb negb orb] in Hc.
    apply orb_true_iff in Hc as [Hc|Hc]; apply str_eqb_eq in Hc; [left|right]; assumption.
  - intros Ho. exists kd, ty. destruct L as (r & Hc & Hn & Hk & Ht & Hi & Hr). exists r. splits; try assumption.
    assert (E : forallb (fun r => negb (str_eqb (fr_name r) (str "data_dimensions") || str_eqb (fr_name r) (str "correlation_dimensions")) ||
       role_eqb (fr_role r g) MadeSite) catalogue = true)
      by (destruct g; vm_compute; reflexivity).
    rewrite forallb_forall in E. apply E in Hc. rewrite Hn in Hc.
    assert (A : str_eqb k (str "data_dimensions") || str_eqb k (str "correlation_dimensions") = true)
      by (destruct Ho as [->| ->]; vm_compute; reflexivity).
    rewrite A in Hc. cbn [negb orb] in Hc. now apply role_eqb_eq.
Qed.

(** Made fields are attributes or datasets as follows. *)
Lemma made_kinds g t k kd ty ro : listed g t k kd ty ro ->
  (ro = MadeSite -> kd = Many) /\ (ro = MadeBoth -> kd = Many) /\ (ro = MadeArray -> kd = One) /\
  (k = str "pulse_phase_offset" -> kd = Many).
Proof.
  intros (r & Hc & <- & <- & _ & _ & <-).
  assert (E : forallb (fun r =>
    match fr_role r g with MadeSite | MadeBoth => kind_eqb (fr_kind r) Many | MadeArray => kind_eqb (fr_kind r) One | _ => true end
    && (negb (str_eqb (fr_name r) (str "pulse_phase_offset")) || kind_eqb (fr_kind r) Many)) catalogue = true)
    by (destruct g; vm_compute; reflexivity).
  rewrite forallb_forall in E. apply E, andb_true_iff in Hc as [Hc Hp].
  splits; intros H; try (rewrite H in Hc; now apply kind_eqb_eq).
  rewrite H, str_eqb_refl in Hp. now apply kind_eqb_eq.
Qed.

(** The tables of the specification (BorealisSpec) in terms of the catalogue. *)
Lemma spec_tables g t : has_structures t -> let F := format_class g t in
  (forall k ty, site_attr F k ty <-> exists ro, listed g t k One ty ro /\ ro <> MadeArray) /\
  (forall k ty, site_dset F k ty <-> exists ro, listed g t k Many ty ro) /\
  (forall k ty, array_attr F k ty <-> listed g t k One ty Common) /\
  (forall k ty, array_dset F k ty <->
     (exists ro, listed g t k Many ty ro /\ ro <> MadeSite) \/
     (exists ro, listed g t k One ty ro /\ ro <> Common)) /\
  (forall k, per_record F k <-> role_of g t k Varying).
Proof.
  intros HT. destruct (catalogue_lists g t HT) as (H1 & H2 & H3 & (u & s & a & Eu & Es & Ea & Hu & Hs & Ha) & H5 & H6 & H7).
  cbv zeta in *. set (F := format_class g t) in *.
  assert (AO : forall k kd ty ro, listed g t k kd ty ro -> (ro = MadeArray <-> array_only k)).
  { intros k kd ty ro L. rewrite <- (array_only_role g t k HT); [|now exists ro, kd, ty]. split.
    - intros ->. now exists kd, ty.
    - intros R. apply (role_unique g t k); [now exists kd, ty|assumption]. }
  assert (SO : forall k kd ty ro, listed g t k kd ty ro -> (ro = MadeSite <-> site_only k)).
  { intros k kd ty ro L. rewrite <- (site_only_role g t k HT); [|now exists ro, kd, ty]. split.
    - intros ->. now exists kd, ty.
    - intros R. apply (role_unique g t k); [now exists kd, ty|assumption]. }
  assert (SH : forall k ty ro, listed g t k One ty ro -> (In k (fm_shared F) <-> ro = Common)).
  { intros k ty ro L. rewrite H3. split.
    - intros [R|[-> _]]; [apply (role_unique g t k); [now exists One, ty|assumption]|].
      destruct (made_kinds _ _ _ _ _ _ L) as (_ & _ & _ & M). now specialize (M eq_refl).
    - intros ->. left. now exists One, ty. }
  splits.
  - intros k ty. unfold site_attr. rewrite H1. split.
    + intros ((ro & L) & N). exists ro. split; [assumption|]. now rewrite (AO _ _ _ _ L).
    + intros (ro & L & N). split; [now exists ro|]. now rewrite <- (AO _ _ _ _ L).
  - intros k ty. unfold site_dset. apply H2.
  - intros k ty. unfold array_attr. rewrite H1. split.
    + intros ((ro & L) & N). apply (SH _ _ _ L) in N. now subst.
    + intros L. split; [now exists Common|]. now apply (SH _ _ _ L).
  - intros k ty. unfold array_dset. rewrite H1, H2. split.
    + intros [((ro & L) & N)|((ro & L) & N)]; [left|right]; exists ro; (split; [assumption|]).
      * now rewrite (SO _ _ _ _ L).
      * now rewrite <- (SH _ _ _ L).
    + intros [(ro & L & N)|(ro & L & N)]; [left|right]; (split; [now exists ro|]).
      * now rewrite <- (SO _ _ _ _ L).
      * now rewrite (SH _ _ _ L).
  - intros k. unfold per_record. rewrite <- Hu. unfold unshared_fields in Eu.
    destruct (fm_dims_array F) as [d|]; cbn [rbind] in Eu; [|discriminate]. apply ok_inj in Eu as <-.
    unfold keys. split; [intros (d' & E & H)|intros H; now exists d]. apply ok_inj in E as ->. assumption.
Qed.
