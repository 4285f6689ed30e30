(** Lemmas about the Borealis field checks. *)
From Coq Require Import String ZArith List Bool Lia.
From Verif Require Import Base Bytes BytesProofs DmapTypes DmapFileProofs DmapWriteProofs DmapWriteFacts
  SDarnFormats SDarnChecks BorealisTypes BorealisFormats BorealisChecks BorealisSpec.
Import ListNotations.
Open Scope list_scope.
Open Scope Z_scope.

(** ** Sets *)
Lemma in_set_diff k a b : In k (set_diff a b) <-> In k a /\ ~ In k b.
Proof.
  unfold set_diff. rewrite filter_In. pose proof (str_mem_In k b) as H. destruct (str_mem k b); cbn [negb]; intuition congruence.
Qed.
Lemma in_set_union k a b : In k (set_union a b) <-> In k a \/ In k b.
Proof.
  unfold set_union. rewrite in_app_iff, in_set_diff. pose proof (str_mem_In k a) as H.
  destruct (str_mem k a); intuition congruence.
Qed.
Lemma set_diff_nodup a b : NoDup a -> NoDup (set_diff a b).
Proof. apply NoDup_filter. Qed.
Lemma set_diff_full a b : (forall k, In k a -> ~ In k b) -> set_diff a b = a.
Proof.
  unfold set_diff. induction a as [|x a IH]; intros H; auto. cbn [filter].
  destruct (str_mem x b) eqn:E; [apply str_mem_In in E; exfalso; apply (H x); [now left|exact E]|].
  cbn [negb]. f_equal. apply IH. intros k Hk. apply H. now right.
Qed.
Lemma set_diff_len a b : (length (set_diff a b) <= length a)%nat.
Proof.
  unfold set_diff. induction a as [|x a IH]; cbn [filter length]; [lia|]. destruct (negb _); cbn [length]; lia.
Qed.
Lemma set_diff_all a b : length (set_diff a b) = length a -> forall k, In k a -> ~ In k b.
Proof.
  unfold set_diff. induction a as [|x a IH]; cbn [filter length]; intros H k; [intros []|].
  destruct (str_mem x b) eqn:E; cbn [negb length] in H.
  - pose proof (set_diff_len a b) as HL. unfold set_diff in HL. lia.
  - intros [<-|Hk]; [|apply IH; auto; lia]. intros HC. apply str_mem_In in HC. congruence.
Qed.
Lemma zlen_pos {A} (l : list A) : 0 <? zlen l = match l with [] => false | _ => true end.
Proof. destruct l; unfold zlen; cbn [length]; [reflexivity|]. apply Z.ltb_lt. lia. Qed.
Lemma nonempty_zlen {A} (l : list A) : (0 <? zlen l) = true <-> l <> [].
Proof. rewrite zlen_pos. destruct l; intuition congruence. Qed.
Lemma empty_zlen {A} (l : list A) : (0 <? zlen l) = false -> l = [].
Proof. rewrite zlen_pos. destruct l; congruence. Qed.

Lemma keys_in {A} (d : dict A) k : In k (keys d) <-> exists v, In (k, v) d.
Proof.
  unfold keys. rewrite in_map_iff. split; [intros ([k' v] & <- & H); eauto|intros (v & H); exists (k, v); auto].
Qed.
Lemma dict_in_get {A} (d : dict A) k v : NoDup (keys d) -> (In (k, v) d <-> dict_get d k = Some v).
Proof. intros H. split; [apply dict_get_nodup; exact H|apply dict_get_In]. Qed.
Lemma dict_item_in {A} (d : dict A) k : In k (keys d) -> exists v, dict_item d k = Ok v /\ In (k, v) d.
Proof.
  intros H. unfold dict_item. destruct (dict_get d k) as [v|] eqn:E.
  - exists v. split; auto. now apply dict_get_In.
  - exfalso. eapply dict_get_none; eauto.
Qed.

(** ** The checks on one record *)
Section Tables.
Variables attrs dsets : dict btype.
Hypothesis Na : NoDup (keys attrs).
Hypothesis Nd : NoDup (keys dsets).
Hypothesis Disj : forall k, In k (keys attrs) -> In k (keys dsets) -> False.

Definition field k := In k (keys attrs) \/ In k (keys dsets).

Definition missing_of (names : list pystr) :=
  set_union (set_diff (keys attrs) names) (set_diff (keys dsets) names).

Lemma in_missing_of names k : In k (missing_of names) <-> field k /\ ~ In k names.
Proof. unfold missing_of, field. rewrite in_set_union, !in_set_diff. tauto. Qed.

Lemma missing_of_app names :
  missing_of names = set_diff (keys attrs) names ++ set_diff (keys dsets) names.
Proof.
  unfold missing_of, set_union. f_equal. apply set_diff_full.
  intros k H1 H2. apply in_set_diff in H1, H2. apply (Disj k); tauto.
Qed.

Lemma missing_all names :
  (zlen (missing_of names) =? zlen attrs + zlen dsets) = true <-> (forall k, field k -> ~ In k names).
Proof.
  rewrite Z.eqb_eq, missing_of_app. unfold zlen. rewrite app_length.
  pose proof (set_diff_len (keys attrs) names) as H1. pose proof (set_diff_len (keys dsets) names) as H2.
  assert (L1 : length (keys attrs) = length attrs) by apply map_length.
  assert (L2 : length (keys dsets) = length dsets) by apply map_length.
  split.
  - intros H k [Hk|Hk]; (eapply set_diff_all; [|exact Hk]); lia.
  - intros H. rewrite !set_diff_full; [|intros k Hk; apply H; now right|intros k Hk; apply H; now left]. lia.
Qed.

Lemma missing_check_cases names :
  missing_field_check attrs dsets names =
  if zlen (missing_of names) =? zlen attrs + zlen dsets then Raise BorealisStructureError
  else match missing_of names with [] => Ok tt | l => Raise (BorealisFieldMissingError l) end.
Proof.
  unfold missing_field_check. fold (keys attrs) (keys dsets). fold (missing_of names).
  destruct (_ =? _); auto. rewrite zlen_pos. now destruct (missing_of names).
Qed.

Definition extra_of (names : list pystr) := set_diff names (dict_list2set attrs dsets).

Lemma in_extra_of names k : In k (extra_of names) <-> In k names /\ ~ field k.
Proof. unfold extra_of, dict_list2set, field. rewrite in_set_diff, in_set_union. unfold keys. tauto. Qed.

Lemma extra_check_cases names :
  extra_field_check attrs dsets names =
  match extra_of names with [] => Ok tt | l => Raise (BorealisExtraFieldError l) end.
Proof.
  unfold extra_field_check. fold (extra_of names). rewrite zlen_pos. now destruct (extra_of names).
Qed.

Lemma btype_eqb_eq a b : btype_eqb a b = true <-> a = b.
Proof. destruct a, b; cbn; split; congruence. Qed.
Lemma btype_eqb_neq a b : btype_eqb a b = false <-> a <> b.
Proof. rewrite <- btype_eqb_eq. destruct (btype_eqb a b); split; congruence. Qed.

(** Wrong attributes. *)
Lemma wrong_attributes_cases (l : dict btype) (r : brecord) : NoDup (keys r) ->
  (forall k, In k (keys l) -> In k (keys r)) ->
  match wrong_attributes l r with
  | Ok w => (forall k, In k w <-> exists v t, In (k, t) l /\ In (k, v) r /\ ~ attr_ok t v) /\
            (forall k v t, In (k, t) l -> In (k, v) r -> ~ attr_foreign t v)
  | Raise e => e = AttributeError /\ exists k v t, In (k, t) l /\ In (k, v) r /\ attr_foreign t v
  end.
Proof.
  intros HR. induction l as [|[p t] l IH]; intros HK; cbn [wrong_attributes].
  - split; [|intros k v t []]. intros k. split; [intros []|intros (v & t & [] & _)].
  - destruct (dict_item_in r p) as (v & HI & HP); [apply HK; now left|]. rewrite HI. cbn [rbind].
    assert (Hu : forall v', In (p, v') r -> v' = v).
    { intros v' H'. apply (dict_in_get _ _ _ HR) in H', HP. congruence. }
    specialize (IH (fun k Hk => HK k (or_intror Hk))).
    assert (HC : match (if has_type v t then Ok false
              else match bshape v with None => Raise AttributeError | Some None => Ok false | Some (Some _) => Ok true end) with
            | Ok b => (b = true <-> ~ attr_ok t v) /\ ~ attr_foreign t v
            | Raise e => e = AttributeError /\ attr_foreign t v
            end).
    { destruct (has_type v t) eqn:ET.
      - split; [split; [discriminate|]|]; destruct v; cbn [has_type] in ET; try discriminate; apply btype_eqb_eq in ET; subst.
        + intros H; exfalso; apply H; constructor.
        + intros H; exfalso; apply H; constructor; auto.
        + intros H; inversion H.
        + intros H; inversion H; congruence.
      - destruct v; cbn [bshape has_type] in *; try apply btype_eqb_neq in ET.
        + split; [split; [|reflexivity]|]; intros _ H || intros H; inversion H; congruence.
        + split; [reflexivity|]. constructor. congruence.
        + split; [split; [|reflexivity]|]; intros _ H || intros H; inversion H.
        + split; [split; [discriminate|]|]; [intros H; exfalso; apply H; constructor|intros H; inversion H].
        + split; [reflexivity|constructor]. }
    destruct (if has_type v t then _ else _) as [b|e]; cbn [rbind].
    + destruct HC as [HB HF]. destruct (wrong_attributes l r) as [w|e]; cbn [rbind].
      * destruct IH as [IH1 IH2]. split.
        -- intros k. destruct b.
           ++ cbn [In]. rewrite IH1. split.
              ** intros [<-|(v' & t' & H1 & H2 & H3)]; [exists v, t|exists v', t']; intuition.
              ** intros (v' & t' & [[= <- <-]|H1] & H2 & H3); [now left|right; eauto].
           ++ rewrite IH1. split.
              ** intros (v' & t' & H1 & H2 & H3); exists v', t'; intuition.
              ** intros (v' & t' & [[= <- <-]|H1] & H2 & H3); [|eauto]. apply Hu in H2 as ->.
                 apply HB in H3. discriminate.
        -- intros k v' t' [[= <- <-]|H1] H2; [apply Hu in H2 as ->; exact HF|eauto].
      * destruct IH as [-> (k & v' & t' & H)]. split; auto. exists k, v', t'. intuition.
    + destruct HC as [-> HC]. split; auto. exists p, v, t. intuition.
Qed.

(** Wrong datasets. *)
Lemma bdtype_np v t : bdtype v = Some t <-> np_type v t.
Proof. split; [destruct v; cbn; intros [= ->]; constructor|intros H; inversion H; reflexivity]. Qed.
Lemma bdtype_none v : bdtype v = None <-> forall t, ~ np_type v t.
Proof.
  split.
  - intros H t HT. apply bdtype_np in HT. congruence.
  - intros H. destruct (bdtype v) eqn:E; auto. apply bdtype_np in E. now apply H in E.
Qed.

Lemma wrong_datasets_cases (ok : bool) (l : dict btype) (r : brecord) : NoDup (keys r) ->
  (forall k, In k (keys l) -> In k (keys r)) ->
  match wrong_datasets ok l r with
  | Ok w => (forall k, In k w <-> exists v t, In (k, t) l /\ In (k, v) r /\
               ~ (np_type v t \/ (ok = true /\ np_type v BNpStr))) /\
            (forall k v t, In (k, t) l -> In (k, v) r -> exists t', np_type v t')
  | Raise e => e = AttributeError /\ exists k v t, In (k, t) l /\ In (k, v) r /\ forall t', ~ np_type v t'
  end.
Proof.
  intros HR. induction l as [|[p t] l IH]; intros HK; cbn [wrong_datasets].
  - split; [|intros k v t []]. intros k. split; [intros []|intros (v & t & [] & _)].
  - destruct (dict_item_in r p) as (v & HI & HP); [apply HK; now left|]. rewrite HI. cbn [rbind].
    assert (Hu : forall v', In (p, v') r -> v' = v).
    { intros v' H'. apply (dict_in_get _ _ _ HR) in H', HP. congruence. }
    specialize (IH (fun k Hk => HK k (or_intror Hk))).
    destruct (bdtype v) as [d|] eqn:ED.
    + assert (HB : negb (btype_eqb d t) && negb (ok && btype_eqb d BNpStr) = true <->
                   ~ (np_type v t \/ (ok = true /\ np_type v BNpStr))).
      { rewrite <- !bdtype_np, ED. rewrite andb_true_iff, !negb_true_iff, andb_false_iff, !btype_eqb_neq.
        split.
        - intros [H1 H2] [[= H]|[H [= H']]]; destruct H2; congruence.
        - intros H. split; [intros ->; apply H; now left|].
          destruct ok; [right|now left]. intros ->. apply H. right. auto. }
      destruct (wrong_datasets ok l r) as [w|e]; cbn [rbind].
      * destruct IH as [IH1 IH2]. split.
        -- intros k. destruct (negb (btype_eqb d t) && _).
           ++ cbn [In]. rewrite IH1. split.
              ** intros [<-|(v' & t' & H1 & H2 & H3)]; [exists v, t|exists v', t']; intuition.
              ** intros (v' & t' & [[= <- <-]|H1] & H2 & H3); [now left|right; eauto].
           ++ rewrite IH1. split.
              ** intros (v' & t' & H1 & H2 & H3); exists v', t'; intuition.
              ** intros (v' & t' & [[= <- <-]|H1] & H2 & H3); [|eauto]. apply Hu in H2 as ->.
                 apply HB in H3. discriminate.
        -- intros k v' t' [[= <- <-]|H1] H2; [|eauto]. apply Hu in H2 as ->. exists d. now apply bdtype_np.
      * destruct IH as [-> (k & v' & t' & H)]. split; auto. exists k, v', t'. intuition.
    + split; auto. exists p, v, t. split; [now left|]. split; auto. now apply bdtype_none.
Qed.
End Tables.

(** ** The tables of the formats *)
Definition nodupb (l : list pystr) : bool :=
  (fix go l := match l with [] => true | x :: l' => negb (str_mem x l') && go l' end) l.
Lemma nodupb_ok l : nodupb l = true -> NoDup l.
Proof.
  induction l as [|x l IH]; cbn; intros H; [constructor|].
  apply andb_true_iff in H as [H1 H2]. constructor; [|auto]. intros HC. apply str_mem_In in HC.
  rewrite HC in H1. discriminate.
Qed.
Definition entry_eqb (a b : pystr * btype) := str_eqb (fst a) (fst b) && btype_eqb (snd a) (snd b).
Definition sub_entries (a b : dict btype) : bool := forallb (fun x => existsb (entry_eqb x) b) a.
Lemma sub_entries_ok a b : sub_entries a b = true -> forall x, In x a -> In x b.
Proof.
  intros H x Hx. unfold sub_entries in H. rewrite forallb_forall in H. specialize (H x Hx).
  apply existsb_exists in H as ([k t] & H1 & H2). destruct x as [k' t']. unfold entry_eqb in H2. cbn [fst snd] in H2.
  apply andb_true_iff in H2 as [H2 H3]. apply str_eqb_eq in H2. apply btype_eqb_eq in H3. now subst.
Qed.
Definition disjointb (a b : list pystr) : bool := forallb (fun x => negb (str_mem x b)) a.
Lemma disjointb_ok a b : disjointb a b = true -> forall k, In k a -> In k b -> False.
Proof.
  intros H k Ha Hb. unfold disjointb in H. rewrite forallb_forall in H. specialize (H k Ha).
  apply str_mem_In in Hb. rewrite Hb in H. discriminate.
Qed.
Definition subb (a b : list pystr) : bool := forallb (fun x => str_mem x b) a.
Lemma subb_ok a b : subb a b = true -> forall k, In k a -> In k b.
Proof. intros H k Ha. unfold subb in H. rewrite forallb_forall in H. now apply str_mem_In, H. Qed.

Definition array_onlyb k := str_eqb k (str "num_beams") || str_eqb k (str "num_blanked_samples").
Definition site_onlyb k := str_eqb k (str "data_dimensions") || str_eqb k (str "correlation_dimensions").
Lemma array_onlyb_ok k : array_onlyb k = true <-> array_only k.
Proof. unfold array_onlyb, array_only. rewrite orb_true_iff, !str_eqb_eq. tauto. Qed.
Lemma site_onlyb_ok k : site_onlyb k = true <-> site_only k.
Proof. unfold site_onlyb, site_only. rewrite orb_true_iff, !str_eqb_eq. tauto. Qed.

Definition site_attrs F := filter (fun p => negb (array_onlyb (fst p))) (fm_single F).
Definition array_attrs F := filter (fun p => str_mem (fst p) (fm_shared F)) (fm_single F).
Definition array_dsets F :=
  filter (fun p => negb (site_onlyb (fst p))) (fm_array F)
  ++ filter (fun p => negb (str_mem (fst p) (fm_shared F))) (fm_single F).

Lemma in_site_attrs F k t : In (k, t) (site_attrs F) <-> site_attr F k t.
Proof.
  unfold site_attrs, site_attr. rewrite filter_In. cbn [fst]. rewrite <- array_onlyb_ok.
  destruct (array_onlyb k); cbn [negb]; intuition congruence.
Qed.
Lemma in_array_attrs F k t : In (k, t) (array_attrs F) <-> array_attr F k t.
Proof. unfold array_attrs, array_attr. rewrite filter_In. cbn [fst]. now rewrite <- (str_mem_In k). Qed.
Lemma in_array_dsets F k t : In (k, t) (array_dsets F) <-> array_dset F k t.
Proof.
  unfold array_dsets, array_dset. rewrite in_app_iff, !filter_In. cbn [fst].
  rewrite <- (str_mem_In k), <- site_onlyb_ok.
  destruct (str_mem k (fm_shared F)), (site_onlyb k); cbn [negb]; intuition congruence.
Qed.

Definition table_facts (F : format) : bool :=
  match site_single_element_types F, site_array_dtypes F, array_single_element_types F, array_array_dtypes F,
        unshared_fields F with
  | Ok sa, Ok sd, Ok aa, Ok ad, Ok u =>
      nodupb (keys sa) && nodupb (keys sd) && disjointb (keys sa) (keys sd)
      && nodupb (keys aa) && nodupb (keys ad) && disjointb (keys aa) (keys ad)
      && sub_entries sa (site_attrs F) && sub_entries (site_attrs F) sa
      && sub_entries sd (fm_array F) && sub_entries (fm_array F) sd
      && sub_entries aa (array_attrs F) && sub_entries (array_attrs F) aa
      && sub_entries ad (array_dsets F) && sub_entries (array_dsets F) ad
      && subb u (keys ad) && negb (Nat.eqb (length u) 0)
      && negb (Nat.eqb (length sa) 0)
  | _, _, _, _, _ => false
  end.

Lemma all_tables g t : has_structures t -> table_facts (format_class g t) = true.
Proof. intros H. destruct t; [| | |now destruct H]; destruct g; vm_compute; reflexivity. Qed.

Lemma site_tables g t : has_structures t -> exists sa sd,
  site_single_element_types (format_class g t) = Ok sa /\ site_array_dtypes (format_class g t) = Ok sd /\
  NoDup (keys sa) /\ NoDup (keys sd) /\ (forall k, In k (keys sa) -> In k (keys sd) -> False) /\
  (forall k ty, In (k, ty) sa <-> site_attr (format_class g t) k ty) /\
  (forall k ty, In (k, ty) sd <-> site_dset (format_class g t) k ty) /\ sa <> [].
Proof.
  intros H. pose proof (all_tables g t H) as HF. unfold table_facts in HF.
  destruct (site_single_element_types _) as [sa|]; [|discriminate].
  destruct (site_array_dtypes _) as [sd|]; [|discriminate].
  destruct (array_single_element_types _) as [aa|]; [|discriminate].
  destruct (array_array_dtypes _) as [ad|]; [|discriminate].
  destruct (unshared_fields _) as [u|]; [|discriminate].
  rewrite !andb_true_iff in HF. decompose [and] HF. clear HF. exists sa, sd.
  splits; auto using nodupb_ok.
  - now apply disjointb_ok.
  - intros k ty. rewrite <- in_site_attrs. split; apply sub_entries_ok; auto.
  - intros k ty. unfold site_dset. split; apply sub_entries_ok; auto.
  - intros ->. discriminate.
Qed.

Lemma array_tables g t : has_structures t -> exists aa ad u,
  array_single_element_types (format_class g t) = Ok aa /\ array_array_dtypes (format_class g t) = Ok ad /\
  unshared_fields (format_class g t) = Ok u /\
  NoDup (keys aa) /\ NoDup (keys ad) /\ (forall k, In k (keys aa) -> In k (keys ad) -> False) /\
  (forall k ty, In (k, ty) aa <-> array_attr (format_class g t) k ty) /\
  (forall k ty, In (k, ty) ad <-> array_dset (format_class g t) k ty) /\
  (forall k, In k u <-> per_record (format_class g t) k) /\
  (forall k, In k u -> In k (keys ad)) /\ u <> [].
Proof.
  intros H. pose proof (all_tables g t H) as HF. unfold table_facts in HF.
  destruct (site_single_element_types _) as [sa|]; [|discriminate].
  destruct (site_array_dtypes _) as [sd|]; [|discriminate].
  destruct (array_single_element_types _) as [aa|]; [|discriminate].
  destruct (array_array_dtypes _) as [ad|]; [|discriminate].
  destruct (unshared_fields _) as [u|] eqn:EU; [|discriminate].
  rewrite !andb_true_iff in HF. decompose [and] HF. clear HF. exists aa, ad, u.
  splits; auto using nodupb_ok.
  - now apply disjointb_ok.
  - intros k ty. rewrite <- in_array_attrs. split; apply sub_entries_ok; auto.
  - intros k ty. rewrite <- in_array_dsets. split; apply sub_entries_ok; auto.
  - intros k. unfold per_record. unfold unshared_fields in EU.
    destruct (fm_dims_array (format_class g t)) as [d|]; [|discriminate]. cbn [rbind] in EU. injection EU as <-.
    split; [intros Hk; exists d; auto|intros (d' & [= <-] & Hk); exact Hk].
  - now apply subb_ok.
  - intros ->. discriminate.
Qed.

(** ** Site records *)
Lemma lists_ext l P Q : (forall k, P k <-> Q k) -> lists l P -> lists l Q.
Proof. intros H HL k. rewrite (HL k). apply H. Qed.

Lemma nonempty_ex (l : list pystr) : l <> [] -> exists k, In k l.
Proof. destruct l; [congruence|]. intros _. eexists. now left. Qed.

Lemma check_record_verdict g t sa sd r : has_structures t -> NoDup (keys r) ->
  site_single_element_types (format_class g t) = Ok sa -> site_array_dtypes (format_class g t) = Ok sd ->
  verdict (format_class g t) r (check_record sa sd r).
Proof.
  intros HT HR E1 E2. destruct (site_tables g t HT) as (sa' & sd' & E1' & E2' & Na & Nd & Dj & HA & HD & HN).
  rewrite E1 in E1'. injection E1' as <-. rewrite E2 in E2'. injection E2' as <-.
  set (F := format_class g t) in *.
  assert (HF : forall k, field sa sd k <-> site_field F k).
  { intros k. unfold field, site_field. rewrite !keys_in. split.
    - intros [[ty H]|[ty H]]; exists ty; [left; now apply HA|right; now apply HD].
    - intros (ty & [H|H]); [left|right]; exists ty; [now apply HA|now apply HD]. }
  unfold check_record. fold (keys r). rewrite missing_check_cases.
  destruct (_ =? _) eqn:EM; cbn [rbind].
  { pose proof (proj1 (missing_all sa sd Dj _) EM) as EM'. constructor. intros k Hk. apply EM'. now apply HF. }
  assert (HS : exists k, site_field F k /\ In k (keys r)).
  { destruct (existsb (fun k => str_mem k (keys r)) (keys sa ++ keys sd)) eqn:EX.
    - apply existsb_exists in EX as (k & H1 & H2). exists k. split; [apply HF; unfold field; now apply in_app_iff|].
      now apply str_mem_In.
    - exfalso. apply Bool.not_true_iff_false in EM. apply EM. apply (missing_all sa sd Dj).
      intros k Hk HC. assert (existsb (fun k => str_mem k (keys r)) (keys sa ++ keys sd) = true); [|congruence].
      apply existsb_exists. exists k. split; [now apply in_app_iff|now apply str_mem_In]. }
  assert (HL : lists (missing_of sa sd (keys r)) (lacks F r)).
  { intros k. rewrite in_missing_of. unfold lacks. now rewrite HF. }
  destruct (missing_of sa sd (keys r)) as [|m ms] eqn:EMO; cbn [rbind].
  2:{ apply v_missing; auto. discriminate. }
  assert (HNL : forall k, ~ lacks F r k) by (intros k Hk; apply (HL k) in Hk; destruct Hk).
  rewrite extra_check_cases.
  assert (HE : lists (extra_of sa sd (keys r)) (surplus F r)).
  { intros k. rewrite in_extra_of. unfold surplus. now rewrite HF. }
  destruct (extra_of sa sd (keys r)) as [|x xs] eqn:EXO; cbn [rbind].
  2:{ apply v_extra; auto. discriminate. }
  assert (HNX : forall k, ~ surplus F r k) by (intros k Hk; apply (HE k) in Hk; destruct Hk).
  assert (HK : forall k, field sa sd k -> In k (keys r)).
  { intros k Hk. destruct (in_dec (list_eq_dec Z.eq_dec) k (keys r)); auto. exfalso. apply (HNL k). split; auto. now apply HF. }
  unfold record_incorrect_types_check.
  pose proof (wrong_attributes_cases sa r HR (fun k Hk => HK k (or_introl Hk))) as HW.
  destruct (wrong_attributes sa r) as [w1|e]; cbn [rbind].
  2:{ destruct HW as [-> (k & v & ty & H1 & H2 & H3)]. apply (v_foreign _ _ k); auto.
      exists v, ty. split; auto. left. split; auto. now apply HA. }
  pose proof (wrong_datasets_cases false sd r HR (fun k Hk => HK k (or_intror Hk))) as HW2.
  destruct (wrong_datasets false sd r) as [w2|e]; cbn [rbind].
  2:{ destruct HW2 as [-> (k & v & ty & H1 & H2 & H3)]. apply (v_foreign _ _ k); auto.
      exists v, ty. split; auto. right. split; auto. now apply HD. }
  destruct HW as [HW HWf]. destruct HW2 as [HW2 HW2f].
  assert (HWR : lists (set_union w1 w2) (wrong F r)).
  { intros k. rewrite in_set_union, HW, HW2. unfold wrong. split.
    - intros [(v & ty & H1 & H2 & H3)|(v & ty & H1 & H2 & H3)]; exists v, ty; split; auto.
      + left. split; auto. now apply HA.
      + right. split; [now apply HD|tauto].
    - intros (v & ty & H1 & [[H2 H3]|[H2 H3]]); [left|right]; exists v, ty.
      + splits; auto. now apply HA.
      + splits; auto; [now apply HD|]. intros [H|[H _]]; [auto|discriminate]. }
  rewrite zlen_pos. destruct (set_union w1 w2) as [|w ws].
  - apply v_good; auto. intros k Hk. apply (HWR k) in Hk. destruct Hk.
  - apply v_wrong; auto; [|discriminate]. intros k (v & ty & H1 & [[H2 H3]|[H2 H3]]).
    + apply (HWf k v ty); auto. now apply HA.
    + destruct (HW2f k v ty) as [t' Ht']; auto; [now apply HD|]. now apply H3 in Ht'.
Qed.

Lemma verdict_good F r : NoDup (keys r) -> verdict F r (Ok tt) <-> site_record_ok F r.
Proof.
  intros HR. split.
  - intros H. inversion H as [| | | | |HL HX HW]; subst. split; [|split].
    + intros k. split; intros Hk.
      * destruct (in_dec (list_eq_dec Z.eq_dec) k (map fst (fm_single F) ++ map fst (fm_array F))) as [Hi|Hi].
        -- unfold site_field. rewrite in_app_iff in Hi. fold (keys (fm_single F)) (keys (fm_array F)) in Hi.
           rewrite !keys_in in Hi. destruct Hi as [[ty Hi]|[ty Hi]].
           ++ destruct (array_onlyb k) eqn:EA.
              ** destruct (in_dec (list_eq_dec Z.eq_dec) k (keys (fm_array F))) as [Hj|Hj].
                 --- apply keys_in in Hj as [ty' Hj]. exists ty'. right. exact Hj.
                 --- exfalso. apply (HX k). split; auto. intros (ty' & [[_ Hc]|Hc]).
                     +++ apply Hc. now apply array_onlyb_ok.
                     +++ apply Hj. apply keys_in. eauto.
              ** exists ty. left. split; auto. rewrite <- array_onlyb_ok. congruence.
           ++ exists ty. now right.
        -- exfalso. apply (HX k). split; auto. intros (ty & [[Hc _]|Hc]); apply Hi; rewrite in_app_iff;
             [left|right]; fold (keys (fm_single F)) (keys (fm_array F)); apply keys_in; eauto.
      * destruct (in_dec (list_eq_dec Z.eq_dec) k (keys r)); auto. exfalso. apply (HL k). split; auto.
    + intros k v t Hv Ht. destruct v; [| | |constructor|].
      1: destruct (btype_eqb t0 t) eqn:E; [apply btype_eqb_eq in E; subst; constructor|].
      2: destruct (btype_eqb t BStr) eqn:E; [apply btype_eqb_eq in E; subst; now constructor|].
      all: exfalso; apply (HW k); eexists _, _; split; [exact Hv|left; split; [exact Ht|]]; intros HC; inversion HC; subst;
        apply btype_eqb_neq in E; congruence.
    + intros k v t Hv Ht. destruct (bdtype v) as [d|] eqn:E.
      * destruct (btype_eqb d t) eqn:ET; [apply btype_eqb_eq in ET; subst; now apply bdtype_np|].
        exfalso. apply (HW k). eexists _, _. split; [exact Hv|right; split; [exact Ht|]]. intros HC.
        apply bdtype_np in HC. apply btype_eqb_neq in ET. congruence.
      * exfalso. apply (HW k). eexists _, _. split; [exact Hv|right; split; [exact Ht|]]. intros HC.
        apply bdtype_np in HC. congruence.
  - intros (H1 & H2 & H3). apply v_good.
    + intros k [Ha Hb]. apply Hb. now apply H1.
    + intros k [Ha Hb]. apply Hb. now apply H1.
    + intros k (v & t & Hv & [[Ha Hb]|[Ha Hb]]); apply Hb; eauto.
Qed.

(** The verdict on a record is unique up to the order of the names. *)
Definition same_verdict (a b : res unit) : Prop :=
  match a, b with
  | Raise (BorealisFieldMissingError l), Raise (BorealisFieldMissingError l')
  | Raise (BorealisExtraFieldError l), Raise (BorealisExtraFieldError l')
  | Raise (BorealisDataFormatTypeError l), Raise (BorealisDataFormatTypeError l') => lists l (fun k => In k l')
  | _, _ => a = b
  end.

Lemma foreign_wrong F r k : foreign F r k -> wrong F r k.
Proof.
  intros (v & t & H & [[H1 H2]|[H1 H2]]); exists v, t; split; auto.
  left. split; auto. intros HC. inversion H2; subst; inversion HC; subst; congruence.
Qed.

Lemma verdict_unique F r a b : (exists k, site_field F k) -> verdict F r a -> verdict F r b -> same_verdict a b.
Proof.
  intros (k0 & H0) HA HB.
  assert (Hl : forall l P, lists l P -> l <> [] -> exists k, P k).
  { intros l P HL HN. destruct (nonempty_ex l HN) as [k Hk]. exists k. now apply HL. }
  assert (HX : forall l l' P, lists l P -> lists l' P -> lists l (fun k => In k l')).
  { intros l l' P H1 H2 k. rewrite (H1 k), (H2 k). tauto. }
  assert (HNF : (forall k, site_field F k -> ~ In k (keys r)) -> (forall k, ~ lacks F r k) -> False).
  { intros H1 H2. apply (H2 k0). split; auto. }
  destruct HA as [A1|l A1 A2 (ka & A3 & A3')|l A1 A2 A3|k A1 A2 A3|l A1 A2 A3 A4 A5|A1 A2 A3];
  destruct HB as [B1|l' B1 B2 (kb & B3 & B3')|l' B1 B2 B3|k' B1 B2 B3|l' B1 B2 B3 B4 B5|B1 B2 B3];
  cbn [same_verdict]; try reflexivity; try (eapply HX; eassumption); exfalso;
  repeat match goal with
  | [H : lists ?l ?P, N : ?l <> [] |- _] => destruct (Hl l P H N) as [? ?]; clear H N
  | [H : foreign F r ?k, W : forall k, ~ wrong F r k |- _] => apply foreign_wrong in H
  end;
  match goal with
  | [H : ?P ?x, N : forall k, ~ ?P k |- _] => exact (N _ H)
  | [H : site_field F ?x, K : In ?x (keys r), N : forall k, site_field F k -> ~ In k (keys r) |- _] => exact (N _ H K)
  | [H : forall k, site_field F k -> ~ In k (keys r), N : forall k, ~ lacks F r k |- _] => exact (HNF H N)
  end.
Qed.

(** ** The loop over the records *)
Lemma dict_set_fresh {A} (d : dict A) k v : ~ In k (keys d) -> dict_set d k v = d ++ [(k, v)].
Proof.
  induction d as [|[k' v'] d IH]; intros H; cbn [dict_set app]; [reflexivity|].
  destruct (str_eqb k' k) eqn:E; [apply str_eqb_eq in E; exfalso; apply H; left; exact E|].
  f_equal. apply IH. intros HC. apply H. now right.
Qed.

Section Loop.
Variables attrs dsets : dict btype.
Let J (p : pystr * brecord) := check_record attrs dsets (snd p).
Definition entry_m (j : res unit) (n : pystr) : dict (list pystr) :=
  match j with Raise (BorealisFieldMissingError l) => [(n, l)] | _ => [] end.
Definition entry_x (j : res unit) (n : pystr) : dict (list pystr) :=
  match j with Raise (BorealisExtraFieldError l) => [(n, l)] | _ => [] end.
Definition entry_i (j : res unit) (n : pystr) : dict (list pystr) :=
  match j with Raise (BorealisDataFormatTypeError l) => [(n, l)] | _ => [] end.
Definition aborts (j : res unit) : option exn :=
  match j with
  | Ok _ | Raise (BorealisFieldMissingError _) | Raise (BorealisExtraFieldError _)
  | Raise (BorealisDataFormatTypeError _) => None
  | Raise e => Some e
  end.

Lemma check_loop_cases (rs : brecords) : forall m x i, NoDup (keys rs) ->
  (forall n, In n (keys rs) -> ~ In n (keys m) /\ ~ In n (keys x) /\ ~ In n (keys i)) ->
  (check_loop attrs dsets rs m x i =
     Ok (m ++ flat_map (fun p => entry_m (J p) (fst p)) rs,
         x ++ flat_map (fun p => entry_x (J p) (fst p)) rs,
         i ++ flat_map (fun p => entry_i (J p) (fst p)) rs) /\
   forall p, In p rs -> aborts (J p) = None)
  \/ (exists pre p post e, rs = pre ++ p :: post /\ check_loop attrs dsets rs m x i = Raise e /\
        aborts (J p) = Some e /\ J p = Raise e /\ forall q, In q pre -> aborts (J q) = None).
Proof.
  induction rs as [|[n r] rs IH]; intros m x i HN HF; cbn [check_loop flat_map].
  - left. rewrite !app_nil_r. split; auto. intros p [].
  - inversion HN as [|? ? HN1 HN2]; subst.
    destruct (HF n (or_introl eq_refl)) as (Fm & Fx & Fi).
    assert (HF' : forall d : dict (list pystr), (forall k, In k (keys rs) -> ~ In k (keys d)) ->
              forall l k, In k (keys rs) -> ~ In k (keys (d ++ [(n, l)]))).
    { intros d Hd l k Hk. unfold keys. rewrite map_app, in_app_iff. intros [HC|[HC|[]]].
      - now apply (Hd k Hk).
      - cbn in HC. subst. now apply HN1. }
    assert (G : forall m' x' i', (forall k, In k (keys rs) -> ~ In k (keys m') /\ ~ In k (keys x') /\ ~ In k (keys i')) ->
      aborts (J (n, r)) = None ->
      (check_loop attrs dsets rs m' x' i' =
         Ok (m' ++ flat_map (fun p => entry_m (J p) (fst p)) rs,
             x' ++ flat_map (fun p => entry_x (J p) (fst p)) rs,
             i' ++ flat_map (fun p => entry_i (J p) (fst p)) rs) /\
       forall p, In p ((n, r) :: rs) -> aborts (J p) = None)
      \/ (exists pre p post e, (n, r) :: rs = pre ++ p :: post /\ check_loop attrs dsets rs m' x' i' = Raise e /\
            aborts (J p) = Some e /\ J p = Raise e /\ forall q, In q pre -> aborts (J q) = None)).
    { intros m' x' i' HF2 HA. destruct (IH m' x' i' HN2 HF2) as [[H1 H2]|(pre & p & post & e & -> & H1 & H2 & H3 & H4)].
      - left. split; auto. intros p [<-|Hp]; auto.
      - right. exists ((n, r) :: pre), p, post, e. splits; auto. intros q [<-|Hq]; auto. }
    assert (HFr : forall k, In k (keys rs) -> ~ In k (keys m) /\ ~ In k (keys x) /\ ~ In k (keys i)).
    { intros k Hk. apply HF. now right. }
    change (check_record attrs dsets r) with (J (n, r)).
    destruct (J (n, r)) as [u|e] eqn:EJ.
    + cbn [entry_m entry_x entry_i app]. apply G; auto.
    + destruct e; try (right; exists [], (n, r), rs; eexists; splits; [reflexivity|reflexivity|now rewrite EJ|now rewrite EJ|intros q []]);
        cbn [entry_m entry_x entry_i app fst].
      * rewrite dict_set_fresh by auto. specialize (G (m ++ [(n, fields)]) x i). rewrite <- app_assoc in G.
        apply G; auto. intros k Hk. destruct (HFr k Hk) as (? & ? & ?). splits; auto. apply HF'; auto. intros; apply HFr; auto.
      * rewrite dict_set_fresh by auto. specialize (G m (x ++ [(n, fields)]) i). rewrite <- app_assoc in G.
        apply G; auto. intros k Hk. destruct (HFr k Hk) as (? & ? & ?). splits; auto. apply HF'; auto. intros; apply HFr; auto.
      * rewrite dict_set_fresh by auto. specialize (G m x (i ++ [(n, fields)])). rewrite <- app_assoc in G.
        apply G; auto. intros k Hk. destruct (HFr k Hk) as (? & ? & ?). splits; auto. apply HF'; auto. intros; apply HFr; auto.
Qed.
End Loop.

Lemma some_field g t : has_structures t -> exists k, site_field (format_class g t) k.
Proof.
  intros HT. destruct (site_tables g t HT) as (sa & sd & _ & _ & _ & _ & _ & HA & _ & HN).
  destruct sa as [|[k ty] sa]; [congruence|]. exists k, ty. left. apply HA. now left.
Qed.

Lemma verdict_aborts F r j e : verdict F r j -> aborts j = Some e -> e = BorealisStructureError \/ e = AttributeError.
Proof. intros [] [= <-]; auto. Qed.

Lemma site_check_report g t rs : has_structures t -> proper rs ->
  let F := format_class g t in
  match check_site_records F rs with
  | Ok _ => forall n r, In (n, r) rs -> verdict F r (Ok tt)
  | Raise (BorealisBadRecordsError m x i) =>
      (m <> [] \/ x <> [] \/ i <> []) /\
      reports F rs m BorealisFieldMissingError /\ reports F rs x BorealisExtraFieldError /\
      reports F rs i BorealisDataFormatTypeError /\
      (forall n r, In (n, r) rs -> ~ verdict F r (Raise BorealisStructureError) /\ ~ verdict F r (Raise AttributeError))
  | Raise e =>
      (e = BorealisStructureError \/ e = AttributeError) /\
      exists pre n r post, rs = pre ++ (n, r) :: post /\ verdict F r (Raise e) /\
        forall n' r', In (n', r') pre ->
          ~ verdict F r' (Raise BorealisStructureError) /\ ~ verdict F r' (Raise AttributeError)
  end.
Proof.
  intros HT [HN HR]. cbv zeta. destruct (site_tables g t HT) as (sa & sd & E1 & E2 & _).
  pose proof (some_field g t HT) as HSF.
  set (F := format_class g t) in *. unfold check_site_records. rewrite E1, E2. cbn [rbind].
  assert (HV : forall n r, In (n, r) rs -> verdict F r (check_record sa sd r)).
  { intros n r Hr. apply check_record_verdict; eauto. }
  assert (HAB : forall n r, In (n, r) rs -> aborts (check_record sa sd r) = None ->
            ~ verdict F r (Raise BorealisStructureError) /\ ~ verdict F r (Raise AttributeError)).
  { intros n r Hr Ha. pose proof (HV _ _ Hr) as Hv.
    split; intros HC; pose proof (verdict_unique F r _ _ HSF Hv HC) as HU;
      destruct (check_record sa sd r) as [|[]]; cbn in HU, Ha; congruence. }
  unfold check_records.
  destruct (check_loop_cases sa sd rs [] [] [] HN) as [[HL HA]|(pre & [n r] & post & e & -> & HL & HA & HJ & HP)].
  - intros n Hn. cbn. tauto.
  - rewrite HL. cbn [rbind app].
    assert (HRm : reports F rs (flat_map (fun p => entry_m (check_record sa sd (snd p)) (fst p)) rs) BorealisFieldMissingError).
    { split.
      - intros n. rewrite keys_in. split.
        + intros (l & H). apply in_flat_map in H as ([n' r] & H1 & H2). cbn [fst snd] in H2.
          pose proof (HV _ _ H1) as Hv.
          destruct (check_record sa sd r) as [|[]]; cbn in H2; try contradiction; destruct H2 as [H2|[]]; injection H2 as -> ->. eauto.
        + intros (r & l & H1 & H2). pose proof (verdict_unique F r _ _ HSF (HV _ _ H1) H2) as HU.
          destruct (check_record sa sd r) as [|[]] eqn:EC; cbn in HU; try discriminate HU.
          eexists. apply in_flat_map. exists (n, r). split; auto. cbn [fst snd]. rewrite EC. now left.
      - intros n l r H Hr. apply in_flat_map in H as ([n' r'] & H1 & H2). cbn [fst snd] in H2.
        pose proof (HV _ _ H1) as Hv.
        destruct (check_record sa sd r') as [|[]]; cbn in H2; try contradiction; destruct H2 as [H2|[]]; injection H2 as -> ->.
        apply (dict_in_get _ _ _ HN) in Hr, H1. congruence. }
    assert (HRx : reports F rs (flat_map (fun p => entry_x (check_record sa sd (snd p)) (fst p)) rs) BorealisExtraFieldError).
    { split.
      - intros n. rewrite keys_in. split.
        + intros (l & H). apply in_flat_map in H as ([n' r] & H1 & H2). cbn [fst snd] in H2.
          pose proof (HV _ _ H1) as Hv.
          destruct (check_record sa sd r) as [|[]]; cbn in H2; try contradiction; destruct H2 as [H2|[]]; injection H2 as -> ->. eauto.
        + intros (r & l & H1 & H2). pose proof (verdict_unique F r _ _ HSF (HV _ _ H1) H2) as HU.
          destruct (check_record sa sd r) as [|[]] eqn:EC; cbn in HU; try discriminate HU.
          eexists. apply in_flat_map. exists (n, r). split; auto. cbn [fst snd]. rewrite EC. now left.
      - intros n l r H Hr. apply in_flat_map in H as ([n' r'] & H1 & H2). cbn [fst snd] in H2.
        pose proof (HV _ _ H1) as Hv.
        destruct (check_record sa sd r') as [|[]]; cbn in H2; try contradiction; destruct H2 as [H2|[]]; injection H2 as -> ->.
        apply (dict_in_get _ _ _ HN) in Hr, H1. congruence. }
    assert (HRi : reports F rs (flat_map (fun p => entry_i (check_record sa sd (snd p)) (fst p)) rs) BorealisDataFormatTypeError).
    { split.
      - intros n. rewrite keys_in. split.
        + intros (l & H). apply in_flat_map in H as ([n' r] & H1 & H2). cbn [fst snd] in H2.
          pose proof (HV _ _ H1) as Hv.
          destruct (check_record sa sd r) as [|[]]; cbn in H2; try contradiction; destruct H2 as [H2|[]]; injection H2 as -> ->. eauto.
        + intros (r & l & H1 & H2). pose proof (verdict_unique F r _ _ HSF (HV _ _ H1) H2) as HU.
          destruct (check_record sa sd r) as [|[]] eqn:EC; cbn in HU; try discriminate HU.
          eexists. apply in_flat_map. exists (n, r). split; auto. cbn [fst snd]. rewrite EC. now left.
      - intros n l r H Hr. apply in_flat_map in H as ([n' r'] & H1 & H2). cbn [fst snd] in H2.
        pose proof (HV _ _ H1) as Hv.
        destruct (check_record sa sd r') as [|[]]; cbn in H2; try contradiction; destruct H2 as [H2|[]]; injection H2 as -> ->.
        apply (dict_in_get _ _ _ HN) in Hr, H1. congruence. }
    assert (HNA : forall n r, In (n, r) rs -> ~ verdict F r (Raise BorealisStructureError) /\ ~ verdict F r (Raise AttributeError)).
    { intros n r Hr. apply (HAB n r Hr). apply (HA _ Hr). }
    revert HRm HRx HRi.
    remember (flat_map (fun p => entry_m _ _) rs) as m eqn:Em.
    remember (flat_map (fun p => entry_x _ _) rs) as x eqn:Ex.
    remember (flat_map (fun p => entry_i _ _) rs) as i eqn:Ei. intros HRm HRx HRi.
    destruct m as [|m0 m]; [destruct x as [|x0 x]; [destruct i as [|i0 i]|]|].
    + intros n r Hr. pose proof (HV _ _ Hr) as Hv. pose proof (HA _ Hr) as Ha. cbn [snd] in Ha.
      assert (Hem : entry_m (check_record sa sd r) n = []).
      { destruct (entry_m (check_record sa sd r) n) as [|y ys] eqn:E; auto. exfalso.
        assert (In y []) as []. rewrite Em. apply in_flat_map. exists (n, r). split; auto. cbn [fst snd]. rewrite E. now left. }
      assert (Hex : entry_x (check_record sa sd r) n = []).
      { destruct (entry_x (check_record sa sd r) n) as [|y ys] eqn:E; auto. exfalso.
        assert (In y []) as []. rewrite Ex. apply in_flat_map. exists (n, r). split; auto. cbn [fst snd]. rewrite E. now left. }
      assert (Hei : entry_i (check_record sa sd r) n = []).
      { destruct (entry_i (check_record sa sd r) n) as [|y ys] eqn:E; auto. exfalso.
        assert (In y []) as []. rewrite Ei. apply in_flat_map. exists (n, r). split; auto. cbn [fst snd]. rewrite E. now left. }
      destruct (check_record sa sd r) as [[]|[]]; cbn in Ha, Hem, Hex, Hei; try discriminate. exact Hv.
    + splits; auto. right. right. discriminate.
    + splits; auto. right. left. discriminate.
    + splits; auto. left. discriminate.
  - rewrite HL. cbn [rbind]. cbn [snd] in HA, HJ.
    assert (HI : In (n, r) (pre ++ (n, r) :: post)) by (apply in_app_iff; right; now left).
    pose proof (HV _ _ HI) as Hv. pose proof (verdict_aborts _ _ _ _ Hv HA) as HE. rewrite HJ in Hv.
    assert (HG : (e = BorealisStructureError \/ e = AttributeError) /\
      exists pre' n' r' post', pre ++ (n, r) :: post = pre' ++ (n', r') :: post' /\ verdict F r' (Raise e) /\
        forall n'' r'', In (n'', r'') pre' ->
          ~ verdict F r'' (Raise BorealisStructureError) /\ ~ verdict F r'' (Raise AttributeError)).
    { split; auto. exists pre, n, r, post. splits; auto. intros n' r' Hr'.
      assert (In (n', r') (pre ++ (n, r) :: post)) by (apply in_app_iff; now left).
      apply (HAB n' r'); auto. apply (HP _ Hr'). }
    destruct HE as [-> | ->]; exact HG.
Qed.

Lemma site_check_iff g t rs : has_structures t -> proper rs ->
  check_site_records (format_class g t) rs = Ok tt <->
  (forall n r, In (n, r) rs -> site_record_ok (format_class g t) r).
Proof.
  intros HT HP. pose proof (site_check_report g t rs HT HP) as H. cbv zeta in H.
  destruct HP as [HN HR]. pose proof (some_field g t HT) as HSF. split.
  - intros E. rewrite E in H. intros n r Hr. apply verdict_good; eauto.
  - intros HG. set (F := format_class g t) in *.
    assert (HV : forall n r, In (n, r) rs -> verdict F r (Ok tt)).
    { intros n r Hr. apply verdict_good; eauto. }
    assert (HX : forall n r e, In (n, r) rs -> verdict F r (Raise e) -> False).
    { intros n r e Hr He. pose proof (verdict_unique F r _ _ HSF (HV _ _ Hr) He) as HU. cbn in HU. discriminate. }
    destruct (check_site_records F rs) as [[]|e]; auto. exfalso.
    assert (HY : forall e, (exists pre n r post, rs = pre ++ (n, r) :: post /\ verdict F r (Raise e) /\
              forall n' r', In (n', r') pre ->
                ~ verdict F r' (Raise BorealisStructureError) /\ ~ verdict F r' (Raise AttributeError)) -> False).
    { intros e' (pre & n & r & post & E & H1 & _). apply (HX n r e'); auto. rewrite E. apply in_app_iff. right. now left. }
    destruct e; try (exact (HY _ (proj2 H))).
    destruct H as (HE & [Hm _] & [Hx _] & [Hi _] & _).
    destruct HE as [HE|[HE|HE]].
    + destruct missing as [|[n l] m]; [congruence|]. destruct (proj1 (Hm n) (or_introl eq_refl)) as (r & l' & H1 & H2); eauto.
    + destruct extra as [|[n l] m]; [congruence|]. destruct (proj1 (Hx n) (or_introl eq_refl)) as (r & l' & H1 & H2); eauto.
    + destruct incorrect as [|[n l] m]; [congruence|]. destruct (proj1 (Hi n) (or_introl eq_refl)) as (r & l' & H1 & H2); eauto.
Qed.

(** ** Array dictionaries *)
Lemma array_flags_cases (l : list pystr) (r : brecord) : NoDup (keys r) -> (forall k, In k l -> In k (keys r)) ->
  exists fl, array_flags l r = Ok fl /\
    (existsb (fun b => b) fl = true <-> exists k v, In k l /\ In (k, v) r /\ is_ndarray v = true) /\
    (forallb (fun b => b) fl = false <-> exists k v, In k l /\ In (k, v) r /\ is_ndarray v = false).
Proof.
  intros HR. induction l as [|p l IH]; intros HK; cbn [array_flags].
  - exists []. splits; auto; cbn; split; try discriminate; intros (k & v & [] & _).
  - destruct (dict_item_in r p) as (v & HI & HP); [apply HK; now left|]. rewrite HI. cbn [rbind].
    assert (Hu : forall v', In (p, v') r -> v' = v).
    { intros v' H'. apply (dict_in_get _ _ _ HR) in H', HP. congruence. }
    destruct IH as (fl & -> & H1 & H2); [intros k Hk; apply HK; now right|]. cbn [rbind].
    exists (is_ndarray v :: fl). split; auto. cbn [existsb forallb]. split.
    + rewrite orb_true_iff, H1. split.
      * intros [H|(k & v' & ? & ? & ?)]; [exists p, v|exists k, v']; intuition.
      * intros (k & v' & [<-|H] & Hv & Hn); [left; now rewrite <- (Hu v' Hv)|right; eauto].
    + rewrite andb_false_iff, H2. split.
      * intros [H|(k & v' & ? & ? & ?)]; [exists p, v|exists k, v']; intuition.
      * intros (k & v' & [<-|H] & Hv & Hn); [left; now rewrite <- (Hu v' Hv)|right; eauto].
Qed.

Lemma is_ndarray_iff v : is_ndarray v = true <-> exists t s l, v = BArr t s l.
Proof. split; [destruct v; try discriminate; eauto|intros (t & s & l & ->); reflexivity]. Qed.
Lemma not_ndarray_iff v : is_ndarray v = false <-> forall t s l, v <> BArr t s l.
Proof.
  split; [intros H t s l ->; discriminate|]. intros H. destruct (is_ndarray v) eqn:E; auto.
  apply is_ndarray_iff in E as (t & s & l & ->). now destruct (H t s l).
Qed.

(** The shapes of array fields. *)
Lemma shapes_of_cases (l : list pystr) (r : brecord) : NoDup (keys r) ->
  (forall k, In k l -> exists t s d, In (k, BArr t s d) r) ->
  exists ss, shapes_of l r = Ok (map Some ss) /\
    (forall s, In s ss <-> exists k t d, In k l /\ In (k, BArr t s d) r) /\ length ss = length l.
Proof.
  intros HR. induction l as [|p l IH]; intros HK; cbn [shapes_of].
  - exists []. split; auto. split; auto. intros s. split; [intros []|intros (k & t & d & [] & _)].
  - destruct (HK p) as (t & s & d & Hp); [now left|]. unfold dict_item.
    pose proof Hp as Hp'. apply (dict_in_get _ _ _ HR) in Hp'. rewrite Hp'. cbn [rbind bshape].
    destruct IH as (ss & -> & H1 & H2); [intros k Hk; apply HK; now right|]. cbn [rbind].
    exists (s :: ss). split; auto. split; [|cbn [length]; lia]. intros s'. cbn [In]. rewrite H1. split.
    + intros [<-|(k & t' & d' & ? & ?)]; [exists p, t, d|exists k, t', d']; intuition.
    + intros (k & t' & d' & [<-|H] & Hv); [left|right; eauto]. apply (dict_in_get _ _ _ HR) in Hv. congruence.
Qed.

(** With a first shape of [n] entries, all shapes have [n] entries, or one has another
    number of them, or one is that of a single value. *)
Lemma all_first_dims_cases n ds0 ss :
  (all_first_dims (map Some ss) (Some (n :: ds0)) = Ok true /\ forall s, In s ss -> exists ds, s = n :: ds) \/
  ((all_first_dims (map Some ss) (Some (n :: ds0)) = Ok false \/
    all_first_dims (map Some ss) (Some (n :: ds0)) = Raise IndexError) /\
   exists s, In s ss /\ forall ds, s <> n :: ds).
Proof.
  induction ss as [|s ss IH]; cbn [all_first_dims map]; [left; split; auto; intros s []|].
  destruct s as [|d ds]; cbn [first_dim rbind].
  - right. split; auto. exists []. split; [now left|discriminate].
  - destruct IH as [[-> IH]|[[->| ->] (s & I & IH)]]; cbn [rbind].
    + destruct (Nat.eqb_spec d n) as [->|N]; cbn [andb].
      * left. split; auto. intros s [<-|I]; eauto.
      * right. split; auto. exists (d :: ds). split; [now left|]. congruence.
    + right. rewrite andb_false_r. split; auto. exists s. split; [now right|auto].
    + right. split; auto. exists s. split; [now right|auto].
Qed.

Lemma num_records_cases l r : NoDup (keys r) -> l <> [] ->
  (forall k, In k l -> exists t s d, In (k, BArr t s d) r) ->
  (array_num_records_check l r = Ok tt /\
   exists n, forall k v, In k l -> In (k, v) r -> exists t ds d, v = BArr t (n :: ds) d) \/
  (array_num_records_check l r = Raise BorealisNumberOfRecordsError /\
   ~ exists n, forall k v, In k l -> In (k, v) r -> exists t ds d, v = BArr t (n :: ds) d).
Proof.
  intros HR HN HK. unfold array_num_records_check.
  destruct (shapes_of_cases l r HR HK) as (ss & -> & HS & HL). cbn [rbind].
  assert (HX : forall n, (forall s, In s ss -> exists ds, s = n :: ds) <->
               (forall k v, In k l -> In (k, v) r -> exists t ds d, v = BArr t (n :: ds) d)).
  { intros n. split.
    - intros H k v Hk Hv. destruct (HK k Hk) as (t & s & d & Hd).
      assert (v = BArr t s d) as -> by (apply (dict_in_get _ _ _ HR) in Hv, Hd; congruence).
      destruct (H s) as (ds & ->); [apply HS; eauto|eauto].
    - intros H s Hs. apply HS in Hs as (k & t & d & Hk & Hv). destruct (H k _ Hk Hv) as (? & ds & ? & [= -> -> ->]). eauto. }
  destruct ss as [|[|n ds] ss].
  - destruct l; [congruence|discriminate].
  - right. split; auto. intros (n & Hn). apply (proj2 (HX n)) with (s := []) in Hn as (ds & [=]). now left.
  - change (map Some ((n :: ds) :: ss)) with (Some (n :: ds) :: map Some ss).
    cbv beta iota zeta. change (Some (n :: ds) :: map Some ss) with (map Some ((n :: ds) :: ss)).
    destruct (all_first_dims_cases n ds ((n :: ds) :: ss)) as [[-> H]|[HA (s & I & H)]].
    + left. split; auto. exists n. now apply HX.
    + right. split; [destruct HA as [-> | ->]; reflexivity|]. intros (n' & Hn). pose proof (proj2 (HX n') Hn) as H'.
      destruct (H' (n :: ds)) as (ds' & [= <- <-]); [now left|]. destruct (H' s I) as (ds' & ->). now apply (H ds').
Qed.

Lemma ppo_tolerated_iff r : NoDup (keys r) ->
  (ppo_tolerated r = true <-> exists l, In (s_ppo, BArr BI64 [2%nat] l) r).
Proof.
  intros HR. unfold ppo_tolerated. split.
  - destruct (dict_get r s_ppo) as [v|] eqn:E; [|discriminate].
    destruct v as [| |t [|[|[|[]]] []] l| |]; try discriminate; destruct t; try discriminate.
    intros _. exists l. now apply dict_get_In.
  - intros (l & H). apply (dict_in_get _ _ _ HR) in H. now rewrite H.
Qed.

Lemma array_check_verdict g t a : has_structures t -> NoDup (keys a) ->
  array_verdict (format_class g t) a (check_array_dict (format_class g t) a).
Proof.
  intros HT HR. destruct (array_tables g t HT) as (sa & sd & u & E1 & E2 & E3 & Na & Nd & Dj & HA & HD & HU & HUS & HUN).
  set (F := format_class g t) in *. unfold check_array_dict. rewrite E1, E2, E3. cbn [rbind].
  assert (HF : forall k, field sa sd k <-> array_field F k).
  { intros k. unfold field, array_field. rewrite !keys_in. split.
    - intros [[ty H]|[ty H]]; exists ty; [left; now apply HA|right; now apply HD].
    - intros (ty & [H|H]); [left|right]; exists ty; [now apply HA|now apply HD]. }
  unfold check_arrays. fold (keys a). rewrite missing_check_cases.
  destruct (_ =? _) eqn:EM; cbn [rbind].
  { pose proof (proj1 (missing_all sa sd Dj _) EM) as EM'. apply av_no_field. intros k Hk. apply EM'. now apply HF. }
  assert (HS : exists k, array_field F k /\ In k (keys a)).
  { destruct (existsb (fun k => str_mem k (keys a)) (keys sa ++ keys sd)) eqn:EX.
    - apply existsb_exists in EX as (k & H1 & H2). exists k. split; [apply HF; unfold field; now apply in_app_iff|].
      now apply str_mem_In.
    - exfalso. apply Bool.not_true_iff_false in EM. apply EM. apply (missing_all sa sd Dj).
      intros k Hk HC. assert (existsb (fun k => str_mem k (keys a)) (keys sa ++ keys sd) = true); [|congruence].
      apply existsb_exists. exists k. split; [now apply in_app_iff|now apply str_mem_In]. }
  assert (HL : lists (missing_of sa sd (keys a)) (array_lacks F a)).
  { intros k. rewrite in_missing_of. unfold array_lacks. now rewrite HF. }
  destruct (missing_of sa sd (keys a)) as [|m ms] eqn:EMO; cbn [rbind].
  2:{ apply av_missing; auto. discriminate. }
  assert (HNL : forall k, ~ array_lacks F a k) by (intros k Hk; apply (HL k) in Hk; destruct Hk).
  rewrite extra_check_cases.
  assert (HE : lists (extra_of sa sd (keys a)) (array_surplus F a)).
  { intros k. rewrite in_extra_of. unfold array_surplus. now rewrite HF. }
  destruct (extra_of sa sd (keys a)) as [|x xs] eqn:EXO; cbn [rbind].
  2:{ apply av_extra; auto. discriminate. }
  assert (HNX : forall k, ~ array_surplus F a k) by (intros k Hk; apply (HE k) in Hk; destruct Hk).
  assert (HK : forall k, field sa sd k -> In k (keys a)).
  { intros k Hk. destruct (in_dec (list_eq_dec Z.eq_dec) k (keys a)); auto. exfalso. apply (HNL k). split; auto. now apply HF. }
  assert (HEX : exact_fields F a).
  { intros k. split; intros Hk; [|now apply HK, HF].
    destruct (in_dec (list_eq_dec Z.eq_dec) k (keys sa ++ keys sd)) as [Hi|Hi].
    - apply HF. unfold field. now apply in_app_iff.
    - exfalso. apply (HNX k). split; auto. intros HC. apply HF in HC. apply Hi. now apply in_app_iff. }
  unfold array_incorrect_types_check.
  destruct (array_flags_cases (map fst sa) a HR (fun k Hk => HK k (or_introl Hk))) as (fl & -> & Hfl & _). cbn [rbind].
  destruct (existsb (fun b => b) fl) eqn:EF.
  { apply av_attr_array; auto. apply proj1 in Hfl. destruct (Hfl eq_refl) as (k & v & H1 & H2 & H3).
    fold (keys sa) in H1. apply keys_in in H1 as (ty & H1). exists k, v, ty. splits; auto; [now apply HA|now apply is_ndarray_iff]. }
  assert (HNA : ~ attr_array F a).
  { intros (k & v & ty & H1 & H2 & H3). assert (false = true); [|discriminate]. apply Hfl. exists k, v. splits; auto.
    - fold (keys sa). apply keys_in. exists ty. now apply HA.
    - now apply is_ndarray_iff. }
  pose proof (wrong_attributes_cases sa a HR (fun k Hk => HK k (or_introl Hk))) as HW.
  destruct (wrong_attributes sa a) as [w1|e]; cbn [rbind].
  2:{ destruct HW as [-> (k & v & ty & H1 & H2 & H3)]. apply av_unjudged; auto. exists k, v, ty. splits; auto. now apply HA. }
  destruct HW as [HW HWf].
  assert (HNJ : ~ attr_unjudged F a).
  { intros (k & v & ty & H1 & H2 & H3). apply (HWf k v ty); auto. now apply HA. }
  destruct (array_flags_cases (map fst sd) a HR (fun k Hk => HK k (or_intror Hk))) as (fl2 & -> & _ & Hfl2). cbn [rbind].
  destruct (forallb (fun b => b) fl2) eqn:EF2; cbn [negb].
  2:{ apply av_no_array; auto. apply proj1 in Hfl2. destruct (Hfl2 eq_refl) as (k & v & H1 & H2 & H3).
    fold (keys sd) in H1. apply keys_in in H1 as (ty & H1). exists k, v, ty. splits; auto; [now apply HD|now apply not_ndarray_iff]. }
  assert (HND : ~ dset_no_array F a).
  { intros (k & v & ty & H1 & H2 & H3). assert (true = false); [|discriminate]. apply Hfl2. exists k, v. splits; auto.
    - fold (keys sd). apply keys_in. exists ty. now apply HD.
    - now apply not_ndarray_iff. }
  pose proof (wrong_datasets_cases true sd a HR (fun k Hk => HK k (or_intror Hk))) as HW2.
  destruct (wrong_datasets true sd a) as [w2|e]; cbn [rbind].
  2:{ exfalso. destruct HW2 as [-> (k & v & ty & H1 & H2 & H3)]. apply HND. exists k, v, ty. splits; auto; [now apply HD|].
      intros t' s l ->. apply (H3 t'). constructor. }
  destruct HW2 as [HW2 _].
  assert (HArr : forall k v ty, In (k, v) a -> array_dset F k ty -> exists t' s l, v = BArr t' s l).
  { intros k v ty H1 H2. apply is_ndarray_iff. destruct (is_ndarray v) eqn:E; auto. exfalso. apply HND.
    exists k, v, ty. splits; auto. now apply not_ndarray_iff. }
  assert (Hdj : forall k t1 t2, array_attr F k t1 -> array_dset F k t2 -> False).
  { intros k t1 t2 H1 H2. apply (Dj k); apply keys_in; [exists t1; now apply HA|exists t2; now apply HD]. }
  assert (HWR : lists (if str_mem s_ppo (set_union w1 w2) && ppo_tolerated a
               then filter (fun k => negb (str_eqb k s_ppo)) (set_union w1 w2) else set_union w1 w2) (array_wrong F a)).
  { assert (HB : forall k, In k (set_union w1 w2) <-> exists v t, In (k, v) a /\
         ((array_attr F k t /\ ~ attr_ok t v) \/ (array_dset F k t /\ ~ (np_type v t \/ np_type v BNpStr)))).
    { intros k. rewrite in_set_union, HW, HW2. split.
      - intros [(v & ty & H1 & H2 & H3)|(v & ty & H1 & H2 & H3)]; exists v, ty; split; auto.
        + left. split; auto. now apply HA.
        + right. split; [now apply HD|]. intros [H|H]; apply H3; auto.
      - intros (v & ty & H1 & [[H2 H3]|[H2 H3]]); [left|right]; exists v, ty.
        + splits; auto. now apply HA.
        + splits; auto; [now apply HD|]. intros [H|[_ H]]; apply H3; auto. }
    assert (HC : forall k v ty, In (k, v) a -> array_dset F k ty -> k <> s_ppo \/ ppo_tolerated a = false ->
              (dset_array_ok k ty v <-> (np_type v ty \/ np_type v BNpStr))).
    { intros k v ty H1 H2 H3. split.
      - intros H. inversion H; subst; [left; constructor|right; constructor|]. exfalso. destruct H3 as [H3|H3]; [now apply H3|].
        assert (ppo_tolerated a = true); [|congruence]. apply ppo_tolerated_iff; auto. eexists. exact H1.
      - destruct (HArr k v ty H1 H2) as (t' & s & l & ->). intros [H|H]; inversion H; subst; constructor. }
    assert (HG : forall k, k <> s_ppo \/ ppo_tolerated a = false -> (In k (set_union w1 w2) <-> array_wrong F a k)).
    { intros k Hk. rewrite HB. unfold array_wrong. split; intros (v & ty & H1 & [H2|[H2 H3]]); exists v, ty; split; auto; right; split; auto.
      - intros H. apply H3. now apply (HC k v ty).
      - intros H. apply H3. now apply (HC k v ty). }
    assert (HP : ppo_tolerated a = true -> ~ array_wrong F a s_ppo).
    { intros HPT (v & ty & H1 & H2). apply ppo_tolerated_iff in HPT as (l & HI); auto.
      assert (v = BArr BI64 [2%nat] l) as -> by (apply (dict_in_get _ _ _ HR) in H1, HI; congruence).
      destruct H2 as [[H2 H3]|[H2 H3]].
      - apply HNA. exists s_ppo, (BArr BI64 [2%nat] l), ty. splits; eauto.
      - apply H3. now constructor. }
    intros k. destruct (ppo_tolerated a) eqn:EP.
    - rewrite andb_true_r. destruct (str_mem s_ppo (set_union w1 w2)) eqn:ES.
      + rewrite filter_In. destruct (str_eqb k s_ppo) eqn:EK; cbn [negb].
        * apply str_eqb_eq in EK as ->. split; [intros [_ H]; discriminate|intros H; exfalso; now apply HP].
        * rewrite HG; [tauto|]. left. intros ->. rewrite str_eqb_refl in EK. discriminate.
      + destruct (str_eqb k s_ppo) eqn:EK.
        * apply str_eqb_eq in EK as ->. split; [intros H; apply str_mem_In in H; congruence|intros H; exfalso; now apply HP].
        * rewrite HG; [tauto|]. left. intros ->. rewrite str_eqb_refl in EK. discriminate.
    - rewrite andb_false_r. apply HG. now right. }
  rewrite zlen_pos.
  destruct (if str_mem s_ppo (set_union w1 w2) && ppo_tolerated a then _ else _) as [|w ws]; cbn [rbind].
  2:{ apply av_wrong; auto. discriminate. }
  assert (HNW : forall k, ~ array_wrong F a k) by (intros k Hk; apply (HWR k) in Hk; destruct Hk).
  assert (HPR : forall k, In k u -> exists t' s d, In (k, BArr t' s d) a).
  { intros k Hk. apply HUS in Hk. apply keys_in in Hk as (ty & Hk).
    assert (In k (keys a)) as HI by (apply HK; right; apply keys_in; eauto).
    apply keys_in in HI as (v & Hv). destruct (HArr k v ty Hv) as (t' & s & l & ->); [now apply HD|]. eauto. }
  destruct (num_records_cases u a HR HUN HPR) as [[-> (n & Hn)]|[-> Hn]].
  - apply av_good. split; [exact HEX|]. split; [|split].
    + intros k v ty H1 H2. destruct v; [| | |constructor|].
      1: destruct (btype_eqb t0 ty) eqn:E; [apply btype_eqb_eq in E; subst; constructor|].
      2: destruct (btype_eqb ty BStr) eqn:E; [apply btype_eqb_eq in E; subst; now constructor|].
      all: exfalso; apply (HNW k); eexists _, _; split; [exact H1|left; split; [exact H2|]]; intros HC; inversion HC; subst;
        apply btype_eqb_neq in E; congruence.
    + intros k v ty H1 H2. destruct (HArr k v ty H1 H2) as (t' & s & l & ->).
      destruct (btype_eqb t' ty) eqn:E; [apply btype_eqb_eq in E; subst; constructor|].
      destruct (btype_eqb t' BNpStr) eqn:E'; [apply btype_eqb_eq in E'; subst; constructor|].
      destruct (str_eqb k s_ppo && btype_eqb t' BI64 && (if list_eq_dec Nat.eq_dec s [2%nat] then true else false)) eqn:E''.
      * rewrite !andb_true_iff in E''. destruct E'' as [[H3 H4] H5]. apply str_eqb_eq in H3 as ->. apply btype_eqb_eq in H4 as ->.
        destruct (list_eq_dec Nat.eq_dec s [2%nat]) as [->|]; [|discriminate]. now constructor.
      * exfalso. apply (HNW k). exists (BArr t' s l), ty. split; auto. right. split; auto. intros HC. inversion HC; subst.
        -- apply btype_eqb_neq in E. congruence.
        -- discriminate.
        -- vm_compute in E''. discriminate.
    + exists n. intros k v H1 H2. apply (Hn k v); auto. now apply HU.
  - apply av_counts; auto. intros (n & H). apply Hn. exists n. intros k v H1 H2. apply (H k v); auto. now apply HU.
Qed.

Lemma array_verdict_ok F a : array_verdict F a (Ok tt) -> arrays_ok F a.
Proof. intros H. now inversion H. Qed.

Lemma arrays_ok_check g t a : has_structures t -> NoDup (keys a) ->
  check_array_dict (format_class g t) a = Ok tt <-> arrays_ok (format_class g t) a.
Proof.
  intros HT HR. pose proof (array_check_verdict g t a HT HR) as HV. split.
  - intros E. rewrite E in HV. now apply array_verdict_ok.
  - destruct (array_tables g t HT) as (sa & sd & u & _ & _ & _ & _ & _ & Dj & HA & HD & HU & HUS & HUN).
    set (F := format_class g t) in *. intros (H1 & H2 & H3 & H4).
    assert (Hw : forall k, ~ array_wrong F a k).
    { intros k (v & ty & Hv & [[Ha Hb]|[Ha Hb]]); apply Hb; eauto. }
    assert (Hne : exists k, array_field F k /\ In k (keys a)).
    { destruct u as [|k u]; [congruence|]. exists k.
      assert (array_field F k).
      { specialize (HUS k (or_introl eq_refl)). apply keys_in in HUS as (ty & Hk). exists ty. right. now apply HD. }
      split; auto. now apply H1. }
    inversion HV as [N E|l L N X E|l N L X E|X1 (k & v & ty & Ha & Hb & Hc) E|X1 X2 (k & v & ty & Ha & Hb & Hc) E
                    |X1 X2 X3 (k & v & ty & Ha & Hb & Hc) E|l X1 X2 X3 X4 L N E|X1 X2 X3 E|X E]; auto; exfalso.
    + destruct Hne as (k & Ha & Hb). now apply (N k).
    + destruct (nonempty_ex l N) as [k Hk]. apply L in Hk as [Ha Hb]. apply Hb. now apply H1.
    + destruct (nonempty_ex l X) as [k Hk]. apply L in Hk as [Ha Hb]. apply Hb. now apply H1.
    + destruct Hc as (t' & s & l & ->). specialize (H2 _ _ _ Ha Hb). inversion H2.
    + specialize (H2 _ _ _ Ha Hb). inversion Hc; subst; inversion H2; congruence.
    + specialize (H3 _ _ _ Ha Hb). inversion H3; subst; eapply Hc; reflexivity.
    + destruct (nonempty_ex l N) as [k Hk]. apply L in Hk. now apply Hw in Hk.
    + now apply X3.
Qed.
