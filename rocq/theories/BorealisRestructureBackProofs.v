(** Proofs about array files restructured to site files and back. *)
From Coq Require Import String ZArith List Bool Lia Permutation Sorted.
From Verif Require Import Base Utf8 BytesProofs DmapFileProofs DmapWriteProofs DmapWriteFacts SDarnChecks SDarnFormats BorealisTypes BorealisFormats BorealisChecks
  BorealisArrays BorealisTime BorealisFile BorealisRestructure BorealisSpec BorealisCatalogue BorealisShapes BorealisFileSpec BorealisRestructureSpec
  BorealisRestructureFileSpec BorealisRestructureBackSpec BorealisCheckProofs BorealisCatalogueProofs BorealisNumpyProofs BorealisFillProofs BorealisRestructFacts BorealisToArrayProofs BorealisRestructProofs BorealisFileProofs
  BorealisRestructureProofs BorealisRestructureFileProofs BorealisRestructureToSiteProofs BorealisRestructureArrayFileProofs BorealisRestructureRoundProofs.
Import ListNotations.
Open Scope list_scope.
Open Scope nat_scope.

(** ** The arrays of records are determined *)

Lemma offset_onto : forall ds j, j < size ds -> exists idx, Forall2 lt idx ds /\ offset ds idx = j.
Proof.
  induction ds as [|d ds IH]; intros j H.
  - exists []. cbn in *. split; [constructor|lia].
  - cbn [size fold_right] in H. fold (size ds) in H. assert (S : size ds <> 0) by nia.
    destruct (IH (j mod size ds)) as (idx & I1 & I2); [now apply Nat.mod_upper_bound|].
    exists (j / size ds :: idx). split.
    + constructor; [|exact I1]. apply Nat.div_lt_upper_bound; [exact S|]. lia.
    + cbn [offset]. rewrite I2. rewrite (Nat.mul_comm (j / size ds)). symmetry. now apply Nat.div_mod.
Qed.

Lemma lt_dec2 : forall idx ss, {Forall2 lt idx ss} + {~ Forall2 lt idx ss}.
Proof.
  induction idx as [|i idx IH]; intros [|s ss].
  - left. constructor.
  - right. intros C. inversion C.
  - right. intros C. inversion C.
  - destruct (lt_dec i s) as [H|H]; [|right; intros C; inversion C; contradiction].
    destruct (IH ss) as [H'|H']; [left; now constructor|right; intros C; inversion C; contradiction].
Qed.

Lemma rows_unique ty n ms d d' : length d = n * size ms -> length d' = n * size ms ->
  (forall i, i < n -> exists ss b, row_holds ty n ms d i ss b /\ row_holds ty n ms d' i ss b) -> d = d'.
Proof.
  intros L L' H. apply nth_ext with (d := CZ 0) (d' := CZ 0); [lia|]. intros j Hj. rewrite L in Hj.
  assert (S : size ms <> 0) by nia.
  assert (Hi : j / size ms < n) by (apply Nat.div_lt_upper_bound; [exact S|lia]).
  destruct (offset_onto ms (j mod size ms)) as (idx & I1 & I2); [now apply Nat.mod_upper_bound|].
  destruct (H _ Hi) as (ss & b & R1 & R2). specialize (R1 idx I1). specialize (R2 idx I1).
  assert (EJ : offset (n :: ms) (j / size ms :: idx) = j).
  { cbn [offset]. rewrite I2. rewrite (Nat.mul_comm (j / size ms)). symmetry. now apply Nat.div_mod. }
  rewrite EJ in R1, R2. assert (E : nth_error d j = nth_error d' j).
  { destruct (lt_dec2 idx ss) as [D|D]; [now rewrite (proj1 R1 D), (proj1 R2 D)|now rewrite (proj2 R1 D), (proj2 R2 D)]. }
  assert (X : nth_error d j = Some (nth j d (CZ 0))) by (apply nth_error_nth'; lia).
  assert (X' : nth_error d' j = Some (nth j d' (CZ 0))) by (apply nth_error_nth'; lia).
  congruence.
Qed.

Lemma plain_value_inj ty c c' : plain_value ty c = plain_value ty c' -> c = c'.
Proof. destruct ty, c, c'; cbn; congruence. Qed.

Lemma ones_unique nf ty k (rs ys : brecords) : Forall2 (same_key (fun r y => forall k, k <> nf -> dict_get y k = dict_get r k)) rs ys -> k <> nf ->
  forall d d', Forall2 (fun c p => dict_get (snd p) k = Some (plain_value ty c)) d rs ->
    Forall2 (fun c p => dict_get (snd p) k = Some (plain_value ty c)) d' ys -> d' = d.
Proof.
  intros HS NK. induction HS as [|[n r] [m y] l l' [X1 X2] HS IH]; intros d d' A B.
  - inversion A; inversion B; subst; reflexivity.
  - inversion A as [|c ? d0 ? A1 A2]; inversion B as [|c' ? d1 ? B1 B2]; subst. cbn [fst snd] in *. rewrite X2 in B1 by exact NK.
    f_equal; [|auto]. apply (plain_value_inj ty). congruence.
Qed.

Section Unique.
Variables (g : generation) (t : filetype) (z : sizes) (cs : list counts) (rs ys : brecords) (a b : brecord).
Hypothesis HT : has_structures t.
Hypothesis HC : consistent g t z cs rs.
Hypothesis HS : Forall2 (same_key (fun r y => forall k, k <> names_field g t -> dict_get y k = dict_get r k)) rs ys.
Hypothesis HA : arrays_of g t z cs rs a.
Hypothesis HB : arrays_of g t z cs ys b.

Lemma same_nth i n r : nth_error rs i = Some (n, r) -> exists y, nth_error ys i = Some (n, y) /\ forall k, k <> names_field g t -> dict_get y k = dict_get r k.
Proof. intros H. destruct (forall2_nth _ _ _ _ _ HS H) as ([m y] & X1 & X2 & X3). cbn [fst snd] in *. subst m. eauto. Qed.

Theorem arrays_unique k : dict_get b k = dict_get a k.
Proof.
  assert (LS : length rs = length ys) by exact (forall2_length _ _ _ HS). assert (LC : length cs = length rs) by exact (forall2_length _ _ _ (co_records _ _ _ _ _ HC)).
  destruct (str_mem k (keys a)) eqn:EK.
  2:{ assert (NA : ~ In k (keys a)) by (intros C; apply str_mem_In in C; congruence).
      assert (NB : ~ In k (keys b)) by (intros C; apply NA; apply (ao_fields _ _ _ _ _ _ HA); now apply (ao_fields _ _ _ _ _ _ HB)).
      rewrite (proj2 (dict_get_none a k) NA). now apply dict_get_none. }
  apply str_mem_In in EK. apply (ao_fields _ _ _ _ _ _ HA) in EK as (ro & (kd & ty & L) & NM).
  pose proof (made_cases g t k kd ty ro HT L) as MC. destruct ro.
  - (* Common *) destruct (nth_error rs 0) as [[n r]|] eqn:E0.
    2:{ apply nth_error_None in E0. pose proof (co_some _ _ _ _ _ HC). destruct rs; [congruence|cbn in E0; lia]. }
    destruct (same_nth 0 n r E0) as (y & Y1 & Y2). apply nth_error_In in Y1, E0.
    rewrite (ao_common _ _ _ _ _ _ HA k n r), (ao_common _ _ _ _ _ _ HB k n y); [apply Y2, MC|now exists kd, ty|exact Y1|now exists kd, ty|exact E0].
  - destruct kd.
    + destruct (ao_one _ _ _ _ _ _ HA k ty L) as (d & A1 & A2). destruct (ao_one _ _ _ _ _ _ HB k ty L) as (d' & B1 & B2).
      rewrite A1, B1, LS. enough (E : d' = d) by now rewrite E. exact (ones_unique _ ty k rs ys HS (proj1 MC) d d' A2 B2).
    + destruct (str_eqb k (str "pulse_phase_offset")) eqn:EP.
      * apply str_eqb_eq in EP. subst k. assert (R : role_of g t (str "pulse_phase_offset") Varying) by now exists Many, ty.
        destruct (ao_ppo _ _ _ _ _ _ HA R) as (ms & d & A1 & A2 & A3). destruct (ao_ppo _ _ _ _ _ _ HB R) as (ms' & d' & B1 & B2 & B3).
        rewrite <- LS in B1, B2, B3.
        assert (GX : forall i, i < length rs -> ms' = ms /\ exists ss b0, row_holds BF32 (length rs) ms d i ss b0 /\ row_holds BF32 (length rs) ms' d' i ss b0).
        { intros i Hi. destruct (nth_error rs i) as [[n r]|] eqn:EI; [|apply nth_error_None in EI; lia].
          destruct (same_nth i n r EI) as (y & Y1 & Y2). destruct (A3 i n r EI) as (s & b0 & X1 & X2 & X3). destruct (B3 i n y Y1) as (s' & b1 & Z1 & Z2 & Z3).
          rewrite Y2 in Z1 by apply MC. assert (E : BArr BF32 s' b1 = BArr BF32 s b0) by congruence. injection E as -> ->. split; [congruence|].
          exists s, b0. split; assumption. }
        assert (LP : 0 < length rs) by (pose proof (co_some _ _ _ _ _ HC); destruct rs; [congruence|cbn; lia]).
        destruct (GX 0 LP) as [-> _]. rewrite A1, B1. enough (E : d = d') by now rewrite E.
        apply (rows_unique BF32 (length rs) ms); auto. intros i Hi. apply (GX i Hi).
      * apply str_eqb_neq in EP. destruct (ao_many _ _ _ _ _ _ HA k ty L EP) as (d & A1 & A2 & A3). destruct (ao_many _ _ _ _ _ _ HB k ty L EP) as (d' & B1 & B2 & B3).
        rewrite <- LS in B1, B2, B3. rewrite A1, B1. enough (E : d = d') by now rewrite E.
        apply (rows_unique ty (length rs) _ _ _ A2 B2). intros i Hi.
        destruct (nth_error rs i) as [[n r]|] eqn:EI; [|apply nth_error_None in EI; lia].
        destruct (nth_error cs i) as [c|] eqn:EC; [|apply nth_error_None in EC; lia].
        destruct (same_nth i n r EI) as (y & Y1 & Y2). destruct (A3 i c n r EC EI) as (b0 & X1 & X3). destruct (B3 i c n y EC Y1) as (b1 & Z1 & Z3).
        rewrite Y2 in Z1 by apply MC. assert (E : b1 = b0) by congruence. subst b1. eauto.
  - destruct MC as (-> & _). destruct (ao_names _ _ _ _ _ _ HA) as (ta & A1 & ->). destruct (ao_names _ _ _ _ _ _ HB) as (tb & B1 & ->). congruence.
  - destruct MC as (_ & _ & [-> |[-> NG]]).
    + now rewrite (ao_beams _ _ _ _ _ _ HA), (ao_beams _ _ _ _ _ _ HB), LS.
    + now rewrite (ao_blanked _ _ _ _ _ _ HA NG), (ao_blanked _ _ _ _ _ _ HB NG), LS.
  - congruence.
Qed.
End Unique.

(** ** The site file *)

Definition textb (F : format) (k : pystr) : bool :=
  existsb (fun q => str_eqb (fst q) k && match snd q with BStr | BNpStr => true | _ => false end) (fm_array F ++ fm_single F).
Lemma textb_ok F k : textb F k = true <-> text_name F k.
Proof.
  unfold textb, text_name. rewrite existsb_exists. split.
  - intros ([k' t'] & HI & H). cbn [fst snd] in H. apply andb_true_iff in H as [H1 H2]. apply str_eqb_eq in H1. subst k'.
    exists t'. split; [now apply in_app_or|]. destruct t'; try discriminate; auto.
  - intros (t' & HI & H). exists (k, t'). split; [now apply in_or_app|]. cbn [fst snd]. rewrite str_eqb_refl. destruct H as [-> | ->]; reflexivity.
Qed.
Definition site_texts_fact (F : format) : bool :=
  forallb (fun p => Bool.eqb (btype_eqb (snd p) BStr) (textb F (fst p))) (fm_single F) &&
  forallb (fun p => Bool.eqb (btype_eqb (snd p) BNpStr) (textb F (fst p))) (fm_array F).
Lemma all_site_texts g t : has_structures t -> site_texts_fact (format_class g t) = true.
Proof. unfold has_structures. destruct t; [| | |congruence]; intros _; destruct g; vm_compute; reflexivity. Qed.
Lemma site_text_attr g t k ty : has_structures t -> site_attr (format_class g t) k ty -> text_name (format_class g t) k <-> ty = BStr.
Proof.
  intros HT [HA _]. pose proof (all_site_texts g t HT) as H. apply andb_true_iff in H as [H _]. rewrite forallb_forall in H. apply H in HA.
  cbn [fst snd] in HA. apply eqb_prop in HA. now rewrite <- textb_ok, <- btype_eqb_eq, HA.
Qed.
Lemma site_text_dset g t k ty : has_structures t -> site_dset (format_class g t) k ty -> text_name (format_class g t) k <-> ty = BNpStr.
Proof.
  intros HT HA. pose proof (all_site_texts g t HT) as H. apply andb_true_iff in H as [_ H]. rewrite forallb_forall in H. apply H in HA.
  cbn [fst snd] in HA. apply eqb_prop in HA. now rewrite <- textb_ok, <- btype_eqb_eq, HA.
Qed.

Lemma like_in al als r k v : Forall2 (like_rel al) als r -> In (k, v) r -> exists x, In (k, x) als /\ like_rel al (k, x) (k, v).
Proof.
  intros H HI. destruct (forall2_in_r _ _ _ _ H HI) as ([k' x] & X1 & X2). pose proof X2 as [E _]. cbn [fst] in E. subst k'. eauto.
Qed.

Lemma group_laid g t sa f i x : has_structures t -> site_single_element_types (format_class g t) = Ok sa ->
  no_empty_numbers (format_class g t) f -> group_like sa (may_be_empty (format_class g t) sa f) i x -> NoDup (keys x) ->
  BorealisSpec.site_record_ok (format_class g t) x -> storable (format_class g t) x -> group_layout (format_class g t) i.
Proof.
  intros HT E1 HE (ds & als & -> & G1 & G2) ND (O1 & O2 & O3) [S1 S2].
  destruct (site_tables g t HT) as (sa' & sd & E1' & E2 & Na & Nd & Dj & HA & HD & _). assert (sa' = sa) by congruence. subst sa'.
  pose proof (rel_keys _ _ _ G1) as K1. pose proof (like_keys _ _ _ G2) as K2.
  exists ds, als. split; [reflexivity|]. split; [rewrite K1; now apply filter_keys_nodup|]. split; [rewrite K2; now apply filter_keys_nodup|]. split; [|split].
  - intros k. rewrite K1, K2. intros C1 C2. apply keys_in in C1 as (v1 & C1), C2 as (v2 & C2). apply filter_In in C1 as [_ C1], C2 as [_ C2].
    cbn [fst] in C1, C2. rewrite C2 in C1. discriminate.
  - intros k ty Hk. assert (K : In k (keys x)) by (apply O1; exists ty; now left). apply keys_in in K as (v & K).
    assert (M : str_mem k (keys sa) = true) by (apply str_mem_In, keys_in; exists ty; now apply HA).
    destruct (like_in _ _ _ k v G2) as (y & Y1 & _ & Y2 & Y3); [apply filter_In; now split|]. cbn [fst snd] in *.
    exists y. split; [exact Y1|]. pose proof (site_text_attr g t k ty HT Hk) as TX.
    pose proof (O2 k v ty K Hk) as AO. pose proof (S1 k v ty K Hk) as AK.
    split.
    + intros T. destruct Y3 as [Y3|(M2 & ty' & ->)].
      * apply TX in T. subst ty. inversion AK; subst.
        -- cbn [write_attr] in Y3. destruct (forallb _ s); [|discriminate]. apply ok_inj in Y3 as <-. left. eauto.
        -- inversion AO; subst. contradiction.
      * right. apply may_in in M2 as (_ & _ & M2 & _). split; [|exact M2]. apply TX in T. subst ty. inversion AK; subst; [|inversion AO; subst; contradiction].
        cbn [read_attr] in Y2. destruct ty'; cbn [empty_value] in Y2; try discriminate. reflexivity.
    + intros T. destruct Y3 as [Y3|(M2 & ty' & ->)].
      * inversion AK as [s PS|ty0 c0 NT]; subst; [inversion AO; subst; exfalso; apply T, TX; reflexivity|].
        exists (BScalar ty0 c0). destruct ty0; try contradiction; cbn [write_attr] in Y3; now apply ok_inj in Y3.
      * exfalso. apply T. apply may_in in M2 as (_ & _ & _ & ty0 & M2). apply (HE k ty0). now apply dict_get_In.
  - intros k ty Hk. assert (K : In k (keys x)) by (apply O1; exists ty; now right). apply keys_in in K as (v & K).
    assert (M : str_mem k (keys sa) = false).
    { destruct (str_mem k (keys sa)) eqn:E; [|reflexivity]. apply str_mem_In in E. exfalso. apply (Dj k E). apply keys_in. exists ty. now apply HD. }
    assert (KF : In (k, v) (filter (fun p => negb (str_mem (fst p) (keys sa))) x)) by (apply filter_In; split; [exact K|cbn [fst]; now rewrite M]).
    destruct (forall2_in_r _ _ _ _ G1 KF) as ([k' d] & D1 & D2 & D3 & av & c & D4). cbn [fst snd] in *. subst k'.
    exists d. split; [exact D1|]. rewrite (stored_item av c v d D4 (S2 k v ty K Hk)), (site_text_dset g t k ty HT Hk).
    pose proof (O3 k v ty K Hk) as NP. split.
    + intros (s & l & ->). inversion NP. reflexivity.
    + intros ->. destruct (S2 k v BNpStr K Hk) as [ty s l _ [NT|NT]|s l _ _ _]; [|inversion NP; subst; discriminate|eauto].
      inversion NP; subst. contradiction.
Qed.

Lemma record_name_plain b n : record_name b = Ok n -> n <> str "borealis_git_hash".
Proof.
  unfold record_name. intros H. apply rbind_ok in H as (m & _ & H). apply ok_inj in H as <-. destruct (dec_chars (millis m)) as [H1 _].
  rewrite Forall_forall in H1. intros C. rewrite C in H1. specialize (H1 98%Z (or_introl eq_refl)). unfold name_char in H1. lia.
Qed.

Lemma file_laid g t sa f its xs : has_structures t -> site_single_element_types (format_class g t) = Ok sa ->
  no_empty_numbers (format_class g t) f -> Forall2 (same_key (group_like sa (may_be_empty (format_class g t) sa f))) its xs -> proper xs ->
  (forall n r, In (n, r) xs -> BorealisSpec.site_record_ok (format_class g t) r /\ storable (format_class g t) r) ->
  ~ In (str "borealis_git_hash") (keys xs) -> site_layout (format_class g t) (mk_hfile its []).
Proof.
  intros HT E1 HE HI [P1 P2] HO HN. pose proof (rel_keys _ _ _ HI) as KE. split; [cbn [h_items]; now rewrite KE|]. split; [cbn [h_items]; now rewrite KE|]. split; [intros k []|].
  intros n i Hi. cbn [h_items] in Hi. destruct (forall2_in _ _ _ _ HI Hi) as ([m x] & X1 & X2 & X3). cbn [fst snd] in *. subst m.
  destruct (HO n x X1) as [X4 X5]. exact (group_laid g t sa f i x HT E1 HE X3 (P2 n x X1) X4 X5).
Qed.

Lemma file_records g t sa al its (xs : brecords) : has_structures t -> site_single_element_types (format_class g t) = Ok sa ->
  Forall2 (same_key (group_like sa al)) its xs -> proper xs ->
  (forall n r, In (n, r) xs -> BorealisSpec.site_record_ok (format_class g t) r) -> StronglySorted str_lt (keys xs) ->
  exists ys, read_records (mk_hfile its []) = Ok ys /\ Forall2 (same_key (fun y x => Permutation y x)) ys xs.
Proof.
  intros HT E1 HI HP HO HS. pose proof (format_facts g t HT) as HF. unfold read_records. cbn [h_items].
  pose proof (rel_keys _ _ _ HI) as KE. rewrite sort_id by (rewrite KE; exact HS).
  apply (rel_step read_record (group_like sa al)); [exact HI|].
  intros m q i Hq HG. apply (group_like_read sa al); auto.
  - now apply (proj2 HP m).
  - intros k Hk. apply (f_site_hidden _ HF). destruct (HO m q Hq) as (O1 & _). now apply O1.
Qed.

(** A record that went through the arrays and the site file. *)
Definition went_through (g : generation) (t : filetype) (r y : brecord) : Prop :=
  exists r' x, came_back g t r r' /\ record_back r' x /\ Permutation y x /\ NoDup (keys x).

Lemma ok_perm F (x y : brecord) : Permutation y x -> BorealisSpec.site_record_ok F x -> BorealisSpec.site_record_ok F y.
Proof.
  intros P (O1 & O2 & O3). split; [|split].
  - intros k. rewrite <- O1. split; apply Permutation_in; [|symmetry]; now apply keys_perm.
  - intros k v ty H. apply O2. eapply Permutation_in; [exact P|exact H].
  - intros k v ty H. apply O3. eapply Permutation_in; [exact P|exact H].
Qed.
Lemma storable_perm F (x y : brecord) : Permutation y x -> storable F x -> storable F y.
Proof. intros P (O1 & O2). split; intros k v ty H; [apply O1|apply O2]; eapply Permutation_in; try exact P; exact H. Qed.

Lemma unfixed_shape a0 a v : ppo_array_fix a0 = Ok a -> dict_get a s_ppo = Some v -> ~ has_shape v [2].
Proof.
  intros H G. unfold ppo_array_fix in H. destruct (dict_get a0 s_ppo) as [w|] eqn:E; [|apply ok_inj in H as <-; congruence].
  destruct (bshape w) as [[l|]|] eqn:EB; [|apply ok_inj in H as <-|discriminate].
  2:{ assert (v = w) by congruence. subst w. intros C. destruct v; cbn in *; congruence. }
  assert (D : l = [2] \/ l <> [2] /\ a = a0).
  { destruct l as [|[|[|[|?]]] [|? ?]]; try (right; split; [discriminate|now apply ok_inj in H]). now left. }
  destruct D as [-> |[D ->]].
  - apply rbind_ok in H as (nv & _ & H). destruct (bshape nv) as [[[|d ds]|]|]; try discriminate. apply ok_inj in H as <-.
    rewrite dict_get_set, str_eqb_refl in G. injection G as <-. cbn. discriminate.
  - assert (v = w) by congruence. subst w. intros C. apply D. destruct v; cbn in *; congruence.
Qed.

(** What the array reader tells about a file. *)
Lemma array_read_facts fs i f t ar : has_structures t -> holds fs i f -> array_layout (format_class (ar_gen ar) t) f -> phases_whole f ->
  array_read fs i (type_name t) = Ok ar ->
  exists h, array_hash f = Ok h /\ ar_version ar = version_of h /\ ar_type ar = t /\ generation_of (version_of h) = Ok (ar_gen ar) /\ read_arrays f = Ok (ar_arrays ar) /\
    arrays_ok (format_class (ar_gen ar) t) (ar_arrays ar) /\
    forall v, dict_get (ar_arrays ar) s_ppo = Some v -> ~ has_shape v [2].
Proof.
  intros HT HI HL HPW HR.
  unfold array_read in HR. rewrite type_name_of in HR. unfold h5_open in HR. unfold holds in HI. rewrite HI in HR. cbn [rbind] in HR.
  apply rbind_ok in HR as (h & HH & HR). apply rbind_ok in HR as (g & HG & HR). apply rbind_ok in HR as (a & HA & HR).
  apply ok_inj in HR as <-. cbn [ar_gen ar_arrays ar_version] in *.
  destruct (site_tables g t HT) as (sa & sd & E1 & _).
  destruct (array_tables g t HT) as (aa & ad & u & E3 & E4 & E5 & _).
  pose proof (site_facts_ok g t sa u HT E1 E5) as HSF.
  unfold array_read_file in HA. rewrite E3, E4, E5 in HA. cbn [rbind] in HA. apply rbind_ok in HA as (a0 & A0 & HA). apply rbind_ok in HA as (a1 & A1 & HA).
  apply rbind_ok in HA as ([] & CK & HA). apply ok_inj in HA. subst a1.
  pose proof HL as (N1 & N2 & N3 & _). destruct (arrays_read f a0 A0 N1 N2 N3) as (ND0 & _).
  assert (ND : NoDup (keys a)).
  { unfold ppo_array_fix in A1. destruct (dict_get a0 s_ppo); [|apply ok_inj in A1; now subst]. destruct (bshape b) as [[l|]|]; [|apply ok_inj in A1; now subst|discriminate].
    destruct l as [|[|[|[|?]]] [|? ?]]; try (apply ok_inj in A1; now subst). apply rbind_ok in A1 as (nv & _ & A1).
    destruct (bshape nv) as [[[|d l]|]|]; try discriminate. apply ok_inj in A1 as <-. now apply dict_set_nodup. }
  apply (arrays_ok_check g t a HT ND) in CK. pose proof (fun v => unfixed_shape a0 a v A1) as US.
  assert (a = a0) by (now apply (arrays_unfixed g t sa u f a0 a)). subst a0.
  exists h. splits; auto.
Qed.

Theorem to_site_file av fs i o f t g z cs rs c ar :
  has_structures t -> i <> o -> holds fs i f -> array_layout (format_class g t) f -> phases_whole f -> no_empty_numbers (format_class g t) f ->
  array_read fs i (type_name t) = Ok ar -> ar_gen ar = g -> proper rs ->
  (forall n r, In (n, r) rs -> BorealisSpec.site_record_ok (format_class g t) r /\ storable (format_class g t) r) ->
  consistent g t z cs rs -> common_arrays g t rs -> arrays_of g t z cs rs (ar_arrays ar) ->
  named_by record_name rs -> StronglySorted str_lt (keys rs) -> ~ (g = G7 /\ t = Bfiq) ->
  can_compress av c -> fs o = None ->
  exists fs1 its ys h, restructure av fs i o (type_name t) (str "site") c = (fs1, Ok tt) /\ only_file o fs fs1 /\
    holds fs1 o (mk_hfile its []) /\ site_layout (format_class g t) (mk_hfile its []) /\ read_records (mk_hfile its []) = Ok ys /\
    Forall2 (same_key (went_through g t)) rs ys /\ keys ys = keys rs /\
    (forall n r, In (n, r) ys -> BorealisSpec.site_record_ok (format_class g t) r /\ storable (format_class g t) r /\
       dict_get r s_hash = Some (BText h)) /\ hash_version h (ar_version ar) /\ supported (ar_version ar) g.
Proof.
  intros HT HIO HI HL HPW HE HR HG PR HOK HC HCA HA HNm HSo HNB HCc HO. subst g. set (g := ar_gen ar) in *.
  destruct (array_read_facts fs i f t ar HT HI HL HPW HR) as (h & AH & V & _ & GV & RA & AO & _). fold g in GV, AO.
  destruct (restructure_named g t z cs rs HT HC) as (a1 & S1 & A1 & A3). destruct (A3 record_name HNm) as (rs' & R1 & R2 & R3).
  assert (NE : rs <> []) by apply (co_some _ _ _ _ _ HC).
  assert (CK : check_site_records (format_class g t) rs' = Ok tt).
  { apply (sites_pass g t rs rs' HT PR); auto. apply (site_check_iff g t rs HT PR). intros n r Hr. exact (proj1 (HOK n r Hr)). }
  destruct (tables g t HT) as (dims & TF).
  assert (AR : array_records g t a1 = Ok rs').
  { unfold array_records. cbv zeta. rewrite (tf_restr _ _ _ TF), R1. cbn [rbind]. rewrite CK. reflexivity. }
  assert (GE : forall k, dict_get (ar_arrays ar) k = dict_get a1 k).
  { intros k. apply (arrays_unique g t z cs rs rs a1 (ar_arrays ar) HT HC); auto.
    apply forall2_from_nth; [reflexivity|]. intros j p Hj. exists p. split; [exact Hj|]. split; [reflexivity|]. reflexivity. }
  assert (LL : length rs = length rs') by exact (forall2_length _ _ _ R3).
  destruct (raw_file_groups av fs i o f t g c (ar_arrays ar) h rs') as (sa & fs1 & its & xs & E1 & Y1 & Y2 & Y3 & Y4 & Y5 & Y6 & Y7 & Y8 & Y9); auto.
  - exact (counts_positive g t z cs rs _ HT HC HCA HA).
  - exact (phases_of g t z cs rs _ HT HC HCA HA).
  - now rewrite (records_ext g t a1 (ar_arrays ar) GE).
  - intros ->. destruct rs; [now apply NE|discriminate].
  - exact (times_of g t z cs rs _ HT HC HCA HA (length rs') LL).
  - intros n r' Hr. destruct (forall2_in_r _ _ _ _ R3 Hr) as ([m r] & Hm & CB). cbn [snd] in CB.
    apply (came_storable g t r r' HT CB). exact (proj2 (HOK m r Hm)).
  - pose proof (rel_keys _ _ _ Y5) as KX.
    assert (SX : StronglySorted str_lt (keys xs)) by (rewrite <- KX, R2; exact HSo).
    destruct (file_records g t sa _ its xs HT E1 Y4 Y6 (fun n r H => proj1 (Y8 n r H)) SX) as (ys & Z1 & Z2).
    pose proof (rel_keys _ _ _ Z2) as KY.
    exists fs1, its, ys, h. splits; auto.
    + apply (file_laid g t sa f its xs HT E1 HE Y4 Y6).
      * intros n r H. destruct (Y8 n r H) as (X1 & X2 & _). now split.
      * intros C. rewrite <- KX, R2 in C. apply keys_in in C as (r & C). destruct HNm as [_ HNm]. destruct (HNm _ _ C) as (b & _ & B).
        exact (record_name_plain b _ B eq_refl).
    + assert (LX : length xs = length ys) by (symmetry; exact (forall2_length _ _ _ Z2)).
      assert (LR : length rs' = length xs) by exact (forall2_length _ _ _ Y5).
      apply forall2_from_nth; [congruence|]. intros j [n r] Hj.
      destruct (forall2_nth _ _ _ _ _ R3 Hj) as ([n' r'] & B1 & B2). destruct (forall2_nth _ _ _ _ _ Y5 B1) as ([n2 x] & C1 & C2 & C3).
      destruct (nth_error ys j) as [[n3 y]|] eqn:D1.
      2:{ exfalso. apply nth_error_None in D1. assert (X : j < length xs) by (apply nth_error_Some; congruence). lia. }
      destruct (forall2_nth _ _ _ _ _ Z2 D1) as ([n4 x'] & D2 & D3 & D4). cbn [fst snd] in *.
      assert (X : Some (n2, x) = Some (n4, x')) by exact (eq_trans (eq_sym C1) D2). injection X as <- <-. subst n2 n3.
      assert (n' = n).
      { assert (X : nth_error (keys rs') j = Some n') by (unfold keys; now rewrite nth_error_map, B1).
        rewrite R2 in X. unfold keys in X. rewrite nth_error_map, Hj in X. cbn in X. congruence. }
      subst n'. exists (n, y). split; [reflexivity|]. split; [reflexivity|]. cbn [snd]. exists r', x. splits; auto.
      apply (proj2 Y6 n). now apply nth_error_In in C1.
    + exact (eq_trans KY (eq_trans (eq_sym KX) R2)).
    + intros n y Hy. destruct (forall2_in _ _ _ _ Z2 Hy) as ([m x] & X1 & X2 & X3). cbn [fst snd] in *. subst m.
      destruct (Y8 n x X1) as (W1 & W2 & W3). split; [now apply (ok_perm _ x)|]. split; [now apply (storable_perm _ x)|].
      rewrite (perm_get x y); [exact W3|exact (proj2 Y6 n x X1)|exact X3].
    + apply version_iff. now symmetry.
    + rewrite V. unfold generation_of in GV. destruct (version_generation (version_of h)) as [g'|] eqn:EG; [|discriminate]. apply ok_inj in GV. subst g'.
      now apply supported_gen.
Qed.

(** ** Back to arrays *)

Lemma through_same g t r y : has_structures t -> phases_shaped r -> went_through g t r y ->
  (forall k, k <> names_field g t -> dict_get y k = dict_get r k) /\ forall k, In k (keys y) <-> exists ro, role_of g t k ro /\ ro <> MadeArray.
Proof.
  intros HT HP (r' & x & ((S1 & S2) & ND & KR) & [B1 B2] & PE & NX).
  assert (NP : names_field g t <> str "pulse_phase_offset") by (intros C; destruct t, g; vm_compute in C; discriminate C).
  assert (NU : str "pulses" <> names_field g t) by (intros C; destruct t, g; vm_compute in C; discriminate C).
  assert (BE : forall k, dict_get x k = dict_get r' k).
  { intros k. destruct (str_eqb k (str "pulse_phase_offset")) eqn:EK.
    - apply str_eqb_eq in EK. subst k. destruct (dict_get r' (str "pulse_phase_offset")) as [v|] eqn:EV; [|exact B2].
      destruct B2 as (p & s & sp & P1 & P2 & P3 & P4 & _). apply P4. rewrite S1 in EV by (now apply not_eq_sym). rewrite S1 in P1 by exact NU.
      exact (HP v p s sp EV P1 P2 P3).
    - apply str_eqb_neq in EK. now apply B1. }
  split.
  - intros k Hk. rewrite (perm_get x y) by assumption. rewrite BE. now apply S1.
  - intros k. rewrite <- KR. assert (E : dict_get y k = dict_get r' k) by (rewrite (perm_get x y) by assumption; apply BE).
    split; intros H; apply keys_in in H as (v & H).
    + apply keys_in. destruct (dict_get r' k) as [w|] eqn:EW; [exists w; now apply dict_get_In|]. exfalso.
      apply dict_get_none in E. apply E, keys_in. eauto.
    + apply keys_in. destruct (dict_get y k) as [w|] eqn:EW; [exists w; now apply dict_get_In|]. exfalso.
      symmetry in E. apply dict_get_none in E. apply E, keys_in. eauto.
Qed.

Lemma fits_same g t z c r y : has_structures t -> (forall k, k <> names_field g t -> dict_get y k = dict_get r k) ->
  (forall k, In k (keys y) <-> exists ro, role_of g t k ro /\ ro <> MadeArray) -> record_fits g t z c r -> record_fits g t z c y.
Proof.
  intros HT HE HK H. constructor.
  - exact HK.
  - intros k ty L. rewrite HE by apply (made_cases g t _ _ _ _ HT L). exact (rf_one _ _ _ _ _ H k ty L).
  - rewrite HE; [exact (rf_seq _ _ _ _ _ H)|]. intros C; destruct t, g; vm_compute in C; discriminate C.
  - intros k ty L NP. rewrite HE by apply (made_cases g t _ _ _ _ HT L). exact (rf_many _ _ _ _ _ H k ty L NP).
  - rewrite HE; [exact (rf_dims _ _ _ _ _ H)|]. intros C; destruct t, g; vm_compute in C; discriminate C.
  - exact (rf_small _ _ _ _ _ H).
  - exact (rf_pos _ _ _ _ _ H).
Qed.

Lemma through_records g t rs ys : has_structures t -> (forall n r, In (n, r) rs -> phases_shaped r) -> Forall2 (same_key (went_through g t)) rs ys ->
  Forall2 (same_key (fun r y => forall k, k <> names_field g t -> dict_get y k = dict_get r k)) rs ys /\
  forall n y, In (n, y) ys -> exists r, In (n, r) rs /\ (forall k, k <> names_field g t -> dict_get y k = dict_get r k) /\
    forall k, In k (keys y) <-> exists ro, role_of g t k ro /\ ro <> MadeArray.
Proof.
  intros HT HP H. split.
  - apply forall2_from_nth; [exact (forall2_length _ _ _ H)|]. intros j [n r] Hj. destruct (forall2_nth _ _ _ _ _ H Hj) as ([m y] & X1 & X2 & X3).
    exists (m, y). split; [exact X1|]. split; [exact X2|]. cbn [snd] in *. apply (through_same g t r y HT); [|exact X3]. apply (HP n). now apply nth_error_In in Hj.
  - intros n y Hy. destruct (forall2_in_r _ _ _ _ H Hy) as ([m r] & X1 & X2 & X3). cbn [fst snd] in *. subst m.
    exists r. split; [exact X1|]. exact (through_same g t r y HT (HP n r X1) X3).
Qed.

Lemma consistent_through g t z cs rs ys : has_structures t -> (forall n r, In (n, r) rs -> phases_shaped r) -> Forall2 (same_key (went_through g t)) rs ys ->
  consistent g t z cs rs -> consistent g t z cs ys.
Proof.
  intros HT HP H HC. destruct (through_records g t rs ys HT HP H) as [T1 T2].
  assert (LS : length rs = length ys) by exact (forall2_length _ _ _ H).
  assert (NM : forall k ro, role_of g t k ro -> ro = Common \/ ro = Varying -> k <> names_field g t).
  { intros k ro (kd & ty & L) [-> | ->]; apply (made_cases g t _ _ _ _ HT L). }
  constructor.
  - pose proof (co_records _ _ _ _ _ HC) as HR. apply forall2_from_nth; [rewrite (forall2_length _ _ _ HR); exact LS|]. intros j c Hj.
    destruct (forall2_nth _ _ _ _ _ HR Hj) as ([n r] & X1 & X2). destruct (forall2_nth _ _ _ _ _ H X1) as ([m y] & Y1 & Y2 & Y3).
    exists (m, y). split; [exact Y1|]. cbn [fst snd] in *. apply nth_error_In in X1. destruct (through_same g t r y HT (HP n r X1) Y3) as [Z1 Z2].
    exact (fits_same g t z c r y HT Z1 Z2 X2).
  - intros ->. apply (co_some _ _ _ _ _ HC). destruct rs; [reflexivity|discriminate].
  - intros k n y n' y' HR Hy Hy'. destruct (T2 n y Hy) as (r & R1 & R2 & _). destruct (T2 n' y' Hy') as (r' & R1' & R2' & _).
    assert (NK : k <> names_field g t) by (apply (NM k Common); auto).
    rewrite (R2 k NK), (R2' k NK). exact (co_common _ _ _ _ _ HC k n r n' r' HR R1 R1').
  - exact (co_blank _ _ _ _ _ HC).
  - intros HR. destruct (co_ppo _ _ _ _ _ HC HR) as (f & F1 & F2). exists f. split; [exact F1|].
    apply forall2_from_nth; [rewrite (forall2_length _ _ _ F2); exact LS|]. intros j c Hj.
    destruct (forall2_nth _ _ _ _ _ F2 Hj) as ([n r] & X1 & d & D1 & D2). destruct (forall2_nth _ _ _ _ _ T1 X1) as ([m y] & Y1 & Y2 & Y3).
    exists (m, y). split; [exact Y1|]. cbn [fst snd] in *. exists d. split; [|exact D2]. rewrite Y3; [exact D1|]. apply (NM _ Varying); auto.
Qed.

Theorem array_file_round av fs i o p f t g z cs rs c c' ar :
  has_structures t -> i <> o -> o <> p -> holds fs i f -> array_layout (format_class g t) f -> phases_whole f -> no_empty_numbers (format_class g t) f ->
  array_read fs i (type_name t) = Ok ar -> ar_gen ar = g -> proper rs ->
  (forall n r, In (n, r) rs -> BorealisSpec.site_record_ok (format_class g t) r /\ storable (format_class g t) r) ->
  consistent g t z cs rs -> common_arrays g t rs -> arrays_of g t z cs rs (ar_arrays ar) ->
  named_by record_name rs -> StronglySorted str_lt (keys rs) -> (t <> AntennasIq -> widest_first cs) ->
  (forall n r, In (n, r) rs -> phases_shaped r) ->
  (role_of g t (str "pulse_phase_offset") Varying -> forall n r, In (n, r) rs -> phases_of_pulses r) -> ~ (g = G7 /\ t = Bfiq) ->
  can_compress av c -> can_compress av c' -> fs o = None -> fs p = None ->
  exists fs1 fs2 ar', restructure av fs i o (type_name t) (str "site") c = (fs1, Ok tt) /\
    restructure av fs1 o p (type_name t) (str "array") c' = (fs2, Ok tt) /\
    only_file o fs fs1 /\ only_file p fs1 fs2 /\ array_read fs2 p (type_name t) = Ok ar' /\
    ar_version ar' = ar_version ar /\ ar_gen ar' = ar_gen ar /\ ar_type ar' = ar_type ar /\
    forall k, dict_get (ar_arrays ar') k = dict_get (ar_arrays ar) k.
Proof.
  intros HT HIO HOP HI HL HPW HE HR HG PR HOK HC HCA HA HNm HSo HW HPS HPh HNB HCc HCc' HO HPn.
  destruct (to_site_file av fs i o f t g z cs rs c ar) as (fs1 & its & ys & h & Y1 & Y2 & Y3 & Y4 & Y5 & Y6 & Y7 & Y8 & Y9 & Y10); auto.
  pose proof (consistent_through g t z cs rs ys HT HPS Y6 HC) as HC'. destruct (through_records g t rs ys HT HPS Y6) as [T1 T2].
  destruct (site_file_to_array av fs1 o p (mk_hfile its []) t g z cs ys c' (ar_version ar)) as (fs2 & a2 & ar' & Z1 & Z2 & Z3 & Z4 & Z5 & Z6 & Z7 & Z8 & Z9 & Z10); auto.
  - intros n r Hr. destruct (Y8 n r Hr) as (X1 & X2 & _). now split.
  - intros k ty n y L Hy. destruct (T2 n y Hy) as (r & R1 & R2 & _). rewrite R2 by apply (made_cases g t _ _ _ _ HT L). exact (HCA k ty n r L R1).
  - destruct ys as [|[n y] ys0] eqn:EY; [exfalso; now apply (co_some _ _ _ _ _ HC')|]. exists n, y, h. split; [now left|]. split; [|split; [apply (Y8 n y); now left|exact Y9]].
    rewrite <- Y7 in HSo. inversion HSo as [|? ? H1 H2]; subst. rewrite Forall_forall in H2. intros n' [<-|Hn]; [now left|right; now apply H2].
  - intros HV n y Hy. destruct (T2 n y Hy) as (r & R1 & R2 & _). pose proof (HPh HV n r R1) as PP. unfold phases_of_pulses in *.
    rewrite !R2; [exact PP|..]; intros C; destruct t, g; vm_compute in C; discriminate C.
  - rewrite (Y2 p (not_eq_sym HOP)). exact HPn.
  - exists fs1, fs2, ar'. splits; auto; try congruence.
    + subst g. destruct (array_read_facts fs i f t ar) as (h' & _ & _ & TY & _); auto; congruence.
    + assert (AE : forall k, dict_get a2 k = dict_get (ar_arrays ar) k) by exact (arrays_unique g t z cs rs ys _ a2 HT HC T1 HA Z4).
      subst g. destruct (array_read_facts fs i f t ar) as (h' & _ & _ & _ & _ & _ & _ & US); auto.
      destruct Z10 as [B1 B2]. intros k. destruct (str_eqb k (str "pulse_phase_offset")) eqn:EK.
      * apply str_eqb_eq in EK. subst k. rewrite AE in B2. destruct (dict_get (ar_arrays ar) (str "pulse_phase_offset")) as [v|] eqn:EV; [|exact B2].
        destruct B2 as (s & W1 & W2 & _). apply W2. intros ->. exact (US v EV W1).
      * apply str_eqb_neq in EK. rewrite B1 by exact EK. apply AE.
Qed.
