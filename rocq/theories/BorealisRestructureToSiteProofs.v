(** Restructuring an array file into a site file. *)
From Coq Require Import String ZArith List Bool Lia Permutation Sorted DecimalString.
From Verif Require Import BorealisCatalogue BorealisCatalogueProofs Base Utf8 BytesProofs DmapFileProofs DmapWriteProofs DmapWriteFacts SDarnChecks SDarnFormats BorealisTypes BorealisFormats BorealisChecks
  BorealisArrays BorealisTime BorealisFile BorealisRestructure BorealisSpec BorealisFileSpec BorealisRestructureSpec
  BorealisRestructureFileSpec BorealisCheckProofs BorealisNumpyProofs BorealisFillProofs BorealisToArrayProofs BorealisRestructProofs BorealisFileProofs
  BorealisRestructureProofs BorealisRestructureFileProofs.
Import ListNotations.
Open Scope list_scope.
Open Scope Z_scope.

(** ** One record *)

Lemma flatten_alike al fs : (forall k, In k fs -> str_mem k al = false) -> forall r1 r r', Forall2 (alike al) r1 r ->
  flatten_record fs r = Ok r' -> exists r1', flatten_record fs r1 = Ok r1' /\ Forall2 (alike al) r1' r'.
Proof.
  induction fs as [|k fs IH]; intros HF r1 r r' HA H; cbn [flatten_record] in *.
  - apply ok_inj in H as <-. eauto.
  - apply rbind_ok in H as (v & V & H). apply rbind_ok in H as (v' & V' & H). unfold dict_item in *.
    destruct (dict_get r k) eqn:EG; [|discriminate]. apply ok_inj in V. subst b.
    rewrite (alike_get al _ _ k v HA (HF k (or_introl eq_refl)) EG). cbn [rbind]. rewrite V'. cbn [rbind].
    apply (IH (fun x Hx => HF x (or_intror Hx)) _ (dict_set r k v')); [|exact H]. apply alike_set; [exact HA|apply alike_refl].
Qed.

Lemma ppo_alike al r1 r r' : str_mem s_ppo al = false -> str_mem (str "pulses") al = false -> Forall2 (alike al) r1 r ->
  ppo_site_fix_record r = Ok r' -> exists r1', ppo_site_fix_record r1 = Ok r1' /\ Forall2 (alike al) r1' r'.
Proof.
  intros H1 H2 HA H. unfold ppo_site_fix_record in *. destruct (dict_get r s_ppo) as [v|] eqn:EP.
  - rewrite (alike_get al _ _ _ v HA H1 EP). destruct (bshape v) as [sv|]; [|discriminate]. apply rbind_ok in H as (p & P & H).
    unfold dict_item in *. destruct (dict_get r (str "pulses")) eqn:EU; [|discriminate]. apply ok_inj in P. subst b.
    rewrite (alike_get al _ _ _ p HA H2 EU). cbn [rbind]. destruct (bshape p) as [sp|]; [|discriminate].
    destruct (shape_eqb sv sp); [apply ok_inj in H as <-; eauto|]. destruct sp as [s|]; [|discriminate]. apply ok_inj in H as <-.
    eexists. split; [reflexivity|]. apply alike_set; [exact HA|apply alike_refl].
  - rewrite (alike_none al _ _ _ HA EP). apply ok_inj in H as <-. eauto.
Qed.

Lemma alike_in al r1 r k v1 : Forall2 (alike al) r1 r -> In (k, v1) r1 -> exists v, In (k, v) r /\ alike al (k, v1) (k, v).
Proof.
  induction 1 as [|[k1 w1] [k2 w2] r1 r E H IH]; [intros []|]. intros [HE|HI].
  - injection HE as -> ->. pose proof E as [E1 _]. cbn [fst] in E1. subst k2. exists w2. split; [now left|exact E].
  - destruct (IH HI) as (v & V1 & V2). exists v. split; [now right|exact V2].
Qed.

Lemma may_in F sa f k : str_mem k (may_be_empty F sa f) = true ->
  In k (keys sa) /\ k <> s_hash /\ In k (fm_shared F) /\ exists ty, dict_get (h_attrs f) k = Some (HEmpty ty).
Proof.
  intros H. apply str_mem_In in H. apply filter_In in H as [H1 H2]. rewrite !andb_true_iff in H2. destruct H2 as (H2 & H3 & H4).
  split; [exact H1|]. split; [intros ->; now rewrite str_eqb_refl in H2|]. split; [now apply str_mem_In|].
  destruct (dict_get (h_attrs f) k) as [[]|]; try discriminate. eauto.
Qed.

Lemma alike_ok g t sa f r1 r : has_structures t -> site_single_element_types (format_class g t) = Ok sa ->
  Forall2 (alike (may_be_empty (format_class g t) sa f)) r1 r -> BorealisSpec.site_record_ok (format_class g t) r -> BorealisSpec.site_record_ok (format_class g t) r1.
Proof.
  intros HT E1 HA (O1 & O2 & O3). destruct (site_tables g t HT) as (sa' & sd & E1' & E2 & Na & Nd & Dj & HA' & HD & HNE).
  assert (sa' = sa) by congruence. subst sa'. split; [|split].
  - intros k. rewrite (alike_keys _ _ _ HA). apply O1.
  - intros k v ty H HS. destruct (alike_in _ _ _ _ _ HA H) as (w & W1 & _ & W2). cbn [fst snd] in W2.
    destruct W2 as [-> |(_ & t0 & -> & _)]; [now apply (O2 k)|constructor].
  - intros k v ty H HS. destruct (alike_in _ _ _ _ _ HA H) as (w & W1 & _ & W2). cbn [fst snd] in W2.
    destruct W2 as [-> |(C & _)]; [now apply (O3 k)|]. exfalso. apply may_in in C as [C _]. apply (Dj k C). apply keys_in. exists ty. now apply HD.
Qed.

(** ** Writing it *)

Definition like_rel (al : list pystr) (p : pystr * hattr) (q : pystr * bval) : Prop :=
  fst p = fst q /\ read_attr (snd p) = Ok (snd q) /\
  (write_attr (snd q) = Ok (snd p) \/ (str_mem (fst p) al = true /\ exists ty, snd p = HEmpty ty)).

Definition d_like (d : hdset) (v : bval) : Prop := read_dset d = Ok v /\ exists av c, write_dset av c v = Ok d.

Lemma empty_written ty v : empty_value ty = Ok v -> write_attr (BEmpty ty) = Ok (HEmpty ty).
Proof. destruct ty; cbn; congruence. Qed.

Lemma write_like av (sa : dict btype) al c r1 r gd ga : can_compress av c -> (forall k, str_mem k al = true -> In k (keys sa)) -> Forall2 (alike al) r1 r ->
  (forall p, In p r -> value_kept (keys sa) p) -> NoDup (keys r) ->
  (forall k, In k (keys r) -> ~ In k (keys gd) /\ ~ In k (keys ga)) ->
  exists ds als, write_fields av (keys sa) c r1 gd ga = ((gd ++ ds, ga ++ als), Ok tt) /\
    Forall2 (same_key d_like) ds (filter (fun p => negb (str_mem (fst p) (keys sa))) r) /\
    Forall2 (like_rel al) als (filter (fun p => str_mem (fst p) (keys sa)) r).
Proof.
  intros HC HAl HA. revert gd ga. induction HA as [|[k v1] [k2 v] r1 r HE HA IH]; intros gd ga HK HN HF.
  - exists [], []. cbn. rewrite !app_nil_r. repeat split; constructor.
  - pose proof HE as [E1 E2]. cbn [fst snd] in E1, E2. subst k2.
    inversion HN as [|? ? N1 N2]; subst. pose proof (HK (k, v) (or_introl eq_refl)) as KV. unfold value_kept in KV. cbn [fst snd] in KV.
    destruct (HF k (or_introl eq_refl)) as [F1 F2]. cbn [write_fields filter fst].
    destruct (str_mem k (keys sa)) eqn:E; cbn [negb].
    + assert (exists a, write_attr v1 = Ok a /\ like_rel al (k, a) (k, v)) as (a & W & R).
      { destruct (attr_through v KV) as (a & W & R). destruct E2 as [-> |(MB & ty & -> & EV)].
        - exists a. split; [exact W|]. split; [reflexivity|]. split; [exact R|now left].
        - exists (HEmpty ty). split; [now apply (empty_written ty v)|]. split; [reflexivity|]. split; [exact EV|].
          right. cbn [fst snd]. split; [exact MB|eauto]. }
      rewrite W. rewrite dict_set_fresh by exact F2.
      destruct (IH gd (ga ++ [(k, a)])) as (ds & als & I1 & I2 & I3).
      * intros p Hp. apply HK. now right.
      * exact N2.
      * intros k' Hk'. destruct (HF k' (or_intror Hk')) as [G1 G2]. split; [exact G1|]. unfold keys. rewrite map_app. intros C.
        apply in_app_or in C as [C|[C|[]]]; [auto|]. cbn in C. subst. contradiction.
      * exists ds, ((k, a) :: als). rewrite I1, <- app_assoc. cbn [app]. repeat split; auto.
    + assert (v1 = v) as -> by (destruct E2 as [E2|[C _]]; [exact E2|]; cbn [fst] in C; apply HAl in C; apply str_mem_In in C; congruence).
      destruct (dset_through av c v HC KV) as (d & W & R). rewrite W. rewrite dict_set_fresh by exact F1.
      destruct (IH (gd ++ [(k, d)]) ga) as (ds & als & I1 & I2 & I3).
      * intros p Hp. apply HK. now right.
      * exact N2.
      * intros k' Hk'. destruct (HF k' (or_intror Hk')) as [G1 G2]. split; [|exact G2]. unfold keys. rewrite map_app. intros C.
        apply in_app_or in C as [C|[C|[]]]; [auto|]. cbn in C. subst. contradiction.
      * exists ((k, d) :: ds), als. rewrite I1, <- app_assoc. cbn [app]. repeat split; auto. constructor; [|exact I2]. split; [reflexivity|]. split; [exact R|now exists av, c].
Qed.

(** A group that is read as the record [r]. *)
Definition group_like (sa : dict btype) (al : list pystr) (i : hitem) (r : brecord) : Prop :=
  exists ds als, i = HGroup ds als /\
    Forall2 (same_key d_like) ds (filter (fun p => negb (str_mem (fst p) (keys sa))) r) /\
    Forall2 (like_rel al) als (filter (fun p => str_mem (fst p) (keys sa)) r).

Lemma like_keys al als r : Forall2 (like_rel al) als r -> keys als = keys r.
Proof. induction 1 as [|p q d e [E _] H IH]; [reflexivity|]. change (fst p :: keys d = fst q :: keys e). congruence. Qed.

Lemma group_like_read sa al i r : group_like sa al i r -> NoDup (keys r) -> (forall k, In k (keys r) -> str_mem k hidden_attrs = false) ->
  exists r', read_record i = Ok r' /\ Permutation r' r.
Proof.
  intros (ds & als & -> & H1 & H2) HN HH. cbn [read_record].
  rewrite (rel_mapM read_dset ds _ (BorealisFileProofs.Forall2_impl _ _ _ _ (fun p q H => conj (proj1 H) (proj1 (proj2 H))) H1)). cbn [rbind].
  assert (RA : read_attrs als = Ok (filter (fun p => str_mem (fst p) (keys sa)) r)).
  { unfold read_attrs. assert (E : filter (fun p => negb (str_mem (fst p) hidden_attrs)) als = als).
    { assert (HX : forall k, In k (keys als) -> str_mem k hidden_attrs = false).
      { intros k Hk. rewrite (like_keys _ _ _ H2) in Hk. apply HH. eapply filter_keys_in; exact Hk. }
      clear H2. induction als as [|[k a] als IH]; cbn [filter fst]; [reflexivity|].
      rewrite (HX k) by (now left). cbn [negb]. f_equal. apply IH. intros k' Hk. apply HX. now right. }
    rewrite E. apply rel_mapM. eapply BorealisFileProofs.Forall2_impl; [|exact H2]. intros p q (X1 & X2 & _). now split. }
  rewrite RA. cbn [rbind]. eexists. split; [reflexivity|].
  rewrite (split_update (fun p => str_mem (fst p) (keys sa)) r HN) by (intros p q _ _ E; now rewrite E).
  apply filter_split.
Qed.

Lemma group_like_hash sa al i r h : group_like sa al i r -> str_mem s_hash al = false -> str_mem s_hash (keys sa) = true -> dict_get r s_hash = Some (BText h) ->
  exists a, dict_get (item_attrs i) s_hash = Some a /\ attr_decode a = Ok h.
Proof.
  intros (ds & als & -> & _ & H2) HAl HM HG. cbn [item_attrs].
  rewrite <- (filter_get (fun k => str_mem k (keys sa)) r s_hash HM) in HG. revert HG.
  induction H2 as [|[k a] [k2 v] als r' (E1 & E2 & E3) H2 IH]; cbn [dict_get]; [discriminate|]. cbn [fst snd] in *. subst k2.
  destruct (str_eqb k s_hash) eqn:EK; [|exact IH]. apply str_eqb_eq in EK. intros [= ->]. exists a. split; [reflexivity|].
  apply hash_attr; [|exact E2]. destruct E3 as [E3|[E3 _]]; [exact E3|]. rewrite EK in E3. congruence.
Qed.

(** ** Reading the file *)

Lemma groups_read g t sa al its xs h fs o : has_structures t -> site_single_element_types (format_class g t) = Ok sa ->
  holds fs o (mk_hfile its []) -> Forall2 (same_key (group_like sa al)) its xs -> str_mem s_hash al = false -> proper xs -> xs <> [] ->
  (forall n r, In (n, r) xs -> BorealisSpec.site_record_ok (format_class g t) r /\ storable (format_class g t) r /\
     dict_get r s_hash = Some (BText h)) ->
  generation_of (version_of h) = Ok g ->
  exists rd, site_read fs o (type_name t) = Ok rd /\ borealis_read fs o (type_name t) None = Ok (SiteReader rd) /\
    sr_version rd = version_of h /\ sr_gen rd = g /\ sr_type rd = t /\ records_back xs (sr_records rd).
Proof.
  intros HT E1 HO HI HAl HP HNE HR HV.
  destruct (site_tables g t HT) as (sa' & sd & E1' & E2 & Na & Nd & Dj & HA & HD & _).
  assert (sa' = sa) by congruence. subst sa'.
  pose proof (format_facts g t HT) as HF. set (F := format_class g t) in *.
  pose proof (sort_rel _ _ _ HI) as HSI. pose proof (proper_sort xs HP) as HPS.
  assert (HRS : forall m q, In (m, q) (sort_dict xs) -> In (m, q) xs) by (intros m q; apply Permutation_in, sort_perm).
  assert (HM : str_mem s_hash (keys sa) = true).
  { destruct (f_hash_site F HF) as (ty & HH). apply str_mem_In, keys_in. exists ty. now apply HA. }
  set (f' := mk_hfile its []) in *.
  assert (OP : h5_open fs o = Ok f') by (unfold h5_open; now rewrite HO).
  assert (HSH : site_hash f' = Ok h).
  { unfold site_hash. cbn [h_items f']. pose proof HSI as HSI'. destruct (sort_dict xs) as [|[m q] rest] eqn:ES.
    - exfalso. apply HNE. pose proof (sort_perm xs) as SP. rewrite ES in SP. now apply Permutation_nil in SP.
    - inversion HSI' as [|[m' i] [m2 r'] its' rest' HX HY EX EY]; subst. destruct HX as [_ HX]. cbn [snd] in HX.
      destruct (HR m q (HRS m q (or_introl eq_refl))) as (_ & _ & HQ).
      destruct (group_like_hash _ _ _ _ h HX HAl HM HQ) as (a & A1 & A2). now rewrite A1. }
  destruct (rel_step read_record (group_like sa al) (fun r' q => Permutation r' q) _ _ HSI) as (rs0 & R1 & R2).
  { intros m q i Hq HG. apply (group_like_read sa al); auto.
    - now apply (proj2 HPS m).
    - intros k Hk. apply (f_site_hidden F HF). apply HRS in Hq. destruct (HR m q Hq) as ((O1 & _) & _). now apply O1. }
  destruct (rel_step ppo_site_fix_record (fun r' q => Permutation r' q)
    (fun r' q => record_back q r' /\ BorealisSpec.site_record_ok F r' /\ NoDup (keys r')) _ _ R2) as (rs' & P1 & P2).
  { intros m q q0 Hq HQ. pose proof (HRS m q Hq) as Hq'. destruct (HR m q Hq') as (O & S & _).
    apply (site_fix_record F); auto. now apply (proj2 HP m). }
  pose proof (rel_keys _ _ _ P2) as KE.
  assert (HBR : forall m q', In (m, q') rs' -> exists q, In (m, q) xs /\ record_back q q' /\ BorealisSpec.site_record_ok F q' /\ NoDup (keys q')).
  { intros m q' H. clear - P2 H HRS. revert HRS H. induction P2 as [|[m1 q1] [m2 q2] rs' e [X1 X2] P2 IH]; intros HRS [].
    - injection H as -> ->. cbn [fst snd] in X1, X2. subst m2. exists q2. split; [apply HRS; now left|exact X2].
    - apply IH; auto. intros; apply HRS. now right. }
  assert (HP' : proper rs').
  { split; [rewrite KE; exact (proj1 HPS)|]. intros m q' H. destruct (HBR m q' H) as (? & _ & _ & _ & ?). auto. }
  assert (CK : check_site_records F rs' = Ok tt).
  { apply site_check_iff; auto. intros m q' H. destruct (HBR m q' H) as (? & _ & _ & ? & _). auto. }
  assert (SS : StronglySorted str_lt (keys rs')) by (rewrite KE; apply sort_sorted, HP).
  assert (RD : site_read fs o (type_name t) = Ok (mk_site_reader (version_of h) g t rs')).
  { unfold site_read. rewrite type_name_of, OP. cbn [rbind]. rewrite HSH. cbn [rbind]. rewrite HV. cbn [rbind].
    unfold site_read_file. fold F. rewrite E1, E2. cbn [rbind]. unfold read_records. cbn [h_items f'].
    rewrite R1. cbn [rbind]. rewrite ppo_site_fix_mapM, P1. cbn [rbind]. rewrite CK. cbn [rbind]. now rewrite (sort_id _ SS). }
  exists (mk_site_reader (version_of h) g t rs'). splits; auto.
  - unfold borealis_read. rewrite type_name_of. unfold return_reader.
    assert (EA : array_read fs o (type_name t) = Raise BorealisStructureError).
    { unfold array_read. rewrite type_name_of, OP. reflexivity. }
    rewrite EA. cbn [falls_back]. rewrite RD. reflexivity.
  - cbn [sr_records]. split; [exact SS|]. split.
    + intros m. rewrite KE. split; apply Permutation_in; [|symmetry]; apply keys_perm, sort_perm.
    + intros m q q' H1 H2. destruct (HBR m q' H2) as (q2 & Q1 & Q2 & _).
      apply (dict_in_get xs m q (proj1 HP)) in H1. apply (dict_in_get xs m q2 (proj1 HP)) in Q1. congruence.
Qed.

Lemma shape_unique v s s' : has_shape v s -> has_shape v s' -> s = s'.
Proof. destruct v; cbn; intros; try contradiction; congruence. Qed.

Lemma back_trans r x q : record_back r x -> record_back x q -> record_back r q.
Proof.
  intros [A1 A2] [B1 B2]. split; [intros k Hk; rewrite B1, A1 by exact Hk; reflexivity|].
  destruct (dict_get r (str "pulse_phase_offset")) as [v|].
  - destruct A2 as (p & s & sp & P1 & P2 & P3 & P4 & P5). exists p, s, sp. splits; auto.
    + intros E. rewrite (P4 E) in B2. destruct B2 as (p' & s' & sp' & Q1 & Q2 & Q3 & Q4 & _).
      rewrite A1 in Q1 by (intros C; vm_compute in C; discriminate C). assert (p' = p) by congruence. subst p'.
      apply Q4. rewrite (shape_unique _ _ _ Q2 P2), (shape_unique _ _ _ Q3 P3). exact E.
    + intros E. rewrite (P5 E) in B2. destruct B2 as (p' & s' & sp' & Q1 & Q2 & Q3 & Q4 & _).
      rewrite A1 in Q1 by (intros C; vm_compute in C; discriminate C). assert (p' = p) by congruence. subst p'.
      apply Q4. cbn [has_shape] in Q2. now rewrite <- Q2, (shape_unique _ _ _ Q3 P3).
  - rewrite A2 in B2. exact B2.
Qed.

(** The fixed record can be stored as well. *)
Lemma fix_storable F r : facts F -> NoDup (keys r) -> BorealisSpec.site_record_ok F r -> storable F r ->
  exists x, ppo_site_fix_record r = Ok x /\ record_back r x /\ BorealisSpec.site_record_ok F x /\ NoDup (keys x) /\ storable F x.
Proof.
  intros HF HN HO HS. destruct (site_fix_record F r r HF HN HO HS (Permutation_refl r)) as (x & X1 & X2 & X3 & X4).
  exists x. splits; auto. unfold ppo_site_fix_record in X1. destruct (dict_get r s_ppo) as [v|] eqn:EP; [|apply ok_inj in X1; now subst].
  destruct (bshape v) as [sv|]; [|discriminate]. apply rbind_ok in X1 as (p & P & X1). destruct (bshape p) as [sp|] eqn:EB; [|discriminate].
  destruct (shape_eqb sv sp); [apply ok_inj in X1; now subst|]. destruct sp as [s|]; [|discriminate]. apply ok_inj in X1 as <-.
  destruct HS as [S1 S2]. split.
  - intros k w ty H HA. apply set_in in H as [[-> ->]|[_ H]]; [|now apply (S1 k w ty)|exact HN]. exfalso. exact (proj1 (f_ppo_attr F HF ty) HA).
  - intros k w ty H HD. apply set_in in H as [[-> ->]|[_ H]]; [|now apply (S2 k w ty)|exact HN]. destruct (f_ppo_site F HF ty HD) as (-> & tp & HTP).
    constructor; [|left; exact I]. unfold dict_item in P. destruct (dict_get r (str "pulses")) eqn:EU; [|discriminate]. apply ok_inj in P. subst b.
    apply dict_get_In in EU. destruct (dset_shape p (S2 _ _ _ EU HTP)) as (s' & Hs & _ & Bp). rewrite EB in Bp. now injection Bp as ->.
Qed.

(** ** The names *)

Definition name_char (c : Z) : Prop := c = 45 \/ 48 <= c < 58.
Lemma uint_chars d : Forall name_char (str (NilEmpty.string_of_uint d)).
Proof. induction d; cbn [NilEmpty.string_of_uint]; [constructor|..]; (constructor; [right; vm_compute; split; [discriminate|reflexivity]|exact IHd]). Qed.
Lemma zero_chars d : Forall name_char (str (NilZero.string_of_uint d)) /\ str (NilZero.string_of_uint d) <> [].
Proof.
  destruct d; cbn [NilZero.string_of_uint]; (split; [|discriminate]).
  - constructor; [right; vm_compute; split; [discriminate|reflexivity]|constructor].
  - apply (uint_chars (Decimal.D0 d)).
  - apply (uint_chars (Decimal.D1 d)).
  - apply (uint_chars (Decimal.D2 d)).
  - apply (uint_chars (Decimal.D3 d)).
  - apply (uint_chars (Decimal.D4 d)).
  - apply (uint_chars (Decimal.D5 d)).
  - apply (uint_chars (Decimal.D6 d)).
  - apply (uint_chars (Decimal.D7 d)).
  - apply (uint_chars (Decimal.D8 d)).
  - apply (uint_chars (Decimal.D9 d)).
Qed.
Lemma dec_chars z : Forall name_char (dec z) /\ dec z <> [].
Proof.
  unfold dec. destruct (Z.to_int z) as [d|d]; cbn [NilZero.string_of_int]; [apply zero_chars|]. split; [|discriminate].
  constructor; [left; reflexivity|]. apply zero_chars.
Qed.
Lemma record_name_group b n : record_name b = Ok n -> group_name n.
Proof.
  unfold record_name. intros H. apply rbind_ok in H as (m & _ & H). apply ok_inj in H as <-. destruct (dec_chars (millis m)) as [H1 H2].
  rewrite Forall_forall in H1. unfold group_name, name_char in *. splits.
  - exact H2.
  - intros C. rewrite C in H1. specialize (H1 46 (or_introl eq_refl)). lia.
  - intros C. apply H1 in C. lia.
  - intros C. apply H1 in C. lia.
Qed.

(** ** The records in memory *)

Lemma update_const {A} (l d : dict A) k v : (forall w, In (k, w) l -> w = v) -> In k (keys l) -> dict_get (dict_update d l) k = Some v.
Proof.
  revert d. induction l as [|[k1 w1] l IH]; intros d HC HK; [destruct HK|]. unfold dict_update. cbn [fold_left fst snd].
  change (fold_left _ l (dict_set d k1 w1)) with (dict_update (dict_set d k1 w1) l).
  destruct (in_dec (list_eq_dec Z.eq_dec) k (keys l)) as [I|I].
  - apply IH; [intros w Hw; apply HC; now right|exact I].
  - rewrite dict_update_get by exact I. destruct HK as [E|C]; [|contradiction]. cbn [fst] in E. subst k1.
    rewrite dict_get_set, str_eqb_refl. f_equal. apply HC. now left.
Qed.

(** The records of the timestamps, with their names. *)
Fixpoint loop_list (F : format) (a : brecord) (times : list (list cell)) (rec : nat) (l : brecords) : Prop :=
  match times, l with
  | [], [] => True
  | (CZ b :: _) :: times', (n, r) :: l' =>
      record_name b = Ok n /\ site_record F a rec = Ok r /\ loop_list F a times' (rec + 1) l'
  | _, _ => False
  end.

Lemma loop_listed F a : forall times rec out rs, site_loop record_name F a times rec out = Ok rs ->
  exists l, loop_list F a times rec l /\ rs = dict_update out l /\ length l = length times.
Proof.
  induction times as [|row times IH]; intros rec out rs H; cbn [site_loop] in H.
  - apply ok_inj in H as <-. exists []. splits; auto. exact I.
  - destruct row as [|[b| |] tl]; try discriminate. apply rbind_ok in H as (n & N & H). apply rbind_ok in H as (r & R & H).
    apply IH in H as (l & L1 & L2 & L3). exists ((n, r) :: l). splits; [cbn [loop_list]; auto|exact L2|cbn [length]; now rewrite L3].
Qed.

Lemma dict_set_length {A} (d : dict A) k v : (length (dict_set d k v) <= S (length d))%nat /\
  (length (dict_set d k v) = S (length d) -> ~ In k (keys d)).
Proof.
  induction d as [|[k1 v1] d IH]; cbn [dict_set length].
  - split; [lia|]. intros _ [].
  - destruct (str_eqb k1 k) eqn:E; cbn [length]; [split; lia|]. destruct IH as [I1 I2]. split; [lia|]. intros H [C|C].
    + cbn [fst] in C. subst. now rewrite str_eqb_refl in E.
    + apply I2; [lia|exact C].
Qed.
Lemma update_length {A} (l d : dict A) : (length (dict_update d l) <= length d + length l)%nat /\
  (length (dict_update d l) = (length d + length l)%nat -> dict_update d l = d ++ l).
Proof.
  revert d. induction l as [|[k v] l IH]; intros d; unfold dict_update; cbn [fold_left fst snd length].
  - rewrite app_nil_r. split; [lia|reflexivity].
  - change (fold_left _ l (dict_set d k v)) with (dict_update (dict_set d k v) l). destruct (IH (dict_set d k v)) as [I1 I2].
    destruct (dict_set_length d k v) as [S1 S2]. split; [lia|]. intros H. rewrite I2 by lia.
    rewrite dict_set_fresh by (apply S2; lia). now rewrite <- app_assoc.
Qed.

Lemma flatten_nodup fs : forall r r', flatten_record fs r = Ok r' -> NoDup (keys r) -> NoDup (keys r').
Proof.
  induction fs as [|k fs IH]; intros r r' H HN; cbn [flatten_record] in H; [apply ok_inj in H; now subst|].
  apply rbind_ok in H as (v & _ & H). apply rbind_ok in H as (v' & _ & H). apply IH in H; [exact H|]. now apply dict_set_nodup.
Qed.
Lemma flatten_get fs k : ~ In k fs -> forall r r', flatten_record fs r = Ok r' -> dict_get r' k = dict_get r k.
Proof.
  induction fs as [|k1 fs IH]; intros HK r r' H; cbn [flatten_record] in H; [apply ok_inj in H; now subst|].
  apply rbind_ok in H as (v & _ & H). apply rbind_ok in H as (v' & _ & H). rewrite (IH (fun C => HK (or_intror C)) _ _ H), dict_get_set.
  destruct (str_eqb k1 k) eqn:E; [|reflexivity]. apply str_eqb_eq in E. subst. exfalso. apply HK. now left.
Qed.

(** Flattening one record. *)
Definition flat (F : format) (r r' : brecord) : Prop :=
  match fm_flat F with None => r' = r | Some (_, fs) => flatten_record fs r = Ok r' end.
Lemma flatten_flat F l rs : flatten_site_arrays F l = Ok rs -> Forall2 (fun p q => fst p = fst q /\ flat F (snd p) (snd q)) l rs.
Proof.
  unfold flatten_site_arrays, flat. destruct (fm_flat F) as [[df fs]|].
  - intros H. apply mapM_inv in H. induction H as [|[n r] [n' r'] l rs E H IH]; constructor; [|exact IH].
    cbn [fst snd] in *. apply rbind_ok in E as (x & X & E). apply ok_inj in E. injection E as <- <-. auto.
  - intros H. apply ok_inj in H as <-. induction l; constructor; auto.
Qed.
Lemma flat_single F n r r' : flat F r r' -> flatten_site_arrays F [(n, r)] = Ok [(n, r')].
Proof.
  unfold flatten_site_arrays, flat. destruct (fm_flat F) as [[df fs]|]; [|intros ->; reflexivity].
  intros H. cbn [mapM fst snd]. rewrite H. reflexivity.
Qed.
Lemma flat_nodup F r r' : flat F r r' -> NoDup (keys r) -> NoDup (keys r').
Proof. unfold flat. destruct (fm_flat F) as [[df fs]|]; [apply flatten_nodup|now intros ->]. Qed.
Lemma site_record_nodup F a rec r : site_record F a rec = Ok r -> NoDup (keys r).
Proof.
  unfold site_record. intros H. apply rbind_ok in H as (sh & SH & H). apply rbind_ok in H as (sp & SP & H).
  apply rbind_ok in H as (fs & FS & H). apply rbind_ok in H as (un & UN & H). apply ok_inj in H as <-.
  repeat apply dict_update_nodup. constructor.
Qed.

(** ** The loop *)

Section Loop.
Variable av : pystr -> bool.
Variables (g : generation) (t : filetype) (sa : dict btype) (u : list pystr) (f : hfile) (a : brecord) (o : pystr) (c : option pystr) (h : pystr).
Notation F := (format_class g t).
Hypothesis HT : has_structures t.
Hypothesis HC : can_compress av c.
Hypothesis HSA : site_single_element_types F = Ok sa.
Hypothesis HU : unshared_fields F = Ok u.
Hypothesis HNI : NoDup (keys (h_items f)).
Hypothesis HAt : forall k ty, array_attr F k ty -> exists x v, dict_get (h_attrs f) k = Some x /\ read_attr x = Ok v /\ dict_get a k = Some v.
Hypothesis HDs : forall k ty, array_dset F k ty -> exists d al v, dict_get (h_items f) k = Some (HDset d al) /\ read_dset d = Ok v /\
  dict_get a k = Some v /\ (names_of_dims k \/ (hd_item d <> None <-> text_name F k)).
Hypothesis HCt : counts_not_negative a.
Hypothesis HPh : In s_ppo u -> phases_enough a.
Hypothesis HH : array_hash f = Ok h.

Lemma hash_decoded x : dict_get (h_attrs f) s_hash = Some x -> exists h', attr_decode x = Ok h'.
Proof. intros H. unfold array_hash in HH. rewrite H in HH. eauto. Qed.

Lemma hash_value : dict_get a s_hash = Some (BText h).
Proof.
  pose proof (site_facts_ok g t sa u HT HSA HU) as HSF. destruct (sf_hash g t sa u HSF) as (H1 & H2 & _).
  destruct (sf_shared_attr g t sa u HSF s_hash H1 H2) as (ty & HA). destruct (HAt _ _ HA) as (x & v & X1 & X2 & X3).
  unfold array_hash in HH. rewrite X1 in HH. destruct x; cbn [attr_decode read_attr] in *; try discriminate.
  destruct (utf8_dec _); [|discriminate]. congruence.
Qed.

Lemma mapM_entries {A} (fn : pystr -> res A) l e : mapM (fun k => rlet v := fn k in Ok (k, v)) l = Ok e ->
  keys e = l /\ forall k w, In (k, w) e -> fn k = Ok w.
Proof.
  intros H. apply mapM_inv in H. induction H as [|k [k' w] l e E H [IH1 IH2]]; [split; [reflexivity|intros ? ? []]|].
  apply rbind_ok in E as (v & V & E). apply ok_inj in E. injection E as <- <-. split.
  - change (k :: keys e = k :: l). now f_equal.
  - intros k' w [E|E]; [|now apply IH2]. injection E as <- <-. exact V.
Qed.

Lemma record_hash rec r : site_record F a rec = Ok r -> dict_get r s_hash = Some (BText h).
Proof.
  pose proof (site_facts_ok g t sa u HT HSA HU) as HSF. destruct (sf_hash g t sa u HSF) as (H1 & H2 & H3).
  unfold site_record. intros H. apply rbind_ok in H as (sh & SH & H). apply rbind_ok in H as (sp & SP & H).
  rewrite HU in H. cbn [rbind] in H. apply rbind_ok in H as (un & UN & H). apply ok_inj in H as <-.
  destruct (mapM_entries _ _ _ SH) as [SH1 SH2]. destruct (mapM_entries _ _ _ UN) as [UN1 _].
  rewrite dict_update_get by (fold (keys un); now rewrite UN1).
  rewrite dict_update_get.
  - apply update_const; [|now rewrite SH1]. intros w Hw. apply SH2 in Hw. unfold dict_item in Hw. rewrite hash_value in Hw. now apply ok_inj in Hw.
  - pose proof (mapM_keys (sgen_eval a rec) _ _ SP) as K. fold (keys sp). rewrite K. intros C. apply keys_in in C as (x & C).
    apply (sf_gen g t sa u HSF) in C. unfold sgen_fact in C. cbn [fst] in C. now rewrite str_eqb_refl in C.
Qed.

Lemma not_may k : str_mem k (keys sa) = false -> str_mem k (may_be_empty F sa f) = false.
Proof. intros H. destruct (str_mem k (may_be_empty F sa f)) eqn:E; [|reflexivity]. apply may_in in E as [E _]. apply str_mem_In in E. congruence. Qed.

Lemma flat_hash r rf : flat F r rf -> dict_get r s_hash = Some (BText h) -> dict_get rf s_hash = Some (BText h).
Proof.
  pose proof (site_facts_ok g t sa u HT HSA HU) as HSF. destruct (sf_hash g t sa u HSF) as (_ & H2 & _).
  unfold flat. destruct (fm_flat F) as [[df fs]|] eqn:EF; [|now intros ->]. intros H HG. rewrite (flatten_get fs s_hash) with (r := r); [exact HG| |exact H].
  intros C. apply (sf_flat g t sa u HSF df fs s_hash EF) in C. congruence.
Qed.

Lemma record_step b n tl rec r rf : record_name b = Ok n -> site_record F a rec = Ok r -> flat F r rf -> NoDup (keys rf) ->
  BorealisSpec.site_record_ok F rf -> storable F rf ->
  exists (x1 x : brecord), site_record_of_file F sa f (CZ b :: tl) rec = Ok [(n, x1)] /\ Forall2 (alike (may_be_empty F sa f)) x1 x /\
    record_back rf x /\ BorealisSpec.site_record_ok F x /\ NoDup (keys x) /\ storable F x /\ dict_get x s_hash = Some (BText h).
Proof.
  intros HN HR HFl ND HO HS. pose proof (site_facts_ok g t sa u HT HSA HU) as HSF.
  pose proof (format_facts g t HT) as FF. destruct (site_tables g t HT) as (sa' & sd & E1' & E2 & Na & Nd & Dj & HA & HD & _).
  assert (sa' = sa) by congruence. subst sa'.
  destruct (record_like g t sa u f a HSF HU HNI HAt HDs HCt HPh hash_decoded rec r HR) as (r1 & R1 & R2).
  assert (exists rf1, flat F r1 rf1 /\ Forall2 (alike (may_be_empty F sa f)) rf1 rf) as (rf1 & F1 & F2).
  { unfold flat in *. destruct (fm_flat F) as [[df fs]|] eqn:EF; [|subst rf; eauto].
    apply (flatten_alike _ fs) with (r := r); auto. intros k Hk. apply not_may. now apply (sf_flat g t sa u HSF df fs). }
  destruct (fix_storable F rf FF ND HO HS) as (x & X1 & X2 & X3 & X4 & X5).
  assert (NP : forall k, (exists ty, In (k, ty) sd) -> str_mem k (may_be_empty F sa f) = false).
  { intros k (ty & Hk). apply not_may. destruct (str_mem k (keys sa)) eqn:E; [|reflexivity]. apply str_mem_In in E.
    exfalso. apply (Dj k E). apply keys_in. eauto. }
  assert (exists x1, ppo_site_fix_record rf1 = Ok x1 /\ Forall2 (alike (may_be_empty F sa f)) x1 x) as (x1 & Y1 & Y2).
  { destruct (dict_get rf s_ppo) as [v|] eqn:EP.
    - assert (FP : site_field F s_ppo) by (apply HO; apply keys_in; exists v; now apply dict_get_In).
      destruct FP as (ty & [FP|FP]); [exfalso; exact (proj1 (f_ppo_attr F FF ty) FP)|].
      destruct (f_ppo_site F FF ty FP) as (_ & tp & HTP).
      apply ppo_alike with (r := rf); auto; apply NP; [exists ty|exists tp]; now apply HD.
    - unfold ppo_site_fix_record in *. rewrite (alike_none _ _ _ _ F2 EP). rewrite EP in X1. apply ok_inj in X1 as <-. eauto. }
  exists x1, x. splits; auto.
  - unfold site_record_of_file. rewrite HN. cbn [rbind]. rewrite R1. cbn [rbind]. rewrite (flat_single F n r1 rf1 F1). cbn [rbind].
    cbn [ppo_site_fix]. rewrite Y1. cbn [rbind].
    assert (CK : check_records sa (fm_array F) [(n, x1)] = Ok tt).
    { apply record_passes; auto; [rewrite (alike_keys _ _ _ Y2); exact X4|]. now apply (alike_ok g t sa f x1 x). }
    rewrite CK. reflexivity.
  - destruct X2 as [X2 _]. rewrite X2 by (intros C; vm_compute in C; discriminate C). apply (flat_hash r rf HFl). now apply (record_hash rec).
Qed.

Lemma write_step fs its n (x1 x : brecord) : h5_append fs o = Ok (mk_hfile its []) -> ~ In n (keys its) -> group_name n ->
  Forall2 (alike (may_be_empty F sa f)) x1 x -> NoDup (keys x) -> BorealisSpec.site_record_ok F x -> storable F x ->
  exists i, group_like sa (may_be_empty F sa f) i x /\ write_records av F fs o [(n, x1)] c = (h5_close fs o (mk_hfile (its ++ [(n, i)]) []), Ok tt).
Proof.
  intros HA HN HG HX ND HO HS. destruct (site_tables g t HT) as (sa' & sd & E1' & E2 & Na & Nd & Dj & HAT & HD & _).
  assert (sa' = sa) by congruence. subst sa'.
  destruct (write_like av sa _ c x1 x [] [] HC (fun k H => proj1 (may_in F sa f k H)) HX (site_value_kept g t sa x HT HAT HO HS) ND) as (ds & als & W1 & W2 & W3); [intros k _; split; intros []|].
  exists (HGroup ds als). split; [exists ds, als; auto|]. unfold write_records. rewrite HSA, E2, HA. cbn [write_groups].
  rewrite (plain_name_ok n HG). cbn [negb h_items h_attrs].
  destruct (dict_get its n) eqn:EG; [apply dict_get_In in EG; exfalso; apply HN, keys_in; eauto|].
  fold (keys sa). rewrite W1. cbn [app]. now rewrite dict_set_fresh by exact HN.
Qed.

Lemma append_close fs f' : h5_append (h5_close fs o f') o = Ok f'.
Proof. unfold h5_append, h5_close. now rewrite str_eqb_refl. Qed.

Lemma loop_ok : forall times rec l rs fs its, loop_list F a times rec l ->
  Forall2 (fun p q => fst p = fst q /\ flat F (snd p) (snd q)) l rs -> NoDup (keys rs) ->
  (forall n r, In (n, r) rs -> NoDup (keys r) /\ BorealisSpec.site_record_ok F r /\ storable F r /\ ~ In n (keys its)) ->
  h5_append fs o = Ok (mk_hfile its []) ->
  exists fs' its' xs, site_file_loop av F sa f o c times rec fs = (fs', Ok tt) /\
    h5_append fs' o = Ok (mk_hfile (its ++ its') []) /\ (rs <> [] -> holds fs' o (mk_hfile (its ++ its') [])) /\
    Forall2 (same_key (group_like sa (may_be_empty F sa f))) its' xs /\ Forall2 (same_key record_back) rs xs /\
    (forall n r, In (n, r) xs -> NoDup (keys r) /\ BorealisSpec.site_record_ok F r /\ storable F r /\ dict_get r s_hash = Some (BText h)).
Proof.
  induction times as [|row times IH]; intros rec l rs fs its HL HF ND HR HA; cbn [loop_list] in HL.
  - destruct l; [|destruct HL]. inversion HF; subst. exists fs, [], []. cbn [site_file_loop]. rewrite app_nil_r.
    splits; auto; [congruence|intros n r []].
  - destruct row as [|[b| |] tl]; try contradiction. destruct l as [|[n r] l]; [contradiction|]. destruct HL as (N & R & HL).
    inversion HF as [|? [n' rf] ? rs' [E1 E2] HF' X1 X2]; subst. cbn [fst snd] in E1, E2. subst n'.
    inversion ND as [|? ? N1 N2]; subst. destruct (HR n rf (or_introl eq_refl)) as (D & O & S & NI).
    destruct (record_step b n tl rec r rf N R E2 D O S) as (x1 & x & S1 & S2 & S3 & S4 & S5 & S6 & S7).
    destruct (write_step fs its n x1 x HA NI (record_name_group b n N) S2 S5 S4 S6) as (i & G & W).
    destruct (IH (rec + 1)%nat l rs' (h5_close fs o (mk_hfile (its ++ [(n, i)]) [])) (its ++ [(n, i)]) HL HF' N2) as (fs' & its' & xs & L1 & L2 & L3 & L4 & L5 & L6).
    { intros m q Hq. destruct (HR m q (or_intror Hq)) as (D' & O' & S' & NI'). splits; auto. unfold keys. rewrite map_app. intros C.
      apply in_app_or in C as [C|[C|[]]]; [auto|]. cbn [fst] in C. subst. apply N1. apply keys_in. eauto. }
    { apply append_close. }
    exists fs', ((n, i) :: its'), ((n, x) :: xs). cbn [site_file_loop]. rewrite S1. cbv beta iota. rewrite W. cbv beta iota. rewrite L1. rewrite <- app_assoc in L2, L3. cbn [app] in L2, L3. splits; auto.
    + intros _. unfold holds. unfold h5_append in L2. destruct rs' as [|p rs'].
      * inversion HF'; subst. destruct times as [|[|[]] times]; [|contradiction..].
        cbn [site_file_loop] in L1. injection L1 as <-. unfold h5_close in *. rewrite str_eqb_refl in *. apply ok_inj in L2. now rewrite L2.
      * apply L3. discriminate.
    + constructor; [now split|exact L4].
    + constructor; [now split|exact L5].
    + intros m q [E|Hq]; [injection E as <- <-; auto|now apply (L6 m)].
Qed.
End Loop.

(** ** The whole file *)

Lemma mapM_all {A B} (f : A -> res B) l : (forall x, In x l -> exists y, f x = Ok y) -> exists l', mapM f l = Ok l'.
Proof.
  induction l as [|x l IH]; intros H; [now exists []|]. destruct (H x (or_introl eq_refl)) as (y & Y).
  destruct IH as (l' & L); [intros z Hz; apply H; now right|]. exists (y :: l'). cbn [mapM]. rewrite Y. cbn [rbind]. rewrite L. reflexivity.
Qed.

Definition ppo_plain (F : format) : bool := negb (str_mem s_ppo (keys (fm_array F)) || str_mem s_ppo (keys (fm_single F))) || plain_dset F s_ppo.
Lemma all_ppo_plain g t : has_structures t -> ppo_plain (format_class g t) = true.
Proof. unfold has_structures. destruct t; [| | |congruence]; intros _; destruct g; vm_compute; reflexivity. Qed.

Lemma arrays_unfixed g t sa u f a a' : has_structures t -> site_facts g t sa u -> array_layout (format_class g t) f -> phases_whole f ->
  read_arrays f = Ok a -> ppo_array_fix a = Ok a' -> NoDup (keys a') -> arrays_ok (format_class g t) a' -> a' = a.
Proof.
  intros HT HSF (N1 & N2 & N3 & _ & LD) HW HR HF ND (O1 & _). pose proof (format_facts g t HT) as FF. pose proof (all_ppo_plain g t HT) as PP.
  set (F := format_class g t) in *. unfold ppo_array_fix in HF. destruct (dict_get a s_ppo) as [v|] eqn:EP; [|now apply ok_inj in HF].
  assert (K : In s_ppo (keys a')).
  { assert (K : In s_ppo (keys a)) by (apply keys_in; exists v; now apply dict_get_In).
    destruct (bshape v) as [[l|]|]; [|apply ok_inj in HF; now subst|discriminate].
    assert (E : a' = a \/ exists w, a' = dict_set a s_ppo w).
    { destruct l as [|[|[|[|?]]] [|? ?]]; try (apply ok_inj in HF; now left). right. apply rbind_ok in HF as (nv & _ & HF).
      destruct (bshape nv) as [[[|d l]|]|]; try discriminate. apply ok_inj in HF as <-. eauto. }
    destruct E as [-> |(w & ->)]; [exact K|]. unfold keys. rewrite dict_set_keys. rewrite (proj2 (str_mem_In s_ppo (map fst a)) K). exact K. }
  apply O1 in K as (ty & [K|K]); [exfalso; exact (proj2 (f_ppo_attr F FF ty) K)|].
  assert (PD : plain_dset F s_ppo = true).
  { unfold ppo_plain in PP. apply orb_true_iff in PP as [PP|PP]; [|exact PP]. exfalso. apply negb_true_iff, orb_false_iff in PP as [P1 P2].
    destruct K as [[K _]|[K _]]; [eapply not_mem_keys in P1; apply P1, K|eapply not_mem_keys in P2; apply P2, K]. }
  destruct (sf_plain g t sa u HSF s_ppo PD) as (_ & NT & NM).
  destruct (LD s_ppo ty K) as (d & al & D1 & [D2|D2]); [contradiction|]. pose proof (not_text g t d s_ppo D2 NT) as HI.
  destruct (arrays_read f a HR N1 N2 N3) as (_ & _ & AR). apply (dict_in_get _ _ _ N1) in D1 as D1'. destruct (AR _ _ _ D1') as (v' & V1 & V2).
  assert (v' = v) by congruence. subst v'. destruct (read_dset_array d v V1) as (ty' & s & l & -> & _ & HV). pose proof (HV HI) as E. injection E as -> -> ->.
  pose proof (HW d al D1) as HS. cbn [bshape] in HF. destruct (hd_shape d) as [|[|[|[|?]]] [|? ?]]; try congruence; now apply ok_inj in HF.
Qed.

Theorem raw_file_groups av fs i o f t g c a h rs :
  has_structures t -> i <> o -> holds fs i f -> array_layout (format_class g t) f -> read_arrays f = Ok a ->
  array_hash f = Ok h -> generation_of (version_of h) = Ok g -> arrays_ok (format_class g t) a -> counts_not_negative a ->
  (role_of g t (str "pulse_phase_offset") Varying -> phases_enough a) ->
  array_records g t a = Ok rs -> rs <> [] -> number_of_times a (length rs) ->
  (forall n r, In (n, r) rs -> storable (format_class g t) r) -> can_compress av c -> fs o = None ->
  exists sa fs' its xs, site_single_element_types (format_class g t) = Ok sa /\
    restructure av fs i o (type_name t) (str "site") c = (fs', Ok tt) /\ only_file o fs fs' /\
    holds fs' o (mk_hfile its []) /\ Forall2 (same_key (group_like sa (may_be_empty (format_class g t) sa f))) its xs /\
    Forall2 (same_key record_back) rs xs /\ proper xs /\ xs <> [] /\
    (forall n r, In (n, r) xs -> BorealisSpec.site_record_ok (format_class g t) r /\ storable (format_class g t) r /\
       dict_get r s_hash = Some (BText h)) /\ (forall n, In n (keys rs) -> group_name n).
Proof.
  intros HT HIO HI HL A0 HH HG CK HCt HPh HRS HNE HNT HST HC HO. unfold holds in HI.
  destruct (site_tables g t HT) as (sa & sd & E1 & E2 & Na & Nd & Dj & HAT & HD & _).
  destruct (array_tables g t HT) as (aa & ad & u & E3 & E4 & E5 & _).
  pose proof (site_facts_ok g t sa u HT E1 E5) as HSF.
  assert (HPu : In s_ppo u -> phases_enough a).
  { intros K. apply HPh. destruct (catalogue_lists g t HT) as (_ & _ & _ & (u' & s' & a' & Eu & _ & _ & Hu & _) & _).
    assert (u' = u) by congruence. subst u'. now apply Hu. }
  set (F := format_class g t) in *.
  (* what was read *)
  pose proof HL as (N1 & N2 & N3 & LA & LD). destruct (arrays_read f a A0 N1 N2 N3) as (ND & RA & RD).
  assert (HAt : forall k ty, array_attr F k ty -> exists x v, dict_get (h_attrs f) k = Some x /\ read_attr x = Ok v /\ dict_get a k = Some v).
  { intros k ty Hk. pose proof (LA k ty Hk) as K. apply keys_in in K as (x & K). apply (dict_in_get _ _ _ N2) in K.
    destruct (RA k x K) as (v & V1 & V2); [apply (f_array_hidden F (format_facts g t HT)); exists ty; now left|]. exists x, v. auto. }
  assert (HDs : forall k ty, array_dset F k ty -> exists d al v, dict_get (h_items f) k = Some (HDset d al) /\ read_dset d = Ok v /\
    dict_get a k = Some v /\ (names_of_dims k \/ (hd_item d <> None <-> text_name F k))).
  { intros k ty Hk. destruct (LD k ty Hk) as (d & al & D1 & D2). apply (dict_in_get _ _ _ N1) in D1. destruct (RD k d al D1) as (v & V1 & V2).
    exists d, al, v. auto. }
  (* the records in memory *)
  unfold array_records in HRS. fold F in HRS. destruct (fm_restructureable F) eqn:EF; [|discriminate]. unfold wrap_restructure in HRS.
  destruct (rbind (array_to_site record_name F a) _) as [rs'|e] eqn:EW; [|destruct e; discriminate]. apply ok_inj in HRS. subst rs'.
  apply rbind_ok in EW as (rs' & ES & EW). apply rbind_ok in EW as ([] & CS & EW). apply ok_inj in EW. subst rs'.
  unfold array_to_site in ES. rewrite EF in ES. cbn [negb] in ES. apply rbind_ok in ES as (ts & TS & ES).
  destruct HNT as (tt0 & ds0 & l0 & NT). assert (ts = BArr tt0 (length rs :: ds0) l0) as -> by (unfold dict_item in TS; rewrite NT in TS; now apply ok_inj in TS).
  assert (LN : length rs <> 0%nat) by (destruct rs; [congruence|discriminate]).
  destruct (sf_times g t sa u HSF) as (TU & TN). destruct (sf_dims g t sa u HSF _ TU TN) as (TP & _).
  destruct (plain_same g t sa u f a HSF N1 HDs _ TP) as (ty' & s' & dat' & P1 & P2 & P3 & d & al & P4 & P5).
  rewrite NT in P1. apply (f_equal (fun o => match o with Some v => v | None => BPlain end)) in P1. cbv beta iota in P1. injection P1 as <- <- <-.
  destruct ds0 as [|w [|? ?]]; [destruct (length rs); [congruence|discriminate]| |destruct (length rs); discriminate].
  assert (TM : time_type tt0 = true) by (destruct (time_type tt0); [reflexivity|destruct (length rs); discriminate]).
  assert (exists out, site_loop record_name F a (rows (length rs) w l0) 0 [] = Ok out /\ flatten_site_arrays F out = Ok rs) as (out & SL & FL).
  { destruct (length rs); [congruence|]. rewrite TM in ES. cbn [negb] in ES. apply rbind_ok in ES as (out & O1 & O2). eauto. }
  destruct (loop_listed F a _ _ _ _ SL) as (l & L1 & L2 & L3). rewrite rows_length in L3.
  pose proof (flatten_flat F out rs FL) as FF. pose proof (forall2_length _ _ _ FF) as LF.
  destruct (update_length l []) as [_ UL]. cbn [length app] in UL. rewrite <- L2 in UL. rewrite (UL ltac:(lia)) in *. clear UL.
  (* the records are good *)
  assert (RN : forall n r, In (n, r) rs -> NoDup (keys r)).
  { clear - FF L1. intros n r H. revert l FF L1 H. generalize (rows (length rs) w l0) as times. generalize 0%nat as rec.
    intros rec times l FF. revert rec times. induction FF as [|[m x] [m' y] l rs [X1 X2] FF IH]; intros rec times HL []; destruct times as [|[|[b| |] tl] times]; try contradiction;
    destruct HL as (H1 & H2 & H3).
    - injection H as -> ->. cbn [snd] in X2. apply (flat_nodup F x); [exact X2|]. exact (site_record_nodup _ _ _ _ H2).
    - exact (IH _ _ H3 H). }
  assert (KR : NoDup (keys rs)).
  { rewrite (flatten_keys F l rs FL), L2. apply dict_update_nodup. constructor. }
  assert (OK : forall n r, In (n, r) rs -> BorealisSpec.site_record_ok F r) by (apply (site_check_iff g t); [exact HT|now split|exact CS]).
  (* the loop *)
  destruct (loop_ok av g t sa u f a o c h HT HC E1 E5 N1 HAt HDs HCt HPu HH (rows (length rs) w l0) 0 l rs fs [] L1 FF KR)
    as (fs' & its & xs & W1 & W2 & W3 & W4 & W5 & W6).
  { intros n r H. splits; eauto. }
  { unfold h5_append. now rewrite HO. }
  cbn [app] in W2, W3.
  pose proof (rel_keys _ _ _ W5) as KX. fold F in W1, W6.
  assert (PX : proper xs) by (split; [now rewrite <- KX|intros n r H; now apply (W6 n)]).
  assert (XN : xs <> []) by (intros ->; inversion W5; subst; congruence).
  exists sa, fs', its, xs. splits; auto.
  - (* restructure *)
    assert (TR : timestamp_rows F sa f = Ok (rows (length rs) w l0)).
    { unfold timestamp_rows.
      assert (exists l', mapM (shared_value F sa f) (fm_shared F) = Ok l') as (l1 & M1).
      { apply mapM_all. intros k Hk. assert (KA : In k (keys a)).
        { apply CK. destruct (str_mem k (keys sa)) eqn:EM; [destruct (sf_shared_attr g t sa u HSF k Hk EM) as (ty & K)|
            destruct (sf_shared_dset g t sa u HSF k Hk EM) as ((ty & K) & _)]; exists ty; auto. }
        apply keys_in in KA as (v & KA). apply (dict_in_get _ _ _ ND) in KA.
        destruct (shared_like g t sa u f a HSF HAt HDs (hash_decoded f h HH) k v Hk KA) as (v1 & V1 & _). eauto. }
      rewrite M1. cbn [rbind]. rewrite E5. cbn [rbind].
      match goal with |- context [mapM (single_values F f) ?ks] => assert (exists l', mapM (single_values F f) ks = Ok l') as (l2 & M2) end.
      { apply mapM_all. intros k Hk. apply filter_In in Hk as [K1 K2]. destruct (dict_get (fm_single F) k) as [ty|] eqn:EK; [|discriminate].
        destruct (sf_single g t sa u HSF k ty K1 EK) as (KD & KT). destruct (HDs k ty KD) as (d' & al' & v & D1 & D2 & D3 & [D4|D4]); [exfalso; exact (sf_names g t sa u HSF k (or_intror K1) D4)|].
        exists v. unfold single_values, root_dset. rewrite D1. cbn [rbind]. fold F in KT. destruct (single_string F k).
        - apply text_value; [|exact D2]. apply D4, KT. reflexivity.
        - apply whole_value; [|exact D2]. apply (not_text g t d' k D4). intros C. apply KT in C. discriminate. }
      rewrite M2. cbn [rbind]. unfold root_dset. rewrite P4. cbn [rbind]. rewrite P5. cbn [rbind]. rewrite TM. generalize (length rs). intros []; reflexivity. }
    unfold restructure. rewrite restructured_name by exact HT. rewrite (proj2 (str_eqb_neq i o) HIO). cbn [negb].
    change (str_eqb (str "site") (str "site")) with true. cbn [orb negb]. unfold h5_open. rewrite HI. cbn [rbind].
    assert (IF : input_format f = Ok (str "array", g)).
    { unfold input_format. cbv zeta. assert (BS : borealis_structure (record_names f) = str "array").
      { apply structure_iff. left. split; [reflexivity|]. right. unfold array_hash in HH. fold s_hash. destruct (dict_get (h_attrs f) s_hash) eqn:EX; [|discriminate].
        apply keys_in. eexists. apply dict_get_In, EX. }
      rewrite BS. unfold file_version. change (str_eqb (str "array") (str "array")) with true. cbv iota. rewrite HH. cbn [rbind].
      unfold generation_of in HG. destruct (version_generation (version_of h)); [|discriminate]. apply ok_inj in HG. now subst. }
    rewrite IF. cbn [rbind]. cbv zeta. fold F. change (str_eqb (str "array") (str "site")) with false. cbv iota. rewrite EF. cbn [negb].
    unfold array_to_site_file. rewrite E1, TR. rewrite W1. reflexivity.
  - pose proof (restructure_only av fs i o (type_name t) (str "site") c) as RO.
    pose proof (site_loop_only av F sa f o c (rows (length rs) w l0) 0 fs) as SO. rewrite W1 in SO. exact SO.
  - intros n r H. apply (W6 n r H).
  - intros n Hn. rewrite (flatten_keys F l rs FL) in Hn. clear - L1 Hn. revert L1 Hn. generalize (rows (length rs) w l0) as times. generalize 0%nat as rec.
    induction l as [|[m x] l IH]; intros rec times HL Hn; [destruct Hn|]. destruct times as [|[|[b| |] tl] times]; try contradiction. destruct HL as (H1 & H2 & H3).
    destruct Hn as [<-|Hn]; [exact (record_name_group b m H1)|exact (IH _ _ H3 Hn)].
Qed.

(** The same for the arrays as they are in the file, before the reader repairs the
    phase offsets. *)
Theorem raw_file_to_site av fs i o f t g c a h rs :
  has_structures t -> i <> o -> holds fs i f -> array_layout (format_class g t) f -> read_arrays f = Ok a ->
  array_hash f = Ok h -> generation_of (version_of h) = Ok g -> arrays_ok (format_class g t) a -> counts_not_negative a ->
  (role_of g t (str "pulse_phase_offset") Varying -> phases_enough a) ->
  array_records g t a = Ok rs -> rs <> [] -> number_of_times a (length rs) ->
  (forall n r, In (n, r) rs -> storable (format_class g t) r) -> can_compress av c -> fs o = None ->
  exists fs' sr, restructure av fs i o (type_name t) (str "site") c = (fs', Ok tt) /\ only_file o fs fs' /\
    site_read fs' o (type_name t) = Ok sr /\ borealis_read fs' o (type_name t) None = Ok (SiteReader sr) /\
    sr_version sr = version_of h /\ sr_gen sr = g /\ sr_type sr = t /\ records_back rs (sr_records sr).
Proof.
  intros HT HIO HI HL A0 HH HG CK HCt HPh HRS HNE HNT HST HC HO.
  destruct (raw_file_groups av fs i o f t g c a h rs HT HIO HI HL A0 HH HG CK HCt HPh HRS HNE HNT HST HC HO)
    as (sa & fs' & its & xs & E1 & R1 & R2 & W3 & W4 & W5 & PX & XN & W6 & _).
  pose proof (rel_keys _ _ _ W5) as KX.
  destruct (groups_read g t sa _ its xs h fs' o HT E1 W3 W4) as (sr & S1 & S2 & S3 & S4 & S5 & S6); auto.
  { destruct (str_mem s_hash _) eqn:E; [|reflexivity]. apply may_in in E as (_ & E & _). congruence. }
  assert (KR : NoDup (keys rs)) by (rewrite KX; apply PX).
  exists fs', sr. splits; auto.
  - destruct S6 as (S6 & S7 & S8). split; [exact S6|]. split.
    + intros n. rewrite S7. now rewrite <- KX.
    + intros n r r' H1 H2. assert (exists x, In (n, x) xs /\ record_back r x) as (x & X1 & X2).
      { apply (dict_in_get _ _ _ KR) in H1. destruct (rel_get_l _ _ _ _ _ W5 H1) as (x & X1 & X2). exists x. split; [now apply dict_get_In|exact X2]. }
      apply (back_trans r x r' X2). exact (S8 n x r' X1 H2).
Qed.

Theorem array_file_to_site av fs i o f t c rd rs :
  has_structures t -> i <> o -> holds fs i f -> array_layout (format_class (ar_gen rd) t) f -> phases_whole f ->
  array_read fs i (type_name t) = Ok rd -> counts_not_negative (ar_arrays rd) ->
  (role_of (ar_gen rd) t (str "pulse_phase_offset") Varying -> phases_enough (ar_arrays rd)) ->
  array_records (ar_gen rd) t (ar_arrays rd) = Ok rs -> rs <> [] -> number_of_times (ar_arrays rd) (length rs) ->
  (forall n r, In (n, r) rs -> storable (format_class (ar_gen rd) t) r) -> can_compress av c -> fs o = None ->
  exists fs' sr, restructure av fs i o (type_name t) (str "site") c = (fs', Ok tt) /\ only_file o fs fs' /\
    site_read fs' o (type_name t) = Ok sr /\ borealis_read fs' o (type_name t) None = Ok (SiteReader sr) /\
    sr_version sr = ar_version rd /\ sr_gen sr = ar_gen rd /\ sr_type sr = t /\ records_back rs (sr_records sr).
Proof.
  intros HT HIO HI HL HPW HR HCt HPh HRS HNE HNT HST HC HO.
  unfold array_read in HR. rewrite type_name_of in HR. unfold h5_open in HR. pose proof HI as HI'. unfold holds in HI'. rewrite HI' in HR. cbn [rbind] in HR.
  apply rbind_ok in HR as (h & HH & HR). apply rbind_ok in HR as (g & HG & HR). apply rbind_ok in HR as (a & HA & HR).
  apply ok_inj in HR as <-. cbn [ar_gen ar_arrays ar_version] in *.
  destruct (site_tables g t HT) as (sa & sd & E1 & _).
  destruct (array_tables g t HT) as (aa & ad & u & E3 & E4 & E5 & _).
  pose proof (site_facts_ok g t sa u HT E1 E5) as HSF.
  unfold array_read_file in HA. rewrite E3, E4, E5 in HA. cbn [rbind] in HA. apply rbind_ok in HA as (a0 & A0 & HA). apply rbind_ok in HA as (a1 & A1 & HA).
  apply rbind_ok in HA as ([] & CK & HA). apply ok_inj in HA. subst a1.
  pose proof HL as (N1 & N2 & N3 & _). destruct (arrays_read f a0 A0 N1 N2 N3) as (ND0 & _).
  assert (ND : NoDup (keys a)).
  { unfold ppo_array_fix in A1. destruct (dict_get a0 s_ppo); [|apply ok_inj in A1; now subst]. destruct (bshape b) as [[l|]|]; [|apply ok_inj in A1; now subst|discriminate].
    destruct l as [|[|[|[|?]]] [|? ?]]; try (apply ok_inj in A1; now subst). apply rbind_ok in A1 as (nv & _ & A1).
    destruct (bshape nv) as [[[|d l]|]|]; try discriminate. apply ok_inj in A1 as <-. now apply dict_set_nodup. }
  apply (arrays_ok_check g t a HT ND) in CK. assert (a = a0) by (now apply (arrays_unfixed g t sa u f a0 a)). subst a0.
  exact (raw_file_to_site av fs i o f t g c a h rs HT HIO HI HL A0 HH HG CK HCt HPh HRS HNE HNT HST HC HO).
Qed.
