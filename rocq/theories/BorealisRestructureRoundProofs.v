(** Proofs about restructuring a file to the other structure and back. *)
From Coq Require Import String ZArith List Bool Lia Permutation Sorted.
From Verif Require Import Base Utf8 BytesProofs DmapFileProofs DmapWriteProofs DmapWriteFacts SDarnChecks SDarnFormats BorealisTypes BorealisFormats BorealisChecks
  BorealisArrays BorealisTime BorealisFile BorealisRestructure BorealisSpec BorealisCatalogue BorealisShapes BorealisFileSpec BorealisRestructureSpec
  BorealisRestructureFileSpec BorealisCheckProofs BorealisCatalogueProofs BorealisNumpyProofs BorealisFillProofs BorealisRestructFacts BorealisToArrayProofs BorealisRestructProofs BorealisFileProofs
  BorealisRestructureProofs BorealisRestructureFileProofs BorealisRestructureToSiteProofs BorealisRestructureNamesSpec BorealisRestructureNamesProofs BorealisRestructureArrayFileProofs.
Import ListNotations.
Open Scope list_scope.
Open Scope Z_scope.

(** ** What array_write puts into a file *)

Lemma members_stored av attrs c : forall r f f', write_members av attrs c r f = (f', Ok tt) -> forall k i, In (k, i) (h_items f') ->
  In (k, i) (h_items f) \/ exists v d, In (k, v) r /\ i = HDset d [] /\ write_dset av c v = Ok d.
Proof.
  induction r as [|[k v] r IH]; intros f f' H k0 i HI; cbn [write_members] in H.
  - injection H as <-. now left.
  - destruct (str_mem k attrs).
    + destruct (write_attr v); [|discriminate]. destruct (IH _ _ H _ _ HI) as [X|(v' & d & X & Y)]; [now left|right].
      exists v', d. split; [now right|exact Y].
    + destruct (write_dset av c v) as [d|] eqn:W; [|discriminate]. destruct (negb (plain_name k)); [discriminate|].
      destruct (dict_get (h_items f) k) eqn:EG; [discriminate|]. destruct (IH _ _ H _ _ HI) as [X|(v' & d' & X & Y)].
      * cbn [h_items] in X. rewrite dict_set_fresh in X by (intros C; apply dict_get_none in EG; contradiction).
        apply in_app_or in X as [X|[X|[]]]; [now left|]. injection X as <- <-. right. exists v, d. split; [now left|now split].
      * right. exists v', d'. split; [now right|exact Y].
Qed.

Lemma stored_item av c v d : write_dset av c v = Ok d -> dset_kept v ->
  hd_item d <> None <-> exists s l, v = BArr BNpStr s l.
Proof.
  intros H K. revert H. destruct K as [ty s l HS HT|s l HS HL HF]; intros H.
  - assert (E : hd_item d = None).
    { destruct ty; cbn [write_dset] in H; try discriminate H; try (apply rbind_ok in H as ([] & _ & H); apply ok_inj in H; now subst d).
      destruct HT as [HT|HT]; [destruct HT|discriminate HT]. }
    split; [rewrite E; congruence|]. intros (s' & l' & [= -> -> ->]). destruct HT as [HT|HT]; [destruct HT|discriminate HT].
  - split; [eauto|]. intros _. cbn in H. destruct s; [congruence|]. apply rbind_ok in H as ([] & _ & H). apply ok_inj in H. subst d. discriminate.
Qed.

(** The datasets of texts are the fields of texts. *)
Definition texts_fact (F : format) : bool :=
  forallb (fun p => Bool.eqb (btype_eqb (array_type (snd p)) BNpStr)
    (existsb (fun q => str_eqb (fst q) (fst p) && match snd q with BStr | BNpStr => true | _ => false end) (fm_array F ++ fm_single F)))
    (array_dsets F).
Lemma all_texts g t : has_structures t -> texts_fact (format_class g t) = true.
Proof. unfold has_structures. destruct t; [| | |congruence]; intros _; destruct g; vm_compute; reflexivity. Qed.
Lemma text_dset g t k ty : has_structures t -> array_dset (format_class g t) k ty -> array_type ty = BNpStr <-> text_name (format_class g t) k.
Proof.
  intros HT HD. pose proof (all_texts g t HT) as HA. unfold texts_fact in HA. rewrite forallb_forall in HA.
  apply in_array_dsets in HD. apply HA in HD. cbn [fst snd] in HD. apply eqb_prop in HD. rewrite <- btype_eqb_eq, HD, existsb_exists. unfold text_name. split.
  - intros ([k' t'] & HI & H). cbn [fst snd] in H. apply andb_true_iff in H as [H1 H2]. apply str_eqb_eq in H1. subst k'.
    exists t'. split; [now apply in_app_or|]. destruct t'; try discriminate; auto.
  - intros (t' & HI & H). exists (k, t'). split; [now apply in_or_app|]. cbn [fst snd]. rewrite str_eqb_refl. destruct H as [-> | ->]; reflexivity.
Qed.

Lemma array_written av fs name t g a c h v :
  has_structures t -> NoDup (keys a) -> arrays_ok (format_class g t) a -> storable_arrays (format_class g t) a ->
  dict_get a (str "borealis_git_hash") = Some (BText h) -> hash_version h v -> supported v g ->
  (forall k ty w, array_dset (format_class g t) k ty -> In (k, w) a ->
    names_of_dims k \/ exists s l, w = BArr (array_type ty) s l) ->
  can_compress av c -> fs name = None ->
  exists f a0, array_write av fs name (DArrays a) (type_name t) c = (h5_close fs name f, Ok tt) /\
    array_hash f = Ok h /\ read_arrays f = Ok a0 /\ Permutation a0 a /\ array_layout (format_class g t) f.
Proof.
  intros HT HN HO HS HH HVer HV HTy HC HNone.
  destruct (array_tables g t HT) as (aa & ad & u & E1 & E2 & E3 & Na & Nd & Dj & HA & HD & HU & HUS & HUN).
  pose proof (format_facts g t HT) as HF. pose proof (array_value_kept g t aa a HT HA HO HS) as HVK.
  pose proof (fun k => array_field_plain g t aa k HT HA) as HPl.
  pose proof (proj2 (arrays_ok_check g t a HT HN) HO) as HCK.
  pose proof (fun k ty => text_dset g t k ty HT) as HTX.
  set (F := format_class g t) in *.
  assert (HM : str_mem s_hash (keys aa) = true).
  { destruct (f_hash_array F HF) as (ty & HH'). apply str_mem_In, keys_in. exists ty. now apply HA. }
  fold s_hash in HH.
  destruct (write_members_ok av (keys aa) c a (mk_hfile [] []) HC HVK HN) as (its & als & W & W1 & W2).
  { intros k Hk. apply HPl. now apply HO. }
  { intros k _; split; intros []. }
  pose proof (members_stored _ _ _ _ _ _ W) as MS.
  cbn [h_items h_attrs app] in W, MS. set (f' := mk_hfile its als) in *.
  set (dpart := filter (fun p => negb (str_mem (fst p) (keys aa))) a) in *.
  set (apart := filter (fun p => str_mem (fst p) (keys aa)) a) in *.
  pose proof (rel_keys _ _ _ W1) as KI. pose proof (rel_keys _ _ _ W2) as KA.
  assert (NDd : NoDup (keys dpart)) by now apply filter_keys_nodup.
  assert (NDa : NoDup (keys apart)) by now apply filter_keys_nodup.
  assert (DJ : forall k, In k (keys dpart) -> ~ In k (keys apart)).
  { intros k K1 K2. apply keys_in in K1 as (v1 & K1), K2 as (v2 & K2). apply filter_In in K1 as [_ K1], K2 as [_ K2].
    cbn [fst] in K1, K2. rewrite K2 in K1. discriminate. }
  assert (HSH : array_hash f' = Ok h).
  { unfold array_hash. cbn [h_attrs f']. rewrite <- (filter_get (fun k => str_mem k (keys aa)) a s_hash HM) in HH.
    destruct (rel_get _ _ _ _ _ W2 HH) as (x & A1 & A2 & A3). rewrite A1. apply hash_attr; assumption. }
  pose proof (sort_rel _ _ _ W1) as W1'.
  assert (RDS : mapM (fun p => rlet v := match snd p with HGroup _ _ => Raise TypeError | HDset d _ => read_dset d end in Ok (fst p, v))
                  (sort_dict its) = Ok (sort_dict dpart)).
  { apply (rel_mapM (fun i => match i with HGroup _ _ => Raise TypeError | HDset d _ => read_dset d end)).
    eapply BorealisFileProofs.Forall2_impl; [|exact W1']. intros p q [X1 (d & X2 & X3)]. split; [exact X1|]. now rewrite X2. }
  assert (RAS : read_attrs als = Ok apart).
  { apply read_attrs_ok; [exact W2|]. intros k Hk. apply filter_keys_in in Hk. apply (f_array_hidden F HF). now apply HO. }
  assert (RA : exists a0, read_arrays f' = Ok a0 /\ Permutation a0 a).
  { unfold read_arrays. cbn [h_items h_attrs f']. rewrite RDS. cbn [rbind]. rewrite RAS. cbn [rbind]. eexists. split; [reflexivity|].
    rewrite (update_fresh (sort_dict dpart) []); [|eapply Permutation_NoDup; [symmetry; apply keys_perm, sort_perm|exact NDd]|intros k []]. cbn [app].
    rewrite update_fresh.
    - rewrite sort_perm. apply filter_split.
    - exact NDa.
    - intros k K1 K2. apply (Permutation_in _ (keys_perm _ _ (sort_perm dpart))) in K1. exact (DJ k K1 K2). }
  destruct RA as (a0 & RA & RP). exists f', a0. splits; auto.
  - unfold array_write. rewrite type_name_of. cbn [arrays_hash]. rewrite HH. cbn [text_of rbind].
    rewrite (proj2 (version_iff h v) HVer). unfold generation_of. rewrite (proj1 (supported_gen v g) HV). cbn [rbind].
    fold F. rewrite HCK. cbn [rbind]. unfold write_arrays. fold F. rewrite E1, E2, E3. unfold h5_append. rewrite HNone.
    fold (keys aa). now rewrite W.
  - pose proof HO as (O1 & O2 & O3 & _). split; [cbn [h_items f']; now rewrite KI|]. split; [cbn [h_attrs f']; now rewrite KA|]. split; [|split].
    + cbn [h_items h_attrs f']. rewrite KI, KA. exact DJ.
    + intros k ty Hk. cbn [h_attrs f']. rewrite KA. assert (K : In k (keys a)) by (apply O1; exists ty; now left).
      apply keys_in in K as (w & K). apply keys_in. exists w. apply filter_In. split; [exact K|]. cbn [fst]. apply str_mem_In, keys_in. exists ty. now apply HA.
    + intros k ty Hk. assert (K : In k (keys a)) by (apply O1; exists ty; now right). apply keys_in in K as (w & K).
      assert (NA : str_mem k (keys aa) = false).
      { destruct (str_mem k (keys aa)) eqn:E; [|reflexivity]. apply str_mem_In in E. exfalso. apply (Dj k E). apply keys_in. exists ty. now apply HD. }
      assert (IK : In k (keys its)).
      { rewrite KI. apply keys_in. exists w. apply filter_In. split; [exact K|]. cbn [fst]. now rewrite NA. }
      apply keys_in in IK as (i & IK). destruct (MS _ _ IK) as [[]|(v' & d & X1 & -> & X3)].
      assert (v' = w) by (apply (dict_in_get _ _ _ HN) in X1, K; congruence). subst v'.
      exists d, []. split; [exact IK|]. destruct (HTy k ty w Hk K) as [HX|(s0 & l0 & ->)]; [now left|right].
      rewrite (stored_item av c _ d X3) by (apply (proj2 HS k _ ty); auto). rewrite <- (HTX k ty Hk). split.
      * intros (s & l & E). congruence.
      * intros ->. eauto.
Qed.

(** ** The arrays of records *)

Section Arrays.
Variables (g : generation) (t : filetype) (z : sizes) (cs : list counts) (rs : brecords) (a : brecord).
Notation F := (format_class g t).
Hypothesis HT : has_structures t.
Hypothesis HC : consistent g t z cs rs.
Hypothesis HCA : common_arrays g t rs.
Hypothesis HA : arrays_of g t z cs rs a.

Lemma first_record : exists n r, In (n, r) rs.
Proof. destruct rs as [|[n r] l]; [exfalso; now apply (co_some _ _ _ _ _ HC)|]. exists n, r. now left. Qed.

Lemma many_not_str k ty ro : listed g t k Many ty ro -> array_type ty = ty.
Proof.
  intros (r & Hc & _ & Hk & Ht & _). assert (H : forallb (fun r => match fr_kind r with
    | Many => btype_eqb (array_type (fr_type r g)) (fr_type r g) | One => true end) catalogue = true) by (destruct g; vm_compute; reflexivity).
  rewrite forallb_forall in H. apply H in Hc. rewrite Hk, Ht in Hc. now apply btype_eqb_eq.
Qed.

Lemma arrays_typed k ty w : array_dset F k ty -> In (k, w) a -> names_of_dims k \/ exists s l, w = BArr (array_type ty) s l.
Proof.
  destruct (spec_tables g t HT) as (_ & _ & _ & S4 & _). intros HD HI. pose proof HD as HD'.
  assert (GV : dict_get a k = Some w) by (apply dict_get_nodup; [apply (ao_nodup _ _ _ _ _ _ HA)|assumption]).
  destruct first_record as (n0 & r0 & H0). apply S4 in HD as [(ro & L & N)|(ro & L & N)]; destruct ro; try congruence.
  - rewrite (many_not_str _ _ _ L). destruct (HCA k ty n0 r0 L H0) as (s & l & E).
    rewrite (ao_common _ _ _ _ _ _ HA k n0 r0), E in GV; [|now exists Many, ty|assumption]. injection GV as <-. right. eauto.
  - rewrite (many_not_str _ _ _ L). right. destruct (str_eqb k (str "pulse_phase_offset")) eqn:EP.
    + apply str_eqb_eq in EP. subst k. destruct (ao_ppo _ _ _ _ _ _ HA) as (ms & data & E & _); [now exists Many, ty|].
      rewrite E in GV. injection GV as <-. destruct (f_ppo_array F (format_facts g t HT) ty HD') as [-> _]. eauto.
    + apply str_eqb_neq in EP. destruct (ao_many _ _ _ _ _ _ HA k ty L EP) as (data & E & _). rewrite E in GV. injection GV as <-. eauto.
  - left. destruct (made_cases g t _ _ _ _ HT L) as (-> & _). unfold names_of_dims, names_field. destruct t, g; auto.
  - destruct (made_cases g t _ _ _ _ HT L) as (C & _). discriminate.
  - right. destruct (ao_one _ _ _ _ _ _ HA k ty L) as (data & E & _). rewrite E in GV. injection GV as <-. eauto.
  - destruct (made_cases g t _ _ _ _ HT L) as (_ & C & _). discriminate.
  - right. destruct (made_cases g t _ _ _ _ HT L) as (_ & -> & [-> |[-> NG]]).
    + rewrite (ao_beams _ _ _ _ _ _ HA) in GV. injection GV as <-. cbn [array_type]. eauto.
    + rewrite (ao_blanked _ _ _ _ _ _ HA NG) in GV. injection GV as <-. cbn [array_type]. eauto.
  - destruct (made_cases g t _ _ _ _ HT L) as (_ & C & _). discriminate.
Qed.

Lemma seq_listed : listed g t (str "num_sequences") One BI64 Varying.
Proof.
  assert (E : existsb (fun r => str_eqb (fr_name r) (str "num_sequences") && match fr_kind r with One => true | Many => false end &&
    btype_eqb (fr_type r g) BI64 && fr_in r t g && match fr_role r g with Varying => true | _ => false end) catalogue = true).
  { revert HT. unfold has_structures. destruct t; [| | |congruence]; intros _; destruct g; vm_compute; reflexivity. }
  apply existsb_exists in E as (r & Hc & E). rewrite !andb_true_iff in E. destruct E as ((((E1 & E2) & E3) & E4) & E5).
  exists r. apply str_eqb_eq in E1. apply btype_eqb_eq in E3. destruct (fr_kind r), (fr_role r g); try discriminate. splits; auto.
Qed.

Lemma seqs_of : exists data, dict_get a (str "num_sequences") = Some (BArr BI64 [length rs] data) /\ forall x, In x data -> exists c, In c cs /\ x = CZ (Z.of_nat (c_seq c)).
Proof.
  destruct (ao_one _ _ _ _ _ _ HA _ _ seq_listed) as (data & E & E2). exists data. split; [exact E|].
  intros x Hx. destruct (forall2_in _ _ _ _ E2 Hx) as ([n r] & Hp & Ep).
  destruct (forall2_in_r _ _ _ _ (co_records _ _ _ _ _ HC) Hp) as (c & Hc & HF). exists c. split; [exact Hc|].
  cbn [snd] in *. pose proof (rf_seq _ _ _ _ _ HF) as S. rewrite S in Ep. destruct x; cbn [plain_value] in Ep; congruence.
Qed.

Lemma counts_positive : counts_not_negative a.
Proof.
  intros k ty s l x HK HG HI. destruct HK as [<-|[<-|[<-|[]]]].
  - destruct seqs_of as (data & E & E2). rewrite E in HG. injection HG as <- <- <-. destruct (E2 _ HI) as (c & _ & [= ->]). lia.
  - rewrite (ao_beams _ _ _ _ _ _ HA) in HG. injection HG as <- <- <-. apply in_map_iff in HI as (c & [= <-] & _). lia.
  - assert (G4N : g <> G4).
    { intros ->. assert (K : In (str "num_blanked_samples") (keys a)) by (apply keys_in; eexists; apply dict_get_In, HG).
      apply (ao_fields _ _ _ _ _ _ HA) in K as (ro & (kd & ty' & (r & Hc & Hn & _ & _ & Hi & _)) & _).
      assert (E : forallb (fun r => negb (str_eqb (fr_name r) (str "num_blanked_samples") && fr_in r t G4)) catalogue = true).
      { clear. destruct t; vm_compute; reflexivity. }
      rewrite forallb_forall in E. apply E in Hc. rewrite Hn, Hi, str_eqb_refl in Hc. discriminate. }
    rewrite (ao_blanked _ _ _ _ _ _ HA G4N) in HG. injection HG as <- <- <-. apply in_map_iff in HI as (c & [= <-] & _). lia.
Qed.

Lemma same_length : length cs = length rs.
Proof. exact (forall2_length _ _ _ (co_records _ _ _ _ _ HC)). Qed.

Lemma phases_of : role_of g t (str "pulse_phase_offset") Varying -> phases_enough a.
Proof.
  intros HR ty s l ty' s' l' x HG HS HI. destruct seqs_of as (data & E & E2). rewrite E in HS. injection HS as <- <- <-.
  destruct (E2 _ HI) as (c & Hc & [= ->]). clear E E2 HI data.
  destruct (ao_ppo _ _ _ _ _ _ HA HR) as (ms & dat & A1 & _ & A3). rewrite A1 in HG. injection HG as <- <- <-.
  destruct (co_ppo _ _ _ _ _ HC HR) as (f & F1 & F2).
  destruct (forall2_in _ _ _ _ F2 Hc) as ([n r] & Hp & (d & D1 & _)). cbn [snd] in D1.
  apply In_nth_error in Hp as (i & Hp). destruct (A3 i n r Hp) as (s & b & B1 & B2 & _). rewrite D1 in B1. injection B1 as <- <-. subst ms.
  pose proof same_length as LL. assert (LP : (1 <= length rs)%nat) by (destruct rs; [exfalso; now apply (co_some _ _ _ _ _ HC)|cbn [length]; lia]).
  destruct F1 as [|p P1 P2|q Q1]; cbn [ppo_greatest size fold_right].
  - left. eauto.
  - right. specialize (P2 c Hc). rewrite <- LL. nia.
  - right. assert (TD : (c_seq c <= top_dim z cs DSeq)%nat).
    { unfold top_dim. apply list_max_ge. apply in_map_iff. now exists c. }
    set (T := top_dim z cs DSeq) in *. clearbody T. assert (c_seq c <= length rs * (T * (q * 1)))%nat; [|lia].
    assert (T <= T * (q * 1))%nat by nia. nia.
Qed.

Lemma times_of n : length rs = n -> number_of_times a n.
Proof.
  intros <-. assert (L : listed g t (str "sqn_timestamps") Many BF64 Varying).
  { assert (E : existsb (fun r => str_eqb (fr_name r) (str "sqn_timestamps") && match fr_kind r with Many => true | One => false end &&
      btype_eqb (fr_type r g) BF64 && fr_in r t g && match fr_role r g with Varying => true | _ => false end) catalogue = true).
    { revert HT. unfold has_structures. destruct t; [| | |congruence]; intros _; destruct g; vm_compute; reflexivity. }
    apply existsb_exists in E as (r & Hc & E). rewrite !andb_true_iff in E. destruct E as ((((E1 & E2) & E3) & E4) & E5).
    exists r. apply str_eqb_eq in E1. apply btype_eqb_eq in E3. destruct (fr_kind r), (fr_role r g); try discriminate. splits; auto. }
  destruct (ao_many _ _ _ _ _ _ HA _ _ L) as (data & E & _); [intros C; vm_compute in C; discriminate C|]. eexists _, _, _. exact E.
Qed.
End Arrays.

(** ** Only the values of the arrays matter *)

Lemma mapM_ext_in {A B} (h h' : A -> res B) l : (forall x, In x l -> h x = h' x) -> mapM h l = mapM h' l.
Proof.
  induction l as [|x l IH]; intros H; cbn [mapM]; [reflexivity|]. rewrite (H x) by (now left).
  rewrite IH by (intros y Hy; apply H; now right). reflexivity.
Qed.

Section Same.
Variables (F : format) (a a' : brecord).
Hypothesis HE : forall k, dict_get a' k = dict_get a k.

Lemma item_ext k : dict_item a' k = dict_item a k.
Proof. unfold dict_item. now rewrite HE. Qed.
Lemma sdim_ext rec d : sdim_eval a' rec d = sdim_eval a rec d.
Proof. destruct d; cbn [sdim_eval]; rewrite ?item_ext; reflexivity. Qed.
Lemma sdims_ext rec l : mapM (sdim_eval a' rec) l = mapM (sdim_eval a rec) l.
Proof. apply mapM_ext_in. intros x _. apply sdim_ext. Qed.
Lemma record_ext rec : site_record F a' rec = site_record F a rec.
Proof.
  unfold site_record.
  rewrite (mapM_ext_in (fun f => rlet v := dict_item a' f in Ok (f, v)) (fun f => rlet v := dict_item a f in Ok (f, v))) by (intros k _; now rewrite item_ext).
  rewrite (mapM_ext_in (fun p => rlet v := sgen_eval a' rec (snd p) in Ok (fst p, v)) (fun p => rlet v := sgen_eval a rec (snd p) in Ok (fst p, v))).
  2:{ intros [k [ty l|l]] _; cbn [snd sgen_eval]; [reflexivity|now rewrite sdims_ext]. }
  destruct (mapM _ (fm_shared F)); [|reflexivity]. cbn [rbind]. destruct (mapM _ (fm_site_gen F)); [|reflexivity]. cbn [rbind].
  destruct (unshared_fields F) as [u|]; [|reflexivity]. cbn [rbind].
  rewrite (mapM_ext_in (fun f => rlet v := site_item F a' rec f in Ok (f, v)) (fun f => rlet v := site_item F a rec f in Ok (f, v))); [reflexivity|].
  intros k _. unfold site_item. destruct (dict_get (fm_single F) k); [now rewrite item_ext|].
  destruct (dict_item (fm_array F) k); [|reflexivity]. cbn [rbind]. destruct (dict_item (fm_dims_site F) k); [|reflexivity]. cbn [rbind].
  now rewrite sdims_ext, item_ext.
Qed.
Lemma loop_ext name : forall times rec out, site_loop name F a' times rec out = site_loop name F a times rec out.
Proof.
  induction times as [|row times IH]; intros rec out; cbn [site_loop]; [reflexivity|]. destruct row as [|[b| |] tl]; try reflexivity.
  rewrite record_ext. destruct (name b); [|reflexivity]. cbn [rbind]. destruct (site_record F a rec); [|reflexivity]. cbn [rbind]. apply IH.
Qed.
Lemma to_site_ext name : array_to_site name F a' = array_to_site name F a.
Proof.
  unfold array_to_site. destruct (negb _); [reflexivity|]. rewrite item_ext. destruct (dict_item a _) as [v|]; [|reflexivity]. cbn [rbind].
  destruct v as [| |ty [|[|n] [|w [|? ?]]] data| |]; try reflexivity; destruct (negb (time_type ty)); try reflexivity; now rewrite loop_ext.
Qed.
End Same.

Lemma records_ext g t a a' : (forall k, dict_get a' k = dict_get a k) -> array_records g t a' = array_records g t a.
Proof. intros H. unfold array_records. cbv zeta. now rewrite (to_site_ext (format_class g t) a a' H). Qed.

(** ** The records of the second file *)

Lemma dim_names_kept t : Forall text_cell (map CS (dim_names t)).
Proof. destruct t; cbn; repeat constructor; eexists; (split; [reflexivity|]; split; [repeat constructor; lia|cbn; lia]). Qed.

Lemma came_storable g t r r' : has_structures t -> came_back g t r r' -> storable (format_class g t) r -> storable (format_class g t) r'.
Proof.
  intros HT ((SA & SB) & ND & _) [S1 S2]. destruct (spec_tables g t HT) as (P1 & P2 & _). destruct (tables g t HT) as (dims & TF).
  assert (LN : exists ty, listed g t (names_field g t) Many ty MadeBoth).
  { destruct (catalogue_lists g t HT) as (_ & _ & _ & _ & _ & _ & H7).
    pose proof (tf_names _ _ _ TF) as X. apply H7 in X as [(kd & ty & L)|(kd & ty & L)]; pose proof L as L'; apply (made_cases g t) in L; try assumption.
    - destruct L as (C & _). exfalso. apply (tf_differ _ _ _ TF). assumption.
    - destruct L as (_ & -> & _). eauto. }
  destruct LN as (tn & LN). split.
  - intros k w ty HI HK. assert (GW : dict_get r' k = Some w) by now apply dict_get_nodup.
    assert (NK : k <> names_field g t).
    { intros ->. apply P1 in HK as (ro & L & _). destruct (listed_unique _ _ _ _ _ _ _ _ _ L LN) as [C _]. discriminate C. }
    apply (S1 k w ty); [|exact HK]. apply dict_get_In. now rewrite <- SA.
  - intros k w ty HI HK. assert (GW : dict_get r' k = Some w) by now apply dict_get_nodup.
    destruct (str_eqb k (names_field g t)) eqn:EK.
    + apply str_eqb_eq in EK. subst k. rewrite SB in GW. injection GW as <-. unfold names_value, names_type.
      assert (KB : dset_kept (BArr BBytes [length (dim_names t)] (map CS (dim_names t)))) by (constructor; [discriminate|now right]).
      assert (KT : dset_kept (BArr BNpStr [length (dim_names t)] (map CS (dim_names t)))).
      { constructor; [discriminate| |apply dim_names_kept]. rewrite map_length. cbn. lia. }
      destruct g; try exact KT. destruct t; first [exact KB|exact KT].
    + apply str_eqb_neq in EK. apply (S2 k w ty); [|exact HK]. apply dict_get_In. now rewrite <- SA.
Qed.

Lemma sorted_keys : forall a b : list pystr, StronglySorted str_lt a -> StronglySorted str_lt b -> (forall k, In k a <-> In k b) -> a = b.
Proof.
  induction a as [|x a IH]; intros b HA HB HE.
  - destruct b as [|y b]; [reflexivity|]. exfalso. apply (proj2 (HE y)). now left.
  - destruct b as [|y b]; [exfalso; apply (proj1 (HE x)); now left|].
    inversion HA as [|? ? A1 A2]; subst. inversion HB as [|? ? B1 B2]; subst. rewrite Forall_forall in A2, B2.
    assert (E : x = y).
    { destruct (proj1 (HE x) (or_introl eq_refl)) as [E|E]; [congruence|]. destruct (proj2 (HE y) (or_introl eq_refl)) as [E'|E']; [congruence|].
      exfalso. apply (str_lt_irr x). eapply str_lt_trans; [apply A2, E'|apply B2, E]. }
    subst y. f_equal. apply IH; auto. intros k. split; intros K.
    + destruct (proj1 (HE k) (or_intror K)) as [<-|E]; [|exact E]. exfalso. exact (str_lt_irr _ (A2 _ K)).
    + destruct (proj2 (HE k) (or_intror K)) as [<-|E]; [|exact E]. exfalso. exact (str_lt_irr _ (B2 _ K)).
Qed.

(** The fix of the phase offsets does not see the names of the dimensions. *)
Lemma back_same g t r r' x x' : has_structures t -> same_record g t r r' -> record_back r x -> record_back r' x' -> same_record g t x x'.
Proof.
  intros HT [S1 S2] [A1 A2] [B1 B2].
  assert (NP : names_field g t <> str "pulse_phase_offset") by (intros C; destruct t, g; vm_compute in C; discriminate C).
  assert (NU : str "pulses" <> names_field g t) by (intros C; destruct t, g; vm_compute in C; discriminate C).
  split; [|now rewrite B1].
  intros k Hk. destruct (str_eqb k (str "pulse_phase_offset")) eqn:EK.
  - apply str_eqb_eq in EK. subst k. rewrite (S1 _ (not_eq_sym NP)), (S1 _ NU) in B2.
    destruct (dict_get r (str "pulse_phase_offset")) as [v|]; [|congruence].
    destruct A2 as (p & s & sp & P1 & P2 & P3 & P4 & P5). destruct B2 as (p' & s' & sp' & Q1 & Q2 & Q3 & Q4 & Q5).
    assert (p' = p) by congruence. subst p'. rewrite (shape_unique _ _ _ Q2 P2), (shape_unique _ _ _ Q3 P3) in *.
    assert (D : {s = sp} + {s <> sp}) by apply (list_eq_dec Nat.eq_dec).
    destruct D as [D|D]; [rewrite (P4 D), (Q4 D)|rewrite (P5 D), (Q5 D)]; reflexivity.
  - apply str_eqb_neq in EK. rewrite A1, B1 by exact EK. now apply S1.
Qed.

Lemma backs_same g t rs rs' x x' : has_structures t -> NoDup (keys rs) -> keys rs' = keys rs ->
  Forall2 (fun p p' : pystr * brecord => came_back g t (snd p) (snd p')) rs rs' ->
  records_back rs x -> records_back rs' x' -> Forall2 (same_key (same_record g t)) x x'.
Proof.
  intros HT ND EK HF (A1 & A2 & A3) (B1 & B2 & B3).
  assert (E : keys x = keys x').
  { apply sorted_keys; auto. intros k. rewrite A2, B2, EK. reflexivity. }
  assert (LL : length x = length x') by (apply (f_equal (@length _)) in E; unfold keys in E; now rewrite !map_length in E).
  apply forall2_from_nth; [exact LL|]. intros j [n q] Hj.
  assert (Hn : nth_error (keys x) j = Some n) by (unfold keys; now rewrite nth_error_map, Hj).
  rewrite E in Hn. unfold keys in Hn. rewrite nth_error_map in Hn. destruct (nth_error x' j) as [[n' q']|] eqn:Hj'; [|discriminate].
  cbn in Hn. injection Hn as ->. exists (n, q'). split; [reflexivity|]. split; [reflexivity|]. cbn [snd].
  apply nth_error_In in Hj, Hj'. assert (IN : In n (keys rs)) by (apply A2, keys_in; eauto). apply keys_in in IN as (r & IN).
  apply In_nth_error in IN as (m & IM). destruct (forall2_nth _ _ _ _ _ HF IM) as ([n2 r'] & M1 & M2). cbn [snd] in M2.
  assert (n2 = n).
  { assert (X : nth_error (keys rs) m = Some n) by (unfold keys; now rewrite nth_error_map, IM).
    rewrite <- EK in X. unfold keys in X. rewrite nth_error_map, M1 in X. cbn in X. congruence. }
  subst n2. apply nth_error_In in IM, M1. destruct M2 as [M2 _].
  exact (back_same g t r r' q q' HT M2 (A3 _ _ _ IM Hj) (B3 _ _ _ M1 Hj')).
Qed.

(** What the reader gives of a file whose records are known. *)
Lemma site_file_read fs i f t g rs h v : has_structures t -> holds fs i f -> read_records f = Ok rs -> proper rs ->
  (forall n r, In (n, r) rs -> BorealisSpec.site_record_ok (format_class g t) r /\ storable (format_class g t) r) ->
  site_hash f = Ok h -> hash_version h v -> supported v g ->
  exists sr, site_read fs i (type_name t) = Ok sr /\ sr_version sr = v /\ sr_gen sr = g /\ sr_type sr = t /\ records_back rs (sr_records sr).
Proof.
  intros HT HF HR HP HOK HH HV HS.
  destruct (site_tables g t HT) as (sa & sd & E1 & E2 & _). pose proof (format_facts g t HT) as FF.
  destruct (rel_step ppo_site_fix_record eq (fun r' q => record_back q r' /\ BorealisSpec.site_record_ok (format_class g t) r' /\ NoDup (keys r')) rs rs) as (rs' & P1 & P2).
  { clear. induction rs as [|p rs IH]; constructor; [now split|exact IH]. }
  { intros n y x Hy ->. destruct (HOK n y Hy) as [O S]. destruct (fix_storable _ y FF (proj2 HP _ _ Hy) O S) as (x & X1 & X2 & X3 & X4 & _). eauto. }
  pose proof (rel_keys _ _ _ P2) as KE.
  assert (HBR : forall m q', In (m, q') rs' -> exists q, In (m, q) rs /\ record_back q q' /\ BorealisSpec.site_record_ok (format_class g t) q' /\ NoDup (keys q')).
  { intros m q' H. destruct (forall2_in _ _ _ _ P2 H) as ([n q] & Hq & X1 & X2). cbn [fst snd] in *. subst n. eauto. }
  assert (HP' : proper rs').
  { split; [rewrite KE; exact (proj1 HP)|]. intros m q' H. destruct (HBR m q' H) as (? & _ & _ & _ & ?). auto. }
  assert (CK : check_site_records (format_class g t) rs' = Ok tt).
  { apply site_check_iff; auto. intros m q' H. destruct (HBR m q' H) as (? & _ & _ & ? & _). auto. }
  exists (mk_site_reader v g t (sort_dict rs')). splits; auto.
  - unfold site_read. rewrite type_name_of. unfold h5_open. unfold holds in HF. rewrite HF. cbn [rbind]. rewrite HH. cbn [rbind].
    rewrite (proj2 (version_iff h v) HV). unfold generation_of. rewrite (proj1 (supported_gen v g) HS). cbn [rbind].
    unfold site_read_file. rewrite E1, E2. cbn [rbind]. rewrite HR. cbn [rbind]. rewrite ppo_site_fix_mapM, P1. cbn [rbind]. rewrite CK. reflexivity.
  - cbn [sr_records]. split; [apply sort_sorted, HP'|]. split.
    + intros m. rewrite <- KE. split; apply Permutation_in; [|symmetry]; apply keys_perm, sort_perm.
    + intros m q q' H1 H2. apply (Permutation_in _ (sort_perm rs')) in H2. destruct (HBR m q' H2) as (q2 & Q1 & Q2 & _).
      apply (dict_in_get rs m q (proj1 HP)) in H1. apply (dict_in_get rs m q2 (proj1 HP)) in Q1. congruence.
Qed.

Theorem site_file_round av fs i o p f t g z cs rs c c' v :
  has_structures t -> i <> o -> o <> p -> holds fs i f -> site_layout (format_class g t) f -> read_records f = Ok rs ->
  (forall n r, In (n, r) rs -> BorealisSpec.site_record_ok (format_class g t) r /\ storable (format_class g t) r) ->
  consistent g t z cs rs -> common_arrays g t rs -> records_version rs v -> supported v g ->
  (t <> AntennasIq -> widest_first cs) ->
  (role_of g t (str "pulse_phase_offset") Varying -> forall n r, In (n, r) rs -> phases_of_pulses r) ->
  named_by record_name rs -> ~ (g = G7 /\ t = Bfiq) ->
  can_compress av c -> can_compress av c' -> fs o = None -> fs p = None ->
  exists fs1 fs2 sr sr', restructure av fs i o (type_name t) (str "array") c = (fs1, Ok tt) /\
    restructure av fs1 o p (type_name t) (str "site") c' = (fs2, Ok tt) /\
    only_file o fs fs1 /\ only_file p fs1 fs2 /\
    site_read fs i (type_name t) = Ok sr /\ site_read fs2 p (type_name t) = Ok sr' /\
    sr_version sr = v /\ sr_version sr' = v /\ sr_gen sr' = sr_gen sr /\ sr_type sr' = sr_type sr /\
    Forall2 (same_key (same_record g t)) (sr_records sr) (sr_records sr').
Proof.
  intros HT HIO HOP HF HL HRR HOK HC HCA HV HSup HW HPh HNm HNB HCc HCc' HO HPn.
  destruct (site_file_arrays av fs i o f t g z cs rs c v HT HIO HF HL HRR HOK HC HCA HV HSup HW HPh) as (a & h & W1 & A1 & A2 & PR & AO & ST & AH & V4 & SH).
  destruct (array_written av fs o t g a c h v HT (ao_nodup _ _ _ _ _ _ A2) AO ST AH V4 HSup) as (f1 & a0 & X1 & X2 & X3 & X4 & X5); auto.
  { exact (arrays_typed g t z cs rs a HT HC HCA A2). }
  apply W1 in X1.
  destruct (site_file_read fs i f t g rs h v HT HF HRR PR HOK SH V4 HSup) as (sr & R1 & R2 & R3 & R4 & R5).
  destruct (restructure_named g t z cs rs HT HC) as (a' & A1' & _ & A3). assert (a' = a) by congruence. subst a'.
  destruct (A3 record_name HNm) as (rs' & S1 & S2 & S3).
  assert (NE : rs <> []) by apply (co_some _ _ _ _ _ HC).
  assert (CK : check_site_records (format_class g t) rs' = Ok tt).
  { apply (sites_pass g t rs rs' HT PR); auto. apply (site_check_iff g t rs HT PR). intros n r Hr. exact (proj1 (HOK n r Hr)). }
  destruct (tables g t HT) as (dims & TF).
  assert (AR : array_records g t a = Ok rs').
  { unfold array_records. cbv zeta. rewrite (tf_restr _ _ _ TF), S1. cbn [rbind]. rewrite CK. reflexivity. }
  assert (GE : forall k, dict_get a0 k = dict_get a k).
  { intros k. apply perm_get; [exact (ao_nodup _ _ _ _ _ _ A2)|exact X4]. }
  assert (LL : length rs = length rs') by exact (forall2_length _ _ _ S3).
  destruct (raw_file_to_site av (h5_close fs o f1) o p f1 t g c' a0 h rs' HT HOP) as (fs2 & sr' & Y1 & Y2 & Y3 & Y4 & Y5 & Y6 & Y7 & Y8); auto.
  - unfold holds, h5_close. now rewrite str_eqb_refl.
  - rewrite (proj2 (version_iff h v) V4). unfold generation_of. now rewrite (proj1 (supported_gen v g) HSup).
  - exact (arrays_ok_perm _ _ _ X4 AO).
  - intros k ty s l zz Hk Hg. rewrite GE in Hg. exact (counts_positive g t z cs rs a HT HC HCA A2 k ty s l zz Hk Hg).
  - intros HR ty s l ty' s' l' zz H1 H2. rewrite GE in H1, H2. exact (phases_of g t z cs rs a HT HC HCA A2 HR ty s l ty' s' l' zz H1 H2).
  - now rewrite (records_ext g t a a0 GE).
  - intros ->. destruct rs; [now apply NE|discriminate].
  - destruct (times_of g t z cs rs a HT HC HCA A2 (length rs') LL) as (ty & ds & l & E). exists ty, ds, l. now rewrite GE.
  - intros n r' Hr. destruct (forall2_in_r _ _ _ _ S3 Hr) as ([m r] & Hm & CB). cbn [snd] in CB.
    apply (came_storable g t r r' HT CB). exact (proj2 (HOK m r Hm)).
  - unfold h5_close. destruct (str_eqb p o) eqn:E; [apply str_eqb_eq in E; congruence|exact HPn].
  - exists (h5_close fs o f1), fs2, sr, sr'. splits; auto; try congruence.
    + apply only_close.
    + rewrite Y5. apply version_iff. exact V4.
    + exact (backs_same g t rs rs' _ _ HT (proj1 PR) S2 S3 R5 Y8).
Qed.

(** ** Bfiq files of version 0.7 *)

Lemma bfiq7_record sa f rec r : file_record (format_class G7 Bfiq) sa f rec = Ok r ->
  NoDup (keys r) /\ exists s l, dict_get r (str "data_descriptors") = Some (BArr BNpStr s l).
Proof.
  unfold file_record. intros H. apply rbind_ok in H as (sh & SH & H). apply rbind_ok in H as (sp & SP & H).
  apply rbind_ok in H as (fs & FS & H). apply rbind_ok in H as (un & UN & H). apply ok_inj in H as <-.
  split; [repeat apply dict_update_nodup; constructor|].
  destruct (mapM_entries _ _ _ UN) as [UN1 _].
  rewrite dict_update_get.
  - pose proof (mapM_keys (sgen_eval (root_arrays f) rec) _ _ SP) as K.
    assert (IK : In (str "data_descriptors") (keys sp)) by (rewrite K; left; reflexivity).
    eexists _, _. apply update_const; [|exact IK].
    intros w Hw. clear - SP Hw. apply mapM_inv in SP. destruct (forall2_in_r _ _ _ _ SP Hw) as ([k e] & H1 & H2). cbn [fst snd] in H2.
    apply rbind_ok in H2 as (w' & H2 & H3). apply ok_inj in H3. injection H3 as -> ->.
    destruct H1 as [H1|[H1|[]]]; [|exfalso; injection H1 as C _; vm_compute in C; discriminate C].
    injection H1 as <-. cbn [sgen_eval] in H2. apply ok_inj in H2. symmetry. exact H2.
  - fold (keys un). rewrite UN1. intros C. apply str_mem_In in C. revert C. clear - FS. vm_compute in FS. apply ok_inj in FS as <-. vm_compute. discriminate.
Qed.

Lemma bfiq7_check sa f row rec rs : site_single_element_types (format_class G7 Bfiq) = Ok sa ->
  site_record_of_file (format_class G7 Bfiq) sa f row rec <> Ok rs.
Proof.
  intros SA H. unfold site_record_of_file in H. destruct row as [|[b| |] tl]; try discriminate H.
  apply rbind_ok in H as (n & N & H). apply rbind_ok in H as (r & R & H). apply rbind_ok in H as (rs1 & F1 & H).
  apply rbind_ok in H as (rs2 & F2 & H). apply rbind_ok in H as ([] & CK & H). apply ok_inj in H as <-.
  destruct (bfiq7_record _ _ _ _ R) as (ND & s & l & E).
  apply flatten_flat in F1. destruct rs1 as [|[n1 r1] rs1]; inversion F1 as [|? ? ? ? [X1 X2] X3]; subst. inversion X3; subst. cbn [fst snd] in *. subst n1.
  assert (E1 : dict_get r1 (str "data_descriptors") = Some (BArr BNpStr s l)).
  { rewrite <- E. unfold flat in X2. destruct (fm_flat (format_class G7 Bfiq)) as [[df fs]|] eqn:EF; [|now subst].
    apply (flatten_get fs); [|exact X2]. intros C. apply str_mem_In in C. vm_compute in EF. first [discriminate EF|injection EF as <- <-; vm_compute in C; discriminate C]. }
  pose proof (flat_nodup _ _ _ X2 ND) as ND1.
  cbn [ppo_site_fix] in F2. apply rbind_ok in F2 as (x & FX & F2). cbn [rbind] in F2. apply ok_inj in F2 as <-.
  assert (E2 : NoDup (keys x) /\ dict_get x (str "data_descriptors") = Some (BArr BNpStr s l)).
  { unfold ppo_site_fix_record in FX. destruct (dict_get r1 s_ppo) as [v|]; [|apply ok_inj in FX as <-; split; assumption].
    destruct (bshape v) as [sv|]; [|discriminate]. apply rbind_ok in FX as (p & P & FX). destruct (bshape p) as [sp|]; [|discriminate].
    destruct (shape_eqb sv sp); [apply ok_inj in FX as <-; split; assumption|]. destruct sp as [sp|]; [|discriminate]. apply ok_inj in FX as <-. split.
    - apply dict_set_nodup. exact ND1.
    - rewrite dict_get_set. exact E1. }
  destruct E2 as [ND2 E2].
  assert (HT : has_structures Bfiq) by discriminate.
  assert (CK' : check_site_records (format_class G7 Bfiq) [(n, x)] = Ok tt).
  { apply check_single in CK. destruct (site_tables G7 Bfiq HT) as (sa' & sd & S1 & S2 & Na & Nd & Dj & HA & HD & HNE).
    assert (sa' = sa) by congruence. subst sa'. unfold check_site_records. rewrite SA. cbn [rbind]. rewrite S2. cbn [rbind].
    apply check_single. refine (check_perm sa _ sd x _ CK). apply NoDup_Permutation.
    - eapply NoDup_map_inv, (array_nodup G7 Bfiq HT).
    - now apply NoDup_map_inv in Nd.
    - intros [k ty]. symmetry. apply HD. }
  assert (PX : proper [(n, x)]).
  { split; [constructor; [intros []|constructor]|]. intros m q [Q|[]]. injection Q as <- <-. exact ND2. }
  destruct (proj1 (site_check_iff G7 Bfiq [(n, x)] HT PX) CK' n x (or_introl eq_refl)) as (_ & _ & K3). apply dict_get_In in E2.
  assert (D : site_dset (format_class G7 Bfiq) (str "data_descriptors") BBytes).
  { apply (@dict_get_In btype (fm_array (format_class G7 Bfiq))). vm_compute. reflexivity. }
  specialize (K3 _ _ _ E2 D). inversion K3.
Qed.

Theorem bfiq7_never av fs i o f c v n fs' r : i <> o -> holds fs i f -> NoDup (keys (h_items f)) -> array_file f ->
  has_version f v -> supported v G7 -> time_rows f (S n) ->
  restructure av fs i o (type_name Bfiq) (str "site") c = (fs', r) ->
  fs' = fs /\ (r = Raise BorealisRestructureError \/ r = Raise OutOfModel).
Proof.
  intros HO HF ND HA HV HG TR H. assert (HT : has_structures Bfiq) by discriminate.
  rewrite (restructure_start av fs i o f Bfiq (str "site") c v HT (or_introl eq_refl) HO HF ND HV) in H.
  apply supported_gen in HG. rewrite HG in H.
  assert (BS : borealis_structure (record_names f) = str "array") by (apply structure_iff; left; split; [reflexivity|exact HA]).
  rewrite BS in H. change (str_eqb (str "array") (str "site")) with false in H. change (str_eqb (str "site") (str "site")) with true in H. cbv iota in H.
  unfold array_to_site_file in H. destruct (site_types_ok G7 Bfiq HT) as (sa & SA). rewrite SA in H.
  destruct (timestamp_rows _ _ _) as [times|e] eqn:ET.
  - destruct (rows_of_times _ _ _ _ ND ET) as [_ R2]. specialize (R2 _ TR). destruct times as [|row times]; [discriminate R2|].
    cbn [site_file_loop] in H. destruct (site_record_of_file _ _ _ _ _) as [rs|e] eqn:ER; [exfalso; exact (bfiq7_check _ _ _ _ _ SA ER)|].
    injection H as <- <-. split; [reflexivity|]. destruct e; cbn; auto.
  - injection H as <- <-. split; [reflexivity|]. destruct e; cbn; auto.
Qed.
