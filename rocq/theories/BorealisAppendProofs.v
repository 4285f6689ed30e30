(** Proofs about writing to files that are there, and about files that cannot be
    read. *)
From Coq Require Import String ZArith List Bool Lia Permutation Sorted.
From Verif Require Import Base BytesProofs SDarnFormats BorealisTypes BorealisFormats BorealisChecks BorealisArrays
  BorealisFile BorealisSpec BorealisFileSpec BorealisAppendSpec BorealisCheckProofs BorealisFillProofs BorealisFileProofs BorealisRestructureProofs
  SDarnChecks DmapWriteProofs DmapFileProofs.
Import ListNotations.
Open Scope list_scope.
Open Scope Z_scope.

(** ** Members are kept *)

Definition keeps_attrs (attrs : list pystr) (f f' : hfile) : Prop :=
  forall k, ~ In k attrs -> dict_get (h_attrs f') k = dict_get (h_attrs f) k.

Lemma keeps_refl f : keeps f f.
Proof. intros n i H. exact H. Qed.
Lemma keeps_trans a b c : keeps a b -> keeps b c -> keeps a c.
Proof. intros H1 H2 n i H. now apply H2, H1. Qed.
Lemma keeps_set f n x at_ : dict_get (h_items f) n = None -> keeps f (mk_hfile (dict_set (h_items f) n x) at_).
Proof.
  intros HN m i H. cbn [h_items]. rewrite dict_get_set. destruct (str_eqb n m) eqn:E; [|exact H].
  apply str_eqb_eq in E. congruence.
Qed.

Lemma write_groups_keeps av attrs c rs : forall f, 
  keeps f (fst (write_groups av attrs c rs f)) /\ h_attrs (fst (write_groups av attrs c rs f)) = h_attrs f.
Proof.
  induction rs as [|[n r] rs IH]; intros f; cbn [write_groups]; [split; [apply keeps_refl|reflexivity]|].
  destruct (plain_name n); cbn [negb]; [|split; [apply keeps_refl|reflexivity]].
  destruct (dict_get (h_items f) n) eqn:E; [split; [apply keeps_refl|reflexivity]|].
  destruct (write_fields av attrs c r [] []) as [[gd ga] [[]|e]].
  - destruct (IH (mk_hfile (dict_set (h_items f) n (HGroup gd ga)) (h_attrs f))) as [I1 I2]. split; [|exact I2].
    eapply keeps_trans; [|exact I1]. now apply keeps_set.
  - split; [now apply keeps_set|reflexivity].
Qed.

Lemma write_members_keeps av attrs c a : forall f,
  keeps f (fst (write_members av attrs c a f)) /\ keeps_attrs attrs f (fst (write_members av attrs c a f)).
Proof.
  induction a as [|[k v] a IH]; intros f; cbn [write_members]; [split; [apply keeps_refl|intros ? _; reflexivity]|].
  destruct (str_mem k attrs) eqn:EM.
  - destruct (write_attr v) as [x|e]; [|split; [apply keeps_refl|intros ? _; reflexivity]].
    destruct (IH (mk_hfile (h_items f) (dict_set (h_attrs f) k x))) as [I1 I2]. split; [exact I1|].
    intros k' Hk'. rewrite (I2 k' Hk'). cbn [h_attrs]. rewrite dict_get_set. destruct (str_eqb k k') eqn:E; [|reflexivity].
    apply str_eqb_eq in E. subst k'. apply str_mem_In in EM. contradiction.
  - destruct (write_dset av c v) as [d|e]; [|split; [apply keeps_refl|intros ? _; reflexivity]].
    destruct (plain_name k); cbn [negb]; [|split; [apply keeps_refl|intros ? _; reflexivity]].
    destruct (dict_get (h_items f) k) eqn:E; [split; [apply keeps_refl|intros ? _; reflexivity]|].
    destruct (IH (mk_hfile (dict_set (h_items f) k (HDset d [])) (h_attrs f))) as [I1 I2]. split; [|exact I2].
    eapply keeps_trans; [|exact I1]. now apply keeps_set.
Qed.

Lemma file_kept_refl name fs : file_kept name fs fs.
Proof. split; [|auto]. intros f H. exists f. split; [exact H|apply keeps_refl]. Qed.
Lemma file_kept_trans name a b c : file_kept name a b -> file_kept name b c -> file_kept name a c.
Proof.
  intros [A1 A2] [B1 B2]. split; [|auto]. intros f H. destruct (A1 f H) as (f1 & F1 & K1).
  destruct (B1 f1 F1) as (f2 & F2 & K2). exists f2. split; [exact F2|]. eapply keeps_trans; eauto.
Qed.
Lemma holds_close fs name f : holds (h5_close fs name f) name f.
Proof. unfold holds, h5_close. now rewrite str_eqb_refl. Qed.

Lemma write_records_kept av F fs name rs c : file_kept name fs (fst (write_records av F fs name rs c)).
Proof.
  unfold write_records. destruct (site_single_element_types F) as [attrs|]; [|apply file_kept_refl].
  destruct (site_array_dtypes F); [|apply file_kept_refl]. unfold h5_append.
  destruct (fs name) as [[f0|]|] eqn:E; [|apply file_kept_refl|];
    pose proof (write_groups_keeps av (map fst attrs) c rs) as K; destruct (write_groups _ _ _ _ _) as [f' e] eqn:EW; cbn [fst];
    (split; [|congruence]); intros f H; unfold holds in H; rewrite E in H; [|discriminate].
  injection H as <-. exists f'. split; [apply holds_close|]. specialize (K f0). rewrite EW in K. exact (proj1 K).
Qed.
Lemma write_arrays_kept av F fs name a c : file_kept name fs (fst (write_arrays av F fs name a c)).
Proof.
  unfold write_arrays. destruct (array_single_element_types F) as [attrs|]; [|apply file_kept_refl].
  destruct (array_array_dtypes F); [|apply file_kept_refl]. destruct (unshared_fields F); [|apply file_kept_refl]. unfold h5_append.
  destruct (fs name) as [[f0|]|] eqn:E; [|apply file_kept_refl|];
    pose proof (write_members_keeps av (map fst attrs) c a) as K; destruct (write_members _ _ _ _ _) as [f' e] eqn:EW; cbn [fst];
    (split; [|congruence]); intros f H; unfold holds in H; rewrite E in H; [|discriminate].
  injection H as <-. exists f'. split; [apply holds_close|]. specialize (K f0). rewrite EW in K. exact (proj1 K).
Qed.

Lemma site_write_kept av fs name d ft c : let fs' := fst (site_write av fs name d ft c) in
  only_file name fs fs' /\ file_kept name fs fs'.
Proof.
  cbv zeta. unfold site_write. destruct (filetype_of ft) as [t|]; [|split; [apply only_refl|apply file_kept_refl]].
  match goal with |- context [match ?x with Ok _ => _ | Raise _ => _ end] => destruct x as [[g rs]|e] end;
    [|split; [apply only_refl|apply file_kept_refl]].
  split; [apply write_records_only|apply write_records_kept].
Qed.
Lemma array_write_kept av fs name d ft c : let fs' := fst (array_write av fs name d ft c) in
  only_file name fs fs' /\ file_kept name fs fs'.
Proof.
  cbv zeta. unfold array_write. destruct (filetype_of ft) as [t|]; [|split; [apply only_refl|apply file_kept_refl]].
  match goal with |- context [match ?x with Ok _ => _ | Raise _ => _ end] => destruct x as [[g rs]|e] end;
    [|split; [apply only_refl|apply file_kept_refl]].
  split; [apply write_arrays_only|apply write_arrays_kept].
Qed.

Lemma write_kept av fs name d ft s c fs' r : borealis_write av fs name d ft s c = (fs', r) ->
  only_file name fs fs' /\ file_kept name fs fs'.
Proof.
  pose proof (fun fs c => site_write_kept av fs name d ft c) as HS. pose proof (fun fs c => array_write_kept av fs name d ft c) as HA.
  cbv zeta in HS, HA. unfold borealis_write, return_writer. destruct s as [s|].
  - destruct (str_eqb s (str "site")).
    + specialize (HS fs (site_compression c)). destruct (site_write _ _ _ _ _ _) as [fs1 [[]|e]]; intros H; injection H as <- <-; exact HS.
    + destruct (str_eqb s (str "array")).
      * specialize (HA fs (array_compression c)). destruct (array_write _ _ _ _ _ _) as [fs1 [[]|e]]; intros H; injection H as <- <-; exact HA.
      * intros H. injection H as <- <-. split; [apply only_refl|apply file_kept_refl].
  - specialize (HA fs (array_compression c)). destruct (array_write _ _ _ _ _ _) as [fs1 [[]|e]]; cbn [fst] in HA.
    + intros H; injection H as <- <-; exact HA.
    + destruct (falls_back e); [|intros H; injection H as <- <-; exact HA].
      specialize (HS fs1 (site_compression c)). destruct (site_write _ _ _ _ _ _) as [fs2 [[]|e2]]; cbn [fst] in HS;
        intros H; injection H as <- <-; destruct HS, HA; (split; [eapply only_trans|eapply file_kept_trans]; eauto).
Qed.

(** ** Names that are taken *)

Lemma write_groups_clash av attrs c rs f : can_compress av c ->
  (forall n r, In (n, r) rs -> group_name n /\ NoDup (keys r) /\ forall p, In p r -> value_kept attrs p) ->
  (exists n, In n (keys rs) /\ In n (keys (h_items f))) ->
  snd (write_groups av attrs c rs f) = Raise ValueError.
Proof.
  intros HC. revert f. induction rs as [|[n r] rs IH]; intros f HK (m & M1 & M2); [destruct M1|].
  destruct (HK n r (or_introl eq_refl)) as (G & D & V). cbn [write_groups]. rewrite (plain_name_ok n G). cbn [negb].
  destruct (dict_get (h_items f) n) eqn:E; [reflexivity|].
  destruct (write_fields_ok av attrs c r [] [] HC V D) as (ds & als & W & _ & _); [intros; split; intros []|].
  rewrite W. cbn [app]. apply IH; [intros; apply HK; now right|].
  assert (NE : ~ In n (keys (h_items f))) by (now apply dict_get_none). destruct M1 as [<-|M1]; [contradiction|].
  exists m. split; [exact M1|]. cbn [h_items]. rewrite dict_set_fresh by exact NE. unfold keys. rewrite map_app. apply in_or_app. now left.
Qed.

Lemma site_prefix av fs name t g rs c v f :
  has_structures t -> proper rs ->
  (forall n r, In (n, r) rs -> group_name n /\ site_record_ok (format_class g t) r /\ storable (format_class g t) r) ->
  records_version rs v -> supported v g -> holds fs name f ->
  exists sa, site_write av fs name (DRecords rs) (type_name t) c =
      (h5_close fs name (fst (write_groups av (keys sa) c rs f)), snd (write_groups av (keys sa) c rs f)) /\
    site_single_element_types (format_class g t) = Ok sa /\
    (forall n r, In (n, r) rs -> group_name n /\ NoDup (keys r) /\ forall p, In p r -> value_kept (keys sa) p).
Proof.
  intros HT HP HR (n & r & h & V1 & V2 & V3 & V4) HV HN.
  destruct (site_tables g t HT) as (sa & sd & E1 & E2 & Na & Nd & Dj & HA & HD & HNE).
  unfold site_write. rewrite type_name_of. cbn [records_hash].
  destruct (first_sorted rs n r (proj1 HP) V1 V2) as (rest & ES). rewrite ES.
  unfold dict_item. fold s_hash in V3. rewrite V3. cbn [rbind text_of]. rewrite (proj2 (version_iff h v) V4).
  unfold generation_of. rewrite (proj1 (supported_gen v g) HV). cbn [rbind].
  assert (EC : check_site_records (format_class g t) rs = Ok tt) by (apply site_check_iff; auto; intros; now apply HR in H).
  rewrite EC. cbn [rbind]. unfold write_records. rewrite E1, E2. unfold h5_append. rewrite HN.
  exists sa. fold (keys sa). split; [|split; [reflexivity|]].
  - now destruct (write_groups _ _ _ _ _).
  - intros m q H. destruct (HR m q H) as (G1 & G2 & G3). splits; auto; [now apply (proj2 HP m)|]. now apply (site_value_kept g t).
Qed.

Lemma site_clash av fs name t g rs c v f n :
  has_structures t -> proper rs ->
  (forall n r, In (n, r) rs -> group_name n /\ site_record_ok (format_class g t) r /\ storable (format_class g t) r) ->
  records_version rs v -> supported v g -> can_compress av c -> holds fs name f ->
  In n (keys rs) -> In n (keys (h_items f)) ->
  exists fs', site_write av fs name (DRecords rs) (type_name t) c = (fs', Raise ValueError) /\
    (n = hd [] (keys rs) -> fs' name = fs name).
Proof.
  intros HT HP HR HVer HV HC HN I1 I2.
  destruct (site_prefix av fs name t g rs c v f HT HP HR HVer HV HN) as (sa & W & _ & K).
  rewrite W. eexists. split; [f_equal; apply write_groups_clash; eauto|].
  intros E. destruct rs as [|[m r] rs]; [destruct I1|]. cbn in E. subst m.
  destruct (K n r (or_introl eq_refl)) as (G & _). cbn [write_groups]. rewrite (plain_name_ok n G). cbn [negb].
  destruct (dict_get (h_items f) n) eqn:ED; [cbn [fst]; unfold h5_close; rewrite str_eqb_refl; unfold holds in HN; congruence|].
  apply dict_get_none in ED. contradiction.
Qed.

Lemma site_added av fs name t g rs c v f :
  has_structures t -> proper rs ->
  (forall n r, In (n, r) rs -> group_name n /\ site_record_ok (format_class g t) r /\ storable (format_class g t) r) ->
  records_version rs v -> supported v g -> can_compress av c -> holds fs name f ->
  (forall n, In n (keys rs) -> ~ In n (keys (h_items f))) ->
  exists fs' its, site_write av fs name (DRecords rs) (type_name t) c = (fs', Ok tt) /\
    holds fs' name (mk_hfile (h_items f ++ its) (h_attrs f)) /\ keys its = keys rs /\
    (forall n r, In (n, r) rs -> exists i r', In (n, i) its /\ read_record i = Ok r' /\ same_fields_as r r').
Proof.
  intros HT HP HR HVer HV HC HN HD.
  destruct (site_prefix av fs name t g rs c v f HT HP HR HVer HV HN) as (sa & W & ES & K).
  destruct (site_tables g t HT) as (sa' & sd & E1 & E2 & Na & Nd & Dj & HA & HDs & HNE).
  rewrite ES in E1. injection E1 as <-.
  destruct (write_groups_ok av (keys sa) c rs f HC K (proj1 HP) HD) as (its & W1 & W2).
  rewrite W, W1. cbn [fst snd]. eexists _, its. split; [reflexivity|]. split; [apply holds_close|].
  split; [exact (rel_keys _ _ _ W2)|]. intros n r Hr.
  assert (X : exists i, In (n, i) its /\ group_of (keys sa) i r).
  { clear - W2 Hr. induction W2 as [|[m i] [m' q] its rs [E1 E2] W2 IH]; [destruct Hr|]. cbn [fst snd] in E1, E2. subst m'.
    destruct Hr as [E|Hr]; [injection E as -> ->; exists i; split; [now left|exact E2]|].
    destruct (IH Hr) as (j & J1 & J2). exists j. split; [now right|exact J2]. }
  destruct X as (i & X1 & X2). 
  destruct (group_read (keys sa) i r X2 (proj2 HP n r Hr)) as (r' & R1 & R2).
  { intros k Hk. apply (f_site_hidden _ (format_facts g t HT)). destruct (HR n r Hr) as (_ & (O1 & _) & _). now apply O1. }
  exists i, r'. split; [exact X1|]. split; [exact R1|]. intros k. apply perm_get; [exact (proj2 HP n r Hr)|exact R2].
Qed.

(** ** Arrays added to a site file *)

Lemma mapM_groups (its : dict hitem) :
  (exists n ds als, In (n, HGroup ds als) its) ->
  (forall n i, In (n, i) its -> (exists ds als, i = HGroup ds als) \/ exists d v als, i = HDset d als /\ read_dset d = Ok v) ->
  mapM (fun p => rlet v := match snd p with HGroup _ _ => Raise TypeError | HDset d _ => read_dset d end in Ok (fst p, v)) its
  = Raise TypeError.
Proof.
  induction its as [|[n i] its IH]; intros (m & ds & als & HI) HA; [destruct HI|]. cbn [mapM snd fst].
  destruct (HA n i (or_introl eq_refl)) as [(ds' & als' & ->)|(d & v & als' & -> & E)]; [reflexivity|].
  rewrite E. cbn [rbind]. rewrite IH; [reflexivity| |intros; eapply HA; right; eauto].
  destruct HI as [C|HI]; [discriminate|eauto].
Qed.

Lemma arrays_on_site av fs name t g a c h v f n ds als :
  has_structures t -> NoDup (keys a) -> arrays_ok (format_class g t) a -> storable_arrays (format_class g t) a ->
  dict_get a (str "borealis_git_hash") = Some (BText h) -> hash_version h v -> supported v g ->
  can_compress av c -> holds fs name f -> h_attrs f = [] -> In (n, HGroup ds als) (h_items f) ->
  (forall m i, In (m, i) (h_items f) -> (exists ds als, i = HGroup ds als) /\ ~ In m (keys a)) ->
  exists fs', array_write av fs name (DArrays a) (type_name t) c = (fs', Ok tt) /\
    array_read fs' name (type_name t) = Raise TypeError /\
    borealis_read fs' name (type_name t) None = Raise TypeError.
Proof.
  intros HT HN HO HS HH HVer HV HC HNone HE HI HM.
  destruct (array_tables g t HT) as (aa & ad & u & E1 & E2 & E3 & Na & Nd & Dj & HA & HD & HU & HUS & HUN).
  pose proof (format_facts g t HT) as HF. pose proof (array_value_kept g t aa a HT HA HO HS) as HVK.
  pose proof (fun k => array_field_plain g t aa k HT HA) as HPl.
  pose proof (proj2 (arrays_ok_check g t a HT HN) HO) as HCK.
  set (F := format_class g t) in *.
  assert (HM' : str_mem s_hash (keys aa) = true).
  { destruct (f_hash_array F HF) as (ty & HH'). apply str_mem_In, keys_in. exists ty. now apply HA. }
  fold s_hash in HH.
  destruct (write_members_ok av (keys aa) c a f HC HVK HN) as (its & al & W & W1 & W2).
  { intros k Hk. apply HPl. now apply HO. }
  { intros k Hk. split; [|rewrite HE; intros []]. intros C. apply keys_in in C as (i & C). now apply HM in C as [_ C]. }
  rewrite HE in W. cbn [app] in W. set (f' := mk_hfile (h_items f ++ its) al) in *.
  assert (EW : array_write av fs name (DArrays a) (type_name t) c = (h5_close fs name f', Ok tt)).
  { unfold array_write. rewrite type_name_of. cbn [arrays_hash]. rewrite HH. cbn [text_of rbind].
    rewrite (proj2 (version_iff h v) HVer). unfold generation_of. rewrite (proj1 (supported_gen v g) HV). cbn [rbind].
    fold F. rewrite HCK. cbn [rbind]. unfold write_arrays. fold F. rewrite E1, E2, E3. unfold h5_append. rewrite HNone.
    fold (keys aa). now rewrite W. }
  assert (HSH : array_hash f' = Ok h).
  { unfold array_hash. cbn [h_attrs f']. rewrite <- (filter_get (fun k => str_mem k (keys aa)) a s_hash HM') in HH.
    destruct (rel_get _ _ _ _ _ W2 HH) as (x & A1 & A2 & A3). rewrite A1. apply hash_attr; assumption. }
  assert (RD : array_read (h5_close fs name f') name (type_name t) = Raise TypeError).
  { unfold array_read. rewrite type_name_of, open_close. cbn [rbind]. rewrite HSH. cbn [rbind].
    rewrite (proj2 (version_iff h v) HVer). unfold generation_of. rewrite (proj1 (supported_gen v g) HV). cbn [rbind].
    unfold array_read_file. fold F. rewrite E1, E2, E3. cbn [rbind]. unfold read_arrays. cbn [h_items f'].
    rewrite mapM_groups; [reflexivity| |].
    - exists n, ds, als. eapply Permutation_in; [symmetry; apply sort_perm|]. apply in_or_app. now left.
    - intros m i H. apply (Permutation_in _ (sort_perm _)) in H. apply in_app_or in H as [H|H]; [left; now apply HM in H as [H _]|right].
      clear - W1 H. induction W1 as [|[m1 i1] [m2 v2] its r [X1 X2] W1 IH]; [destruct H|].
      destruct H as [H|H]; [|auto]. injection H as -> ->. destruct X2 as (d & X2 & X3). cbn [snd] in X2, X3. eauto. }
  exists (h5_close fs name f'). splits; auto.
  unfold borealis_read. rewrite type_name_of. unfold return_reader. now rewrite RD.
Qed.

(** ** Files that cannot be read *)

Lemma read_missing fs name t e : (fs name = None /\ e = FileNotFoundError) \/ (fs name = Some NotHdf /\ e = OSError) ->
  site_read fs name (type_name t) = Raise e /\ array_read fs name (type_name t) = Raise e /\
  (forall s, s = None \/ s = Some (str "site") \/ s = Some (str "array") -> borealis_read fs name (type_name t) s = Raise e).
Proof.
  intros H. assert (EO : h5_open fs name = Raise e) by (unfold h5_open; destruct H as [[-> ->]|[-> ->]]; reflexivity).
  assert (ES : site_read fs name (type_name t) = Raise e) by (unfold site_read; rewrite type_name_of, EO; reflexivity).
  assert (EA : array_read fs name (type_name t) = Raise e) by (unfold array_read; rewrite type_name_of, EO; reflexivity).
  splits; auto. intros s Hs. unfold borealis_read. rewrite type_name_of. destruct Hs as [-> | [-> | ->]].
  - unfold return_reader. rewrite EA. destruct H as [[_ ->]|[_ ->]]; reflexivity.
  - change (str_eqb (str "site") (str "site")) with true. cbv iota. now rewrite ES.
  - change (str_eqb (str "array") (str "site")) with false. change (str_eqb (str "array") (str "array")) with true. cbv iota. now rewrite EA.
Qed.

Lemma known_type ft : (forall t, ft <> type_name t) -> filetype_of ft = None.
Proof.
  intros H. unfold filetype_of. 
  rewrite (proj2 (str_eqb_neq ft (str "bfiq"))) by (exact (H Bfiq)). rewrite (proj2 (str_eqb_neq ft (str "antennas_iq"))) by (exact (H AntennasIq)).
  rewrite (proj2 (str_eqb_neq ft (str "rawacf"))) by (exact (H BRawacf)). now rewrite (proj2 (str_eqb_neq ft (str "rawrf"))) by (exact (H Rawrf)).
Qed.

Lemma site_no_hash f : NoDup (keys (h_items f)) -> no_first_hash f -> site_hash f = Raise BorealisStructureError.
Proof.
  intros HN [E|(n & i & H1 & H2 & H3)]; unfold site_hash; [rewrite E; reflexivity|].
  destruct (first_sorted _ n i HN H1 H2) as (rest & ->). apply dict_get_none in H3. fold s_hash in H3. now rewrite H3.
Qed.

(** ** Attributes of the libraries *)

Lemma same_visible a b : same_attrs a b ->
  filter (fun p => negb (str_mem (fst p) hidden_attrs)) a = filter (fun p => negb (str_mem (fst p) hidden_attrs)) b.
Proof.
  assert (HL : forall k, of_library k -> str_mem k hidden_attrs = true) by (intros k H; apply str_mem_In; exact H).
  induction 1 as [|k x d e H IH|k x d e HK H IH|k x d e HK H IH]; cbn [filter fst].
  - reflexivity.
  - destruct (str_mem k hidden_attrs); cbn [negb]; [exact IH|now f_equal].
  - rewrite (HL k HK). exact IH.
  - rewrite (HL k HK). exact IH.
Qed.
Lemma same_get a b k : same_attrs a b -> ~ of_library k -> dict_get a k = dict_get b k.
Proof.
  induction 1 as [|k1 x d e H IH|k1 x d e HK H IH|k1 x d e HK H IH]; intros HN; cbn [dict_get]; auto.
  - destruct (str_eqb k1 k); auto.
  - destruct (str_eqb k1 k) eqn:E; [apply str_eqb_eq in E; subst; contradiction|auto].
  - destruct (str_eqb k1 k) eqn:E; [apply str_eqb_eq in E; subst; contradiction|auto].
Qed.
Lemma hash_not_library : ~ of_library s_hash.
Proof. intros H. assert (E : str_mem s_hash library_attrs = true) by (apply str_mem_In; exact H). vm_compute in E. discriminate E. Qed.
Lemma same_item_attrs i j : same_item i j -> same_attrs (item_attrs i) (item_attrs j).
Proof. destruct 1; exact H. Qed.

Lemma mapM_same {A B} (P : A -> A -> Prop) (f : A -> res B) (d e : dict A) : (forall i j, P i j -> f i = f j) ->
  Forall2 (same_key P) d e ->
  mapM (fun p => rlet v := f (snd p) in Ok (fst p, v)) d = mapM (fun p => rlet v := f (snd p) in Ok (fst p, v)) e.
Proof.
  intros HP. induction 1 as [|[k x] [k' y] d e [E1 E2] H IH]; [reflexivity|]. cbn [mapM fst snd] in *. subst k'. rewrite (HP _ _ E2), IH. reflexivity.
Qed.

Lemma same_reads f f' : same_file f f' ->
  site_hash f = site_hash f' /\ array_hash f = array_hash f' /\ read_records f = read_records f' /\ read_arrays f = read_arrays f' /\
  record_names f = record_names f'.
Proof.
  intros [HI HA]. assert (HS : Forall2 (same_key same_item) (sort_dict (h_items f)) (sort_dict (h_items f'))) by (apply sort_rel; exact HI).
  splits.
  - unfold site_hash. destruct HS as [|[n i] [n' j] ? ? [_ HX] _]; [reflexivity|]. cbn [snd] in HX.
    rewrite (same_get _ _ s_hash (same_item_attrs _ _ HX) hash_not_library). reflexivity.
  - unfold array_hash. now rewrite (same_get _ _ s_hash HA hash_not_library).
  - unfold read_records. apply (mapM_same same_item read_record); [|exact HS]. intros i j HX. destruct HX as [ds a b HX|d a b HX]; [|reflexivity].
    cbn [read_record]. unfold read_attrs. now rewrite (same_visible _ _ HX).
  - unfold read_arrays. 
    rewrite (mapM_same same_item (fun i => match i with HGroup _ _ => Raise TypeError | HDset d _ => read_dset d end) _ _ ltac:(intros i j HX; destruct HX; reflexivity) HS).
    unfold read_attrs. now rewrite (same_visible _ _ HA).
  - unfold record_names, members. f_equal; [exact (rel_keys _ _ _ HS)|].
    assert (X : forall a : dict hattr, filter (fun k => negb (str_mem k hidden_attrs)) (map fst a) = map fst (filter (fun p => negb (str_mem (fst p) hidden_attrs)) a)).
    { intros a. induction a as [|[k x] a IH]; [reflexivity|]. cbn [map filter fst]. destruct (str_mem k hidden_attrs); cbn [negb map fst]; now rewrite IH. }
    rewrite !X. now rewrite (same_visible _ _ HA).
Qed.

(** ** Compression *)

Lemma write_fields_dsets av attrs n r gd ga x : write_fields av attrs (Some n) r gd ga = (x, Ok tt) ->
  forall k v, In (k, v) r -> ~ In k attrs -> exists d, write_dset av (Some n) v = Ok d.
Proof.
  revert gd ga. induction r as [|[k v] r IH]; intros gd ga H k' v' HI HN; [destruct HI|]. cbn [write_fields] in H.
  destruct (str_mem k attrs) eqn:E.
  - destruct HI as [C|HI]; [injection C as -> ->; apply str_mem_In in E; contradiction|].
    destruct (write_attr v); [|discriminate H]. eapply IH; eauto.
  - destruct (write_dset av (Some n) v) as [d|] eqn:ED; [|discriminate H].
    destruct HI as [C|HI]; [injection C as -> ->; eauto|]. eapply IH; eauto.
Qed.
Lemma write_groups_dsets av attrs n rs f x : write_groups av attrs (Some n) rs f = (x, Ok tt) ->
  forall m r k v, In (m, r) rs -> In (k, v) r -> ~ In k attrs -> exists d, write_dset av (Some n) v = Ok d.
Proof.
  revert f. induction rs as [|[m r] rs IH]; intros f H m' r' k v HI; [destruct HI|]. cbn [write_groups] in H.
  destruct (plain_name m); cbn [negb] in H; [|discriminate H]. destruct (dict_get (h_items f) m); [discriminate H|].
  destruct (write_fields av attrs (Some n) r [] []) as [[gd ga] [[]|e]] eqn:E; [|discriminate H].
  destruct HI as [C|HI]; [injection C as -> ->; eapply write_fields_dsets; exact E|]. eapply IH; eauto.
Qed.
Lemma compressed_dset av n v d : write_dset av (Some n) v = Ok d -> av n = true /\ exists t s l, v = BArr t s l /\ s <> [].
Proof.
  destruct v as [t c|s|t s l|t|]; cbn [write_dset].
  - destruct t; discriminate.
  - discriminate.
  - assert (G : forall s' (x : hdset), (rlet _ := check_filter av (Some n) s' in Ok x) = Ok d -> av n = true /\ s' <> []).
    { intros s' x. cbn [check_filter]. destruct s'; [discriminate|]. destruct (av n); [|discriminate]. split; [reflexivity|discriminate]. }
    intros H. destruct t; try discriminate H;
      try (apply G in H as [H1 H2]; split; [exact H1|do 3 eexists; split; [reflexivity|exact H2]]; fail).
    destruct s as [|a s]; [discriminate H|]; apply G in H as [H1 H2]; split; [exact H1|]; do 3 eexists; (split; [reflexivity|discriminate]).
  - discriminate.
  - discriminate.
Qed.

Lemma compressed_site av fs name rs t n fs' m r k v :
  site_write av fs name (DRecords rs) (type_name t) (Some n) = (fs', Ok tt) ->
  In (m, r) rs -> In (k, v) r -> (forall g ty, ~ site_attr (format_class g t) k ty) -> has_structures t ->
  av n = true /\ exists ty s l, v = BArr ty s l /\ s <> [].
Proof.
  unfold site_write. rewrite type_name_of. intros H I1 I2 HN HT.
  match type of H with context [match ?x with Ok _ => _ | Raise _ => _ end] => destruct x as [[g q]|e] eqn:E end; [|discriminate H].
  assert (q = rs) as ->.
  { apply rbind_ok in E as (h & _ & E). apply rbind_ok in E as (g' & _ & E). apply rbind_ok in E as (u & _ & E). now injection E as _ <-. }
  destruct (site_tables g t HT) as (sa & sd & E1 & E2 & Na & Nd & Dj & HA & HD & HNE).
  unfold write_records in H. rewrite E1, E2 in H. destruct (h5_append fs name) as [f|]; [|discriminate H].
  destruct (write_groups av (map fst sa) (Some n) rs f) as [f' e] eqn:EW. injection H as _ ->.
  destruct (write_groups_dsets av _ n rs f f' EW m r k v I1 I2) as (d & HD').
  { intros C. apply keys_in in C as (ty & C). apply HA in C. now apply (HN g ty). }
  now apply compressed_dset in HD'.
Qed.
