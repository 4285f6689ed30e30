(** What can be wrong with a Borealis file: proofs. *)
From Coq Require Import String ZArith List Bool Lia Permutation Sorted.
From Verif Require Import Base BytesProofs Utf8 SDarnFormats SDarnChecks DmapFileProofs DmapWriteFacts DmapWriteProofs BorealisTypes BorealisFormats
  BorealisChecks BorealisArrays BorealisFile BorealisSpec BorealisFileSpec DmapWriteFaultSpec BorealisRefuseSpec BorealisCheckProofs BorealisProps
  BorealisFillProofs BorealisNumpyProofs BorealisFileProofs BorealisToArrayProofs BorealisRefuseProofs BorealisReadFaultSpec.
Import ListNotations.
Open Scope list_scope.
Open Scope Z_scope.

(** [r] fails as [P] says, or nothing is wrong and the value is as [Q] says. *)
Definition sound {A} (r : res A) (P : fault) (Q : A -> Prop) : Prop :=
  match r with Ok a => Q a /\ (forall e, ~ P e) | Raise e => P e end.

(** ** Dictionaries *)

Lemma map_sound {A B} (f : A -> res B) (P : A -> fault) (Q : A -> B -> Prop) (d : dict A) :
  (forall k x, In (k, x) d -> sound (f x) (P x) (Q x)) ->
  match mapM (fun p => rlet v := f (snd p) in Ok (fst p, v)) d with
  | Ok l => Forall2 (same_key Q) d l /\ (forall k x e, In (k, x) d -> ~ P x e)
  | Raise e => in_order_fault P (fun _ => True) d e
  end.
Proof.
  induction d as [|[k x] d IH]; intros H; cbn [mapM fst snd].
  - split; [constructor|intros ? ? ? []].
  - pose proof (H k x (or_introl eq_refl)) as HX. destruct (f x) as [v|e]; cbn [rbind sound] in *.
    + specialize (IH (fun k' x' HI => H k' x' (or_intror HI))).
      destruct (mapM _ d) as [l|e]; cbn [rbind].
      * destruct IH as [I1 I2], HX as [X1 X2]. split; [constructor; [now split|exact I1]|].
        intros k' x' e [[= <- <-]|HI]; [apply X2|eapply I2; exact HI].
      * destruct IH as (pre & k' & x' & post & -> & _ & HP & HB). exists ((k, x) :: pre), k', x', post.
        split; [reflexivity|]. split; [exact I|]. split; [exact HP|]. intros k2 x2 e2 [[= <- <-]|HI] _; [apply HX|now apply (HB k2)].
    + exists [], k, x, d. split; [reflexivity|]. split; [exact I|]. split; [exact HX|]. intros ? ? ? [].
Qed.

Lemma sorted_split {A} (pre : dict A) k x post : StronglySorted str_lt (keys (pre ++ (k, x) :: post)) ->
  forall k' x', In (k', x') (pre ++ (k, x) :: post) -> str_lt k' k -> In (k', x') pre.
Proof.
  intros HS k' x' HI HL. apply in_app_or in HI as [HI|HI]; [exact HI|exfalso].
  induction pre as [|p pre IH]; cbn [app keys map] in HS; inversion HS as [|? ? H1 H2]; subst; [|now apply IH].
  destruct HI as [[= -> ->]|HI]; [now apply str_lt_irr in HL|].
  rewrite Forall_forall in H2. assert (str_lt k k') by (apply H2; apply keys_in; eauto).
  eapply str_lt_irr, str_lt_trans; eauto.
Qed.

Lemma sorted_fault {A} (P : A -> fault) (d : dict A) e : NoDup (keys d) ->
  in_order_fault P (fun _ => True) (sort_dict d) e -> by_name_fault P d e.
Proof.
  intros HN (pre & k & x & post & E & _ & HP & HB). pose proof (BorealisFileProofs.sort_sorted d HN) as HS. pose proof (sort_perm d) as HM.
  rewrite E in HS, HM. exists k, x. split; [eapply Permutation_in; [exact HM|apply in_elt]|]. split; [exact HP|].
  intros n' x' e' HI HL. apply (HB n' x' e'); [|exact I]. eapply sorted_split; [exact HS| |exact HL].
  eapply Permutation_in; [symmetry; exact HM|exact HI].
Qed.

Lemma filter_fault {A} (P : A -> fault) (b : pystr -> bool) (ok : pystr -> Prop) (d : dict A) e : (forall k, b k = true <-> ok k) ->
  in_order_fault P (fun _ => True) (filter (fun p => b (fst p)) d) e -> in_order_fault P ok d e.
Proof.
  intros HB (pre & k & x & post & E & _ & HP & HN). revert pre E HN. induction d as [|[k' x'] d IH]; intros pre E HN; cbn [filter fst] in E.
  - destruct pre; discriminate.
  - destruct (b k') eqn:EB.
    + destruct pre as [|p pre]; cbn [app] in E.
      * injection E as -> -> _.
        exists [], k, x, d. split; [reflexivity|]. split; [now apply HB|]. split; [exact HP|]. intros ? ? ? [].
      * injection E as <- E. destruct (IH pre E) as (pre' & k2 & x2 & post' & -> & K & P2 & N2).
        { intros k2 x2 e2 HI. apply (HN k2 x2 e2). now right. }
        exists ((k', x') :: pre'), k2, x2, post'. split; [reflexivity|]. split; [exact K|]. split; [exact P2|].
        intros k3 x3 e3 [[= <- <-]|HI] K3; [apply (HN k' x' e3); [now left|exact I]|now apply (N2 k3)].
    + destruct (IH pre E HN) as (pre' & k2 & x2 & post' & -> & K & P2 & N2).
      exists ((k', x') :: pre'), k2, x2, post'. split; [reflexivity|]. split; [exact K|]. split; [exact P2|].
      intros k3 x3 e3 [[= <- <-]|HI] K3; [apply HB in K3; congruence|now apply (N2 k3)].
Qed.

(** ** Datasets *)

Lemma skip_nth {A} n (l : list A) i : nth_error (skipn n l) i = nth_error l (n + i).
Proof. revert l. induction n as [|n IH]; intros [|x l]; cbn; [reflexivity|reflexivity|now destruct i|apply IH]. Qed.
Lemma first_nth {A} n (l : list A) i : (i < n)%nat -> nth_error (firstn n l) i = nth_error l i.
Proof. revert l i. induction n as [|n IH]; intros [|x l] [|i] H; cbn; [lia|lia|lia|lia|reflexivity|reflexivity|reflexivity|apply IH; lia]. Qed.
Lemma rows_nth {A} k n (l : list A) i : (i < k)%nat -> nth_error (rows k n l) i = Some (firstn n (skipn (i * n) l)).
Proof.
  revert l i. induction k as [|k IH]; intros l i H; [lia|]. cbn [rows]. destruct i as [|i]; [reflexivity|]. cbn [nth_error].
  rewrite IH by lia. rewrite BorealisNumpyProofs.skipn_skipn. do 3 f_equal. cbn. lia.
Qed.
Lemma rows_count {A} k n (l : list A) : length (rows k n l) = k.
Proof. revert l. induction k as [|k IH]; intros l; cbn; [reflexivity|]. now rewrite IH. Qed.

Lemma strip_facts s : (length (strip_nul s) <= length s)%nat /\ last (strip_nul s) 1 <> 0 /\ forall j, nth j (strip_nul s) 0 = nth j s 0.
Proof.
  induction s as [|c s (I1 & I2 & I3)]; cbn [strip_nul].
  - split; [cbn; lia|]. split; [discriminate|reflexivity].
  - destruct (strip_nul s) as [|x r] eqn:E.
    + destruct (c =? 0) eqn:EC.
      * apply Z.eqb_eq in EC as ->. split; [cbn; lia|]. split; [discriminate|]. intros [|j]; cbn [nth]; [reflexivity|].
        rewrite <- I3. destruct j; reflexivity.
      * apply Z.eqb_neq in EC. split; [cbn; lia|]. split; [exact EC|]. intros [|j]; cbn [nth]; [reflexivity|exact (I3 j)].
    + split; [cbn [length] in *; lia|]. split; [exact I2|]. intros [|j]; cbn [nth]; [reflexivity|exact (I3 j)].
Qed.

Lemma code_at data p : Forall (fun c => exists b, c = CZ b) data -> (4 * p + 3 < length data)%nat ->
  point_at data p (code_point (firstn 4 (skipn (4 * p) data))).
Proof.
  intros HF HL. assert (G : forall q, (q < 4)%nat -> exists b, nth_error data (4 * p + q) = Some (CZ b) /\ nth_error (firstn 4 (skipn (4 * p) data)) q = Some (CZ b)).
  { intros q HQ. rewrite first_nth, skip_nth by exact HQ. destruct (nth_error data (4 * p + q)) as [c|] eqn:E.
    - apply nth_error_In in E as HI. rewrite Forall_forall in HF. destruct (HF c HI) as (b & ->). eauto.
    - apply nth_error_None in E. lia. }
  destruct (G 0%nat ltac:(lia)) as (a & A1 & A2). destruct (G 1%nat ltac:(lia)) as (b & B1 & B2).
  destruct (G 2%nat ltac:(lia)) as (c & C1 & C2). destruct (G 3%nat ltac:(lia)) as (d & D1 & D2).
  exists a, b, c, d. rewrite Nat.add_0_r in A1. split; [exact A1|]. split; [exact B1|]. split; [exact C1|]. split; [exact D1|].
  assert (L : (length (firstn 4 (skipn (4 * p) data)) <= 4)%nat) by apply firstn_le_length.
  destruct (firstn 4 (skipn (4 * p) data)) as [|x0 [|x1 [|x2 [|x3 [|x4 l]]]]]; cbn [nth_error length] in *; try discriminate; [|lia].
  injection A2 as ->. injection B2 as ->. injection C2 as ->. injection D2 as ->. cbn [code_point]. lia.
Qed.

Lemma item_shows data w i : Forall (fun c => exists b, c = CZ b) data -> ((i + 1) * (4 * w) <= length data)%nat ->
  exists t, text_item w (firstn (4 * w) (skipn (i * (4 * w)) data)) = CS t /\ (length t <= w)%nat /\ last t 1 <> 0 /\
    forall j, (j < w)%nat -> point_at data (i * w + j) (nth j t 0).
Proof.
  intros HF HL. eexists. split; [reflexivity|]. set (cells := firstn (4 * w) (skipn (i * (4 * w)) data)).
  destruct (strip_facts (map code_point (pieces w 4 cells))) as (S1 & S2 & S3). unfold pieces in *. rewrite map_length, rows_count in S1.
  split; [exact S1|]. split; [exact S2|]. intros j HJ. rewrite S3.
  change 0 with (code_point []). rewrite map_nth. rewrite (nth_error_nth (rows w 4 cells) j [] (rows_nth w 4 cells j HJ)).
  assert (E : firstn 4 (skipn (j * 4) cells) = firstn 4 (skipn (4 * (i * w + j)) data)).
  { unfold cells. rewrite skipn_firstn_comm, firstn_firstn, BorealisNumpyProofs.skipn_skipn. f_equal; [lia|f_equal; lia]. }
  rewrite E. apply code_at; [exact HF|]. nia.
Qed.

Lemma read_dset_sound d : dset_known d -> sound (read_dset d) (dset_fault d) (dset_shows d).
Proof.
  intros HK. unfold read_dset. destruct (hd_shape d) as [|s0 ss] eqn:ES; [now constructor|].
  destruct (hd_item d) as [w|] eqn:EW.
  - destruct HK as (W0 & HT & HL & HF); [rewrite EW; discriminate|]. rewrite HT. cbn [btype_eqb negb orb].
    assert (W : w <> 0%nat) by (intros ->; contradiction). rewrite (proj2 (Nat.eqb_neq w 0) W).
    rewrite <- ES in *. set (n := last (hd_shape d) 0%nat). assert (EN : hd_shape d = removelast (hd_shape d) ++ [n]).
    { apply app_removelast_last. rewrite ES. discriminate. }
    destruct (Nat.eqb (n mod (4 * w)) 0) eqn:EM; cbn [negb sound].
    + apply Nat.eqb_eq in EM. pose proof (Nat.div_mod n (4 * w) ltac:(lia)) as ED. rewrite EM, Nat.add_0_r in ED.
      set (k := (n / (4 * w))%nat) in *. set (s := removelast (hd_shape d)) in *. split.
      2: { intros e HC. inversion HC as [C|w' s' n' C1 C2 C3]; subst; [rewrite ES in C; discriminate|].
           assert (w' = w) as -> by congruence. rewrite EN in C2. apply app_inj_tail in C2 as [_ C2]. apply (C3 k). lia. }
      assert (SZ : length (hd_data d) = (size (s ++ [k]) * (4 * w))%nat).
      { rewrite HL, EN, !size_app. cbn [size fold_right]. rewrite ED. unfold size. cbn [fold_right]. nia. }
      set (its := map (text_item w) (pieces (size (s ++ [k])) (4 * w) (hd_data d))).
      assert (LI : length its = size (s ++ [k])) by (unfold its, pieces; now rewrite map_length, rows_count).
      assert (HI : forall i c, nth_error its i = Some c -> exists t, c = CS t /\ (length t <= w)%nat /\ last t 1 <> 0 /\
                 forall j, (j < w)%nat -> point_at (hd_data d) (i * w + j) (nth j t 0)).
      { intros i c HI. assert (B : (i < size (s ++ [k]))%nat) by (rewrite <- LI; apply nth_error_Some; congruence).
        unfold its, pieces in HI. rewrite nth_error_map, rows_nth in HI by exact B. cbn [option_map] in HI. injection HI as <-.
        apply item_shows; [exact HF|]. rewrite SZ. apply Nat.mul_le_mono_r. lia. }
      clearbody its. set (text := fun c => match c with CS t => t | _ => [] end).
      assert (EI : its = map CS (map text its)).
      { rewrite map_map. rewrite <- (map_id its) at 1. apply map_ext_in. intros c HC. apply In_nth_error in HC as (i & HC).
        destruct (HI i c HC) as (t & -> & _). reflexivity. }
      rewrite EI. apply (ds_texts d w s k); [exact EW|rewrite EN; do 2 f_equal; lia|now rewrite map_length|].
      intros i t HT'. rewrite nth_error_map in HT'. destruct (nth_error its i) as [c|] eqn:EC; [|discriminate].
      destruct (HI i c EC) as (t' & -> & R). injection HT' as <-. exact R.
    + apply Nat.eqb_neq in EM. apply (df_cut d w (removelast (hd_shape d)) n EW EN). intros k ->. apply EM. apply Nat.mod_mul. lia.
  - rewrite <- ES. split; [apply ds_array; [rewrite ES; discriminate|exact EW]|].
    intros e HC. inversion HC as [C|w' s' n' C1 C2 C3]; subst; [rewrite ES in C|]; congruence.
Qed.

(** ** Attributes *)

Lemma read_attr_sound a : attr_known a -> sound (read_attr a) (attr_fault a) (attr_shows a).
Proof.
  intros HK. unfold attr_fault. inversion HK as [b|s| |t HT|v s HS]; subst; cbn [read_attr sound].
  - destruct (utf8_dec b) as [s|] eqn:E; cbn.
    + split; [now constructor|]. intros e (_ & b' & [= <-] & C). congruence.
    + eauto.
  - split; [constructor|]. intros e (_ & b' & C & _). discriminate.
  - split; [constructor|]. intros e (_ & b' & C & _). discriminate.
  - destruct t; cbn [number_type] in HT; try contradiction; cbn [empty_value sound];
      (split; [|intros e (_ & b' & C & _); discriminate]);
      first [apply as_complex; red; auto|apply as_zero; [exact I|intros [C|C]; discriminate]].
  - split; [constructor|]. intros e (_ & b' & C & _). discriminate.
Qed.

(** ** Fields *)

Lemma update_get {A} (d e : dict A) k v : NoDup (keys e) -> dict_get e k = Some v -> dict_get (dict_update d e) k = Some v.
Proof.
  intros HN HG. apply dict_get_In in HG. apply in_split in HG as (l1 & l2 & ->). apply dict_update_last.
  unfold keys in HN. rewrite map_app in HN. cbn [map fst] in HN. apply NoDup_remove_2 in HN. intros C. apply HN. apply in_or_app. now right.
Qed.

Lemma visible_iff k : negb (str_mem k hidden_attrs) = true <-> ~ bookkeeping k.
Proof. unfold bookkeeping. change [str "CLASS"; str "TITLE"; str "VERSION"; str "DEEPDISH_IO_VERSION"; str "PYTABLES_FORMAT_VERSION"] with hidden_attrs.
  rewrite <- str_mem_In. destruct (str_mem k hidden_attrs); cbn; split; congruence. Qed.

Lemma filter_keys {A} (b : pystr -> bool) (d : dict A) k : In k (keys (filter (fun p => b (fst p)) d)) <-> In k (keys d) /\ b k = true.
Proof.
  unfold keys. rewrite !in_map_iff. split.
  - intros (p & <- & H). apply filter_In in H as [H1 H2]. split; [eauto|exact H2].
  - intros [(p & <- & H1) H2]. exists p. split; [reflexivity|]. now apply filter_In.
Qed.
Lemma filter_nodup {A} (b : pystr -> bool) (d : dict A) : NoDup (keys d) -> NoDup (keys (filter (fun p => b (fst p)) d)).
Proof.
  induction d as [|[k x] d IH]; cbn [keys map filter fst]; intros H; [constructor|]. inversion H as [|? ? H1 H2]; subst.
  destruct (b k); [|now apply IH]. cbn [map fst]. constructor; [|now apply IH]. intros C. apply H1. now apply (filter_keys b d k).
Qed.

Lemma fields_made ds ats dl al : NoDup (keys ds) -> NoDup (keys ats) -> Forall2 (same_key dset_shows) ds dl ->
  Forall2 (same_key attr_shows) (filter (fun p => negb (str_mem (fst p) hidden_attrs)) ats) al ->
  fields_shown ds ats (dict_update (dict_update [] dl) al).
Proof.
  intros N1 N2 F1 F2. set (vis := fun k => negb (str_mem k hidden_attrs)) in *. change (fun p : pystr * hattr => negb (str_mem (fst p) hidden_attrs)) with (fun p : pystr * hattr => vis (fst p)) in F2.
  pose proof (rel_keys _ _ _ F1) as K1. pose proof (rel_keys _ _ _ F2) as K2.
  assert (NV : NoDup (keys al)) by (rewrite <- K2; now apply filter_nodup).
  assert (ND : NoDup (keys dl)) by (now rewrite <- K1).
  rewrite (update_fresh dl []) by (auto; intros ? []). cbn [app]. split; [|split; [|split]].
  - now apply dict_update_nodup.
  - intros k a HA HB. apply visible_iff in HB. change (vis k = true) in HB. rewrite <- (filter_get vis ats k HB) in HA.
    destruct (rel_get_l _ _ _ _ _ F2 HA) as (v & G & S). exists v. split; [now apply update_get|exact S].
  - intros k d HD HB. destruct (rel_get_l _ _ _ _ _ F1 HD) as (v & G & S). exists v. split; [|exact S].
    rewrite dict_update_get; [exact G|]. change (~ In k (keys al)). rewrite <- K2. intros C. apply filter_keys in C as [C1 C2].
    apply visible_iff in C2. destruct HB; contradiction.
  - intros k HI. unfold keys in HI. apply dict_update_keys in HI. fold (keys dl) (keys al) in HI. rewrite <- K1, <- K2, filter_keys in HI. unfold vis in HI. rewrite visible_iff in HI. tauto.
Qed.

Lemma read_attrs_sound ats : (forall k a, In (k, a) ats -> attr_known a) ->
  match read_attrs ats with
  | Ok l => Forall2 (same_key attr_shows) (filter (fun p => negb (str_mem (fst p) hidden_attrs)) ats) l /\
            (forall e, ~ in_order_fault attr_fault (fun k => ~ bookkeeping k) ats e)
  | Raise e => in_order_fault attr_fault (fun k => ~ bookkeeping k) ats e
  end.
Proof.
  intros HK. unfold read_attrs. pose proof (map_sound read_attr attr_fault attr_shows (filter (fun p => negb (str_mem (fst p) hidden_attrs)) ats)) as H.
  destruct (mapM _ _) as [l|e].
  - destruct H as [H1 H2]; [intros k x HI; apply filter_In in HI as [HI _]; apply read_attr_sound; eapply HK; exact HI|].
    split; [exact H1|]. intros e (pre & k & x & post & -> & K & P & _). apply (H2 k x e); [|exact P].
    apply filter_In. split; [apply in_elt|]. now apply visible_iff.
  - apply (filter_fault attr_fault (fun k => negb (str_mem k hidden_attrs))); [exact visible_iff|]. apply H.
    intros k x HI. apply filter_In in HI as [HI _]. apply read_attr_sound. eapply HK. exact HI.
Qed.

(** ** Site files *)

Lemma read_record_sound i : item_known i -> sound (read_record i) (member_fault i) (fun r => exists ds ats, i = HGroup ds ats /\ fields_shown ds ats r).
Proof.
  destruct i as [ds ats|d ats]; cbn [item_known read_record]; [|intros _; constructor]. intros (N1 & N2 & K1 & K2).
  pose proof (map_sound read_dset dset_fault dset_shows ds (fun k x HI => read_dset_sound x (K1 k x HI))) as H1.
  destruct (mapM _ ds) as [dl|e]; cbn [rbind]; [|now apply mf_inside].
  destruct H1 as [D1 D2]. pose proof (read_attrs_sound ats K2) as H2. destruct (read_attrs ats) as [al|e]; cbn [rbind]; [|apply mf_attr; assumption].
  destruct H2 as [A1 A2]. split; [exists ds, ats; split; [reflexivity|now apply fields_made]|].
  intros e HC. inversion HC as [|? ? ? (pre & k & x & post & -> & _ & P & _)|? ? ? _ C]; subst; [|now apply (A2 e)].
  apply (D2 k x e); [apply in_elt|exact P].
Qed.

Lemma read_records_sound f : file_known f ->
  match BorealisFile.read_records f with
  | Ok rs => records_shown f rs /\ (forall e, ~ by_name_fault member_fault (h_items f) e)
  | Raise e => by_name_fault member_fault (h_items f) e
  end.
Proof.
  intros (N & _ & HK & _). unfold BorealisFile.read_records.
  assert (P : Permutation (sort_dict (h_items f)) (h_items f)) by apply sort_perm.
  pose proof (map_sound read_record member_fault _ (sort_dict (h_items f)) (fun k x HI => read_record_sound x (HK k x (Permutation_in _ P HI)))) as H.
  destruct (mapM _ _) as [rs|e]; [|now apply sorted_fault].
  destruct H as [H1 H2]. pose proof (rel_keys _ _ _ H1) as K. split.
  - split; [rewrite <- K; now apply BorealisFileProofs.sort_sorted|]. split.
    + intros n. rewrite <- K. split; apply Permutation_in; [now apply keys_perm|symmetry; now apply keys_perm].
    + intros n r i HR HI. assert (NR : NoDup (keys rs)).
      { rewrite <- K. eapply Permutation_NoDup; [symmetry; apply keys_perm; exact P|exact N]. }
      apply (dict_in_get rs n r NR) in HR. destruct (rel_get _ _ _ _ _ H1 HR) as (x & G & R).
      rewrite (perm_get (h_items f) (sort_dict (h_items f)) n N P) in G. apply (dict_in_get _ n i N) in HI. assert (x = i) as -> by congruence. exact R.
  - intros e (n & x & HI & HP & _). apply (H2 n x e); [eapply Permutation_in; [symmetry; exact P|exact HI]|exact HP].
Qed.

(** *** Phase offsets *)

Definition plain_value (v : bval) : Prop := (exists s, v = BText s) \/ exists s, has_shape v s.

Lemma shape_eq v s : has_shape v s -> bshape v = Some (Some s).
Proof. destruct v; cbn; intros H; try contradiction; subst; reflexivity. Qed.

Lemma dset_plain d v : dset_shows d v -> plain_value v.
Proof. intros []; right; eexists; reflexivity. Qed.
Lemma attr_plain a v : attr_known a -> attr_shows a v -> plain_value v.
Proof.
  intros HK HS. inversion HS; subst; try (left; eexists; reflexivity); try (right; eexists; reflexivity).
  inversion HK; subst. right. eauto.
Qed.

Lemma fields_plain ds ats r k v : (forall k a, In (k, a) ats -> attr_known a) -> fields_shown ds ats r -> dict_get r k = Some v -> plain_value v.
Proof.
  intros HK (N & F1 & F2 & F3) HG. assert (HI : In k (keys r)) by (apply keys_in; exists v; now apply dict_get_In).
  assert (D : dict_get ats k = None \/ exists a, dict_get ats k = Some a) by (destruct (dict_get ats k); eauto).
  assert (B : bookkeeping k \/ ~ bookkeeping k).
  { destruct (negb (str_mem k hidden_attrs)) eqn:E; [right; now apply visible_iff|left]. apply negb_false_iff in E. now apply str_mem_In in E. }
  assert (A : ~ bookkeeping k -> (exists a, dict_get ats k = Some a) -> plain_value v).
  { intros HB (a & HA). destruct (F1 k a HA HB) as (v' & G & S). assert (v' = v) as -> by congruence.
    apply (attr_plain a); [|exact S]. apply (HK k). now apply dict_get_In. }
  assert (C : bookkeeping k \/ ~ In k (keys ats) -> In k (keys ds) -> plain_value v).
  { intros HB HD. destruct (dict_get ds k) as [d|] eqn:ED.
    - destruct (F2 k d ED HB) as (v' & G & S). assert (v' = v) as -> by congruence. exact (dset_plain d v S).
    - apply dict_get_none in ED. contradiction. }
  destruct (F3 k HI) as [HD|[HA HB]].
  - destruct B as [B|B]; [now apply C; [left|]|]. destruct D as [D|D]; [|now apply A]. apply C; [right; now apply dict_get_none|exact HD].
  - apply A; [exact HB|]. destruct D as [D|D]; [|exact D]. apply dict_get_none in D. contradiction.
Qed.

Lemma look_sound r : NoDup (keys r) -> (forall k v, dict_get r k = Some v -> plain_value v) ->
  sound (ppo_site_fix_record r) (offsets_fault r) (fun r' => record_back r r' /\ NoDup (keys r')).
Proof.
  intros N HP. unfold ppo_site_fix_record. destruct (dict_get r s_ppo) as [v|] eqn:E.
  2: { split; [|intros e C; inversion C; fold s_ppo in *; congruence]. split; [|exact N]. split; [auto|]. fold s_ppo. now rewrite E. }
  destruct (HP _ _ E) as [(s & ->)|(s & HS)]; [eapply of_text; exact E|]. rewrite (shape_eq v s HS).
  unfold dict_item. destruct (dict_get r (str "pulses")) as [p|] eqn:EP; cbn [rbind].
  2: { eapply of_alone; [exact E|exact HS|now apply dict_get_none]. }
  destruct (HP _ _ EP) as [(s' & ->)|(sp & HSP)]; [eapply of_pulses; [exact E|exact HS|exact EP]|]. rewrite (shape_eq p sp HSP).
  assert (NF : forall e, ~ offsets_fault r e).
  { intros e C. inversion C as [s1 C1|v1 s1 C1 C2 C3|v1 s1 p1 C1 C2 C3]; subst; fold s_ppo in C1.
    - rewrite E in C1. injection C1 as ->. exact HS.
    - apply C3. apply keys_in. exists p. now apply dict_get_In.
    - rewrite EP in C3. injection C3 as ->. exact HSP. }
  cbn [shape_eqb]. destruct (list_eq_dec Nat.eq_dec s sp) as [ES|ES]; cbn [sound].
  - split; [|exact NF]. split; [|exact N]. split; [auto|]. fold s_ppo. rewrite E. exists p, s, sp. splits; auto. contradiction.
  - split; [|exact NF]. split; [|now apply dict_set_nodup]. split.
    + intros k Hk. fold s_ppo in Hk. rewrite dict_get_set. destruct (str_eqb s_ppo k) eqn:EK; [apply str_eqb_eq in EK; congruence|reflexivity].
    + fold s_ppo. rewrite E. exists p, s, sp. splits; auto; [contradiction|]. intros _. rewrite dict_get_set, str_eqb_refl. reflexivity.
Qed.

Lemma by_name_sorted {A} (P : A -> fault) (d : dict A) e : StronglySorted str_lt (keys d) -> in_order_fault P (fun _ => True) d e -> by_name_fault P d e.
Proof.
  intros HS (pre & k & x & post & -> & _ & HP & HB). exists k, x. split; [apply in_elt|]. split; [exact HP|].
  intros n' x' e' HI HL. apply (HB n' x' e'); [|exact I]. eapply sorted_split; eauto.
Qed.

Lemma sorted_nodup {A} (d : dict A) : StronglySorted str_lt (keys d) -> NoDup (keys d).
Proof.
  induction d as [|p d IH]; cbn [keys map]; intros H; inversion H as [|? ? H1 H2]; subst; constructor; [|now apply IH].
  intros C. rewrite Forall_forall in H2. apply H2 in C. now apply str_lt_irr in C.
Qed.

Lemma look_all f rs : file_known f -> records_shown f rs ->
  match ppo_site_fix rs with
  | Ok rs' => records_looked rs rs' /\ (forall e, ~ by_name_fault offsets_fault rs e)
  | Raise e => by_name_fault offsets_fault rs e
  end.
Proof.
  intros (N & _ & HK & _) (S1 & S2 & S3). rewrite ppo_site_fix_mapM.
  assert (H0 : forall k x, In (k, x) rs -> sound (ppo_site_fix_record x) (offsets_fault x) (fun r' => record_back x r' /\ NoDup (keys r'))).
  { intros k x HI. assert (HM : In k (keys (h_items f))) by (apply S2, keys_in; eauto). apply keys_in in HM as (i & HM).
    destruct (S3 k x i HI HM) as (ds & ats & -> & HF). apply look_sound; [exact (proj1 HF)|].
    intros k' v HG. destruct (HK k _ HM) as (_ & _ & _ & HA). exact (fields_plain ds ats x k' v HA HF HG). }
  pose proof (map_sound ppo_site_fix_record offsets_fault _ rs H0) as H.
  destruct (mapM _ rs) as [rs'|e]; [|now apply by_name_sorted].
  destruct H as [H1 H2]. pose proof (rel_keys _ _ _ H1) as K. split.
  - split; [now symmetry|]. intros n r r' HR HR'. pose proof (sorted_nodup rs S1) as NR. assert (NR' : NoDup (keys rs')) by (now rewrite <- K).
    apply (dict_in_get rs' n r' NR') in HR'. destruct (rel_get _ _ _ _ _ H1 HR') as (x & G & R).
    apply (dict_in_get rs n r NR) in HR. assert (x = r) as -> by congruence. exact R.
  - intros e (n & x & HI & HP & _). exact (H2 n x e HI HP).
Qed.

(** *** The hash *)

Lemma hash_sound ats : NoDup (keys ats) ->
  match (match dict_get ats s_hash with None => Raise BorealisStructureError | Some a => attr_decode a end) with
  | Ok h => exists b, dict_get ats s_hash = Some (HBytes b) /\ utf8_dec b = Some h
  | Raise e => hash_fault ats e
  end.
Proof.
  intros N. destruct (dict_get ats s_hash) as [a|] eqn:E; [|apply hf_none; now apply dict_get_none].
  destruct a as [b|s|t|v]; cbn [attr_decode]; try (eapply hf_other; [exact E|discriminate]).
  destruct (utf8_dec b) as [h|] eqn:ED; [eauto|]. eapply hf_bytes; eauto.
Qed.

Lemma generation_sound h : match generation_of (version_of h) with
  | Ok g => supported (version_of h) g
  | Raise e => e = BorealisVersionError /\ forall g, ~ supported (version_of h) g end.
Proof.
  unfold generation_of. destruct (version_generation (version_of h)) as [g|] eqn:E; [now apply supported_gen|].
  split; [reflexivity|]. intros g C. apply supported_gen in C. congruence.
Qed.

Lemma check_refusal g t rs : has_structures t -> proper rs ->
  match check_site_records (format_class g t) rs with
  | Ok _ => forall n r, In (n, r) rs -> BorealisSpec.site_record_ok (format_class g t) r
  | Raise e => refusal (format_class g t) rs e
  end.
Proof.
  intros HT HP. pose proof (C36_report g t rs HT HP) as HR. cbv zeta in HR. pose proof (site_check_iff g t rs HT HP) as HK.
  destruct (check_site_records (format_class g t) rs) as [[]|e]; [exact (proj1 HK eq_refl)|].
  destruct e;
      first [destruct HR as (H1 & H2 & H3 & H4 & _); now constructor
            |destruct HR as (H1 & pre & n' & r' & post & H2 & H3 & H4); econstructor; eassumption].
Qed.

Lemma looked_proper rs rs' : StronglySorted str_lt (keys rs) -> records_looked rs rs' -> proper rs'.
Proof.
  intros HS [HK HR]. pose proof (sorted_nodup rs HS) as N. split; [now rewrite HK|]. intros n r' HI.
  assert (HM : In n (keys rs)) by (rewrite <- HK; apply keys_in; eauto). apply keys_in in HM as (r & HM). exact (proj2 (HR n r r' HM HI)).
Qed.

Lemma site_tables_ok g t : has_structures t -> exists a d, site_single_element_types (format_class g t) = Ok a /\ site_array_dtypes (format_class g t) = Ok d.
Proof. intros HT. destruct g, t; try (exfalso; apply HT; reflexivity); eexists _, _; split; vm_compute; reflexivity. Qed.

Theorem site_outcome fs name f t : holds fs name f -> file_known f -> has_structures t ->
  match site_read fs name (type_name t) with
  | Ok rd => sr_type rd = t /\ (exists h rs, first_hash f h /\ hash_version h (sr_version rd) /\ supported (sr_version rd) (sr_gen rd) /\
      records_shown f rs /\ records_looked rs (sr_records rd)) /\
      (forall n r, In (n, r) (sr_records rd) -> BorealisSpec.site_record_ok (format_class (sr_gen rd) t) r)
  | Raise e => site_fault t f e
  end.
Proof.
  intros HF HK HT. unfold site_read. rewrite type_name_of. unfold h5_open. rewrite HF. cbn [rbind].
  unfold site_hash. pose proof HK as (N & _ & HI & _). destruct (sort_dict (h_items f)) as [|[n0 i0] rest] eqn:ES.
  { apply sf_empty. pose proof (sort_perm (h_items f)) as P. rewrite ES in P. now apply Permutation_nil in P. }
  pose proof (BorealisFileProofs.sort_sorted (h_items f) N) as SS. pose proof (sort_perm (h_items f)) as SP. rewrite ES in SS, SP.
  assert (I0 : In (n0, i0) (h_items f)) by (eapply Permutation_in; [exact SP|now left]).
  assert (F0 : forall n', In n' (keys (h_items f)) -> n' = n0 \/ str_lt n0 n').
  { intros n' Hn. assert (K : In n' (keys ((n0, i0) :: rest))) by (eapply Permutation_in; [symmetry; apply keys_perm; exact SP|exact Hn]).
    destruct K as [K|K]; [left; symmetry; exact K|right]. inversion SS as [|? ? _ HF']; subst. rewrite Forall_forall in HF'. now apply HF'. }
  assert (NA : NoDup (keys (item_attrs i0))) by (pose proof (HI n0 i0 I0) as K0; destruct i0; cbn in *; tauto).
  pose proof (hash_sound (item_attrs i0) NA) as HH. destruct (match dict_get (item_attrs i0) s_hash with None => _ | Some a => _ end) as [h|e]; cbn [rbind].
  2: { eapply sf_hash; [|exact HH]. exists n0. now split. }
  destruct HH as (b & B1 & B2). assert (FH : first_hash f h) by (exists n0, i0, b; now split).
  assert (HV : hash_version h (version_of h)) by now apply version_iff.
  pose proof (generation_sound h) as HG. destruct (generation_of (version_of h)) as [g|e]; cbn [rbind].
  2: { destruct HG as [-> HG]. eapply sf_version; eauto. }
  unfold site_read_file. destruct (site_tables_ok g t HT) as (ta & td & -> & ->). cbn [rbind].
  pose proof (read_records_sound f HK) as HR. destruct (BorealisFile.read_records f) as [rs|e]; cbn [rbind]; [|eapply sf_member; eauto].
  destruct HR as [HR _]. pose proof (look_all f rs HK HR) as HL. destruct (ppo_site_fix rs) as [rs'|e]; cbn [rbind]; [|eapply sf_offsets; eauto].
  destruct HL as [HL _]. pose proof (looked_proper rs rs' (proj1 HR) HL) as HP.
  pose proof (check_refusal g t rs' HT HP) as HC. destruct (check_site_records (format_class g t) rs') as [[]|e]; cbn [rbind]; [|eapply sf_fields; eauto].
  rewrite (sort_id rs') by (rewrite (proj1 HL); exact (proj1 HR)). cbn [sr_type sr_version sr_gen sr_records].
  split; [reflexivity|]. split; [|exact HC]. exists h, rs. now repeat (split; [assumption|]).
Qed.

(** ** Array files *)

Definition member_array (i : hitem) : res bval := match i with HGroup _ _ => Raise TypeError | HDset d _ => read_dset d end.

Lemma member_array_sound i : item_known i -> sound (member_array i) (array_member_fault i) (fun v => exists d ats, i = HDset d ats /\ dset_shows d v).
Proof.
  destruct i as [ds ats|d ats]; cbn [item_known member_array]; [intros _; constructor|]. intros [_ HK]. pose proof (read_dset_sound d HK) as H.
  destruct (read_dset d) as [v|e]; cbn [sound] in *; [|now constructor]. destruct H as [H1 H2]. split; [eauto|].
  intros e C. inversion C; subst. eapply H2; eauto.
Qed.

Definition dsets_of (d : dict hitem) : dict hdset := flat_map (fun p => match snd p with HDset x _ => [(fst p, x)] | _ => [] end) d.

Lemma dsets_rel d l : Forall2 (same_key (fun i v => exists x ats, i = HDset x ats /\ dset_shows x v)) d l ->
  Forall2 (same_key dset_shows) (dsets_of d) l /\ keys (dsets_of d) = keys d /\
  forall k x, dict_get (dsets_of d) k = Some x <-> exists ats, dict_get d k = Some (HDset x ats).
Proof.
  induction 1 as [|[k i] [k' v] d l [E (x & ats & E1 & S)] H (I1 & I2 & I3)].
  - split; [constructor|]. split; [reflexivity|]. intros k x. cbn. split; [discriminate|]. intros (ats & C). discriminate.
  - cbn [fst snd] in *. subst. cbn [dsets_of flat_map snd fst app]. fold (dsets_of d). split; [|split].
    + constructor; [now split|exact I1].
    + cbn [keys map fst]. unfold keys in I2. now rewrite I2.
    + intros k y. cbn [dict_get]. destruct (str_eqb k' k); [|apply I3]. split; [intros [= <-]; eauto|]. intros (a & [= <- <-]). reflexivity.
Qed.

Lemma read_arrays_sound f : file_known f ->
  match BorealisFile.read_arrays f with
  | Ok a => arrays_shown f a
  | Raise e => by_name_fault array_member_fault (h_items f) e \/
      (forall n i e', In (n, i) (h_items f) -> ~ array_member_fault i e') /\ in_order_fault attr_fault (fun k => ~ bookkeeping k) (h_attrs f) e
  end.
Proof.
  intros (N & NA & HK & HA). unfold BorealisFile.read_arrays.
  assert (P : Permutation (sort_dict (h_items f)) (h_items f)) by apply sort_perm.
  pose proof (map_sound member_array array_member_fault _ (sort_dict (h_items f)) (fun k x HI => member_array_sound x (HK k x (Permutation_in _ P HI)))) as H.
  unfold member_array in H. destruct (mapM _ (sort_dict (h_items f))) as [dl|e]; cbn [rbind]; [|left; now apply sorted_fault].
  destruct H as [H1 H2]. pose proof (read_attrs_sound (h_attrs f) HA) as H3. destruct (read_attrs (h_attrs f)) as [al|e]; cbn [rbind].
  2: { right. split; [|exact H3]. intros n i e' HI. apply (H2 n i e'). eapply Permutation_in; [symmetry; exact P|exact HI]. }
  destruct (dsets_rel _ _ H1) as (R1 & R2 & R3). exists (dsets_of (sort_dict (h_items f))). split; [|split].
  - intros k d. rewrite R3. now setoid_rewrite (perm_get (h_items f) (sort_dict (h_items f)) k N P).
  - intros k HI. rewrite R2. eapply Permutation_in; [symmetry; apply keys_perm; exact P|exact HI].
  - apply fields_made; [|exact NA|exact R1|exact (proj1 H3)]. rewrite R2. eapply Permutation_NoDup; [symmetry; apply keys_perm; exact P|exact N].
Qed.

Lemma array_look_sound a : NoDup (keys a) -> (forall k v, dict_get a k = Some v -> plain_value v) ->
  sound (ppo_array_fix a) (array_offsets_fault a) (fun a' => arrays_back a a' /\ NoDup (keys a')).
Proof.
  intros N HP. unfold ppo_array_fix. destruct (dict_get a s_ppo) as [v|] eqn:E.
  2: { split; [|intros e C; inversion C; fold s_ppo in *; congruence]. split; [|exact N]. split; [auto|]. fold s_ppo. now rewrite E. }
  destruct (HP _ _ E) as [(s & ->)|(s & HS)]; [eapply ao_text; exact E|]. rewrite (shape_eq v s HS).
  destruct (list_eq_dec Nat.eq_dec s [2%nat]) as [->|NE].
  - unfold dict_item. destruct (dict_get a (str "num_sequences")) as [n|] eqn:EN; cbn [rbind].
    2: { eapply ao_alone; [exact E|exact HS|now apply dict_get_none]. }
    destruct (HP _ _ EN) as [(s' & ->)|(sn & HSN)]; [eapply ao_words; [exact E|exact HS|exact EN]|]. rewrite (shape_eq n sn HSN).
    destruct sn as [|d sn]; [eapply ao_scalar; [exact E|exact HS|exact EN|exact HSN]|]. cbn [sound].
    assert (exists ty l, n = BArr ty (d :: sn) l) as (ty & l & ->).
    { destruct n; cbn in HSN; try contradiction; try discriminate. subst. eauto. }
    split.
    + split; [|now apply dict_set_nodup]. split.
      * intros k Hk. fold s_ppo in Hk. rewrite dict_get_set. destruct (str_eqb s_ppo k) eqn:EK; [apply str_eqb_eq in EK; congruence|reflexivity].
      * fold s_ppo. rewrite E. exists [2%nat]. split; [exact HS|]. split; [contradiction|]. intros _. exists d, sn. split; [eauto|].
        rewrite dict_get_set, str_eqb_refl. reflexivity.
    + intros e C. inversion C as [s1 C1|v1 C1 C2 C3|v1 n1 C1 C2 C3 C4|v1 s1 C1 C2 C3]; subst; fold s_ppo in C1.
      * rewrite E in C1. injection C1 as ->. exact HS.
      * apply C3. apply keys_in. eexists. apply dict_get_In. exact EN.
      * rewrite EN in C3. injection C3 as <-. cbn in C4. discriminate.
      * rewrite EN in C3. discriminate.
  - assert (G : sound (Ok a) (array_offsets_fault a) (fun a' => arrays_back a a' /\ NoDup (keys a'))).
    { split.
      - split; [|exact N]. split; [auto|]. fold s_ppo. rewrite E. exists s. split; [exact HS|]. split; [auto|contradiction].
      - intros e C. assert (U : forall v1, dict_get a s_ppo = Some v1 -> has_shape v1 [2%nat] -> False).
        { intros v1 C1 C2. assert (v1 = v) as -> by congruence. apply NE. apply shape_eq in C2. rewrite (shape_eq v s HS) in C2. congruence. }
        inversion C as [s1 C1|v1 C1 C2 C3|v1 n1 C1 C2 C3 C4|v1 s1 C1 C2 C3]; subst; fold s_ppo in C1; try (eapply U; eassumption).
        rewrite E in C1. injection C1 as ->. exact HS. }
    destruct s as [|[|[|[|s0]]] [|s1 ss]]; try exact G. contradiction.
Qed.

Lemma array_tables_ok g t : has_structures t -> exists a d u, array_single_element_types (format_class g t) = Ok a /\
  array_array_dtypes (format_class g t) = Ok d /\ unshared_fields (format_class g t) = Ok u.
Proof. intros HT. destruct g, t; try (exfalso; apply HT; reflexivity); (eexists _, _, _; split; [|split]; vm_compute; reflexivity). Qed.

Theorem array_outcome fs name f t : holds fs name f -> file_known f -> has_structures t ->
  match array_read fs name (type_name t) with
  | Ok rd => BorealisFile.ar_type rd = t /\ (exists h a, root_hash f h /\ hash_version h (ar_version rd) /\ supported (ar_version rd) (ar_gen rd) /\
      arrays_shown f a /\ arrays_back a (ar_arrays rd)) /\ arrays_ok (format_class (ar_gen rd) t) (ar_arrays rd)
  | Raise e => array_fault t f e
  end.
Proof.
  intros HF HK HT. unfold array_read. rewrite type_name_of. unfold h5_open. rewrite HF. cbn [rbind].
  pose proof HK as (_ & NA & _ & KA). unfold array_hash. pose proof (hash_sound (h_attrs f) NA) as HH.
  destruct (match dict_get (h_attrs f) s_hash with None => _ | Some a => _ end) as [h|e]; cbn [rbind]; [|now apply af_hash].
  assert (FH : root_hash f h) by exact HH. assert (HV : hash_version h (version_of h)) by now apply version_iff.
  pose proof (generation_sound h) as HG. destruct (generation_of (version_of h)) as [g|e]; cbn [rbind].
  2: { destruct HG as [-> HG]. eapply af_version; eauto. }
  unfold array_read_file. destruct (array_tables_ok g t HT) as (ta & td & tu & -> & -> & ->). cbn [rbind].
  pose proof (read_arrays_sound f HK) as HR. destruct (BorealisFile.read_arrays f) as [a|e]; cbn [rbind].
  2: { destruct HR as [HR|[HR1 HR2]]; [eapply af_member; eauto|eapply af_attr; eauto]. }
  assert (HP : forall k v, dict_get a k = Some v -> plain_value v).
  { destruct HR as (ds & _ & _ & HS). intros k v. exact (fields_plain ds (h_attrs f) a k v KA HS). }
  assert (N : NoDup (keys a)) by (destruct HR as (ds & _ & _ & HS); exact (proj1 HS)).
  pose proof (array_look_sound a N HP) as HL. destruct (ppo_array_fix a) as [a'|e]; cbn [rbind sound] in *; [|eapply af_offsets; eauto].
  destruct HL as [[HL NA'] _]. pose proof (array_check_verdict g t a' HT NA') as HC. pose proof (arrays_ok_check g t a' HT NA') as HO.
  destruct (check_array_dict (format_class g t) a') as [[]|e]; cbn [rbind]; [|eapply af_fields; eauto].
  cbn [BorealisFile.ar_type ar_version ar_gen ar_arrays]. split; [reflexivity|]. split; [|now apply HO]. exists h, a. now repeat (split; [assumption|]).
Qed.

(** ** BorealisRead *)

Theorem read_outcome fs name f t : holds fs name f -> file_known f -> has_structures t ->
  match borealis_read fs name (type_name t) None with
  | Ok (ArrayReader rd) => arrays_ok (format_class (ar_gen rd) t) (ar_arrays rd)
  | Ok (SiteReader rd) => (exists e, structure_error e /\ array_fault t f e) /\
      forall n r, In (n, r) (sr_records rd) -> BorealisSpec.site_record_ok (format_class (sr_gen rd) t) r
  | Raise e => (array_fault t f e /\ ~ structure_error e) \/ ((exists e', structure_error e' /\ array_fault t f e') /\ site_fault t f e)
  end.
Proof.
  intros HF HK HT. unfold borealis_read. rewrite type_name_of. unfold return_reader.
  pose proof (array_outcome fs name f t HF HK HT) as HA. pose proof (site_outcome fs name f t HF HK HT) as HS.
  destruct (array_read fs name (type_name t)) as [rd|e]; [exact (proj2 (proj2 HA))|].
  destruct (falls_back e) eqn:EB.
  - assert (SE : structure_error e) by (destruct e; try discriminate EB; constructor).
    destruct (site_read fs name (type_name t)) as [rd|e2]; cbn [rbind]; [|right; eauto]. split; [eauto|exact (proj2 (proj2 HS))].
  - left. split; [exact HA|]. intros C. destruct C; discriminate EB.
Qed.

(** What is shown has no fault. *)
Theorem shown_faultless d v e : dset_shows d v -> ~ dset_fault d e.
Proof.
  intros [HS HI|w s k ts HI HS HL HT] C; inversion C as [C1|w' s' n' C1 C2 C3]; subst; try congruence.
  - rewrite HS in C1. destruct s; discriminate.
  - assert (w' = w) as -> by congruence. rewrite HS in C2. apply app_inj_tail in C2 as [_ C2]. now apply (C3 k).
Qed.
Theorem shown_decoded a v e : attr_shows a v -> ~ attr_fault a e.
Proof. intros H (_ & b & -> & C). inversion H; congruence. Qed.

(** ** Deciding [file_known] *)

Definition dset_knownb (d : hdset) : bool :=
  match hd_item d with
  | None => true
  | Some w => negb (Nat.eqb w 0) && btype_eqb (hd_type d) BU8 && Nat.eqb (length (hd_data d)) (size (hd_shape d)) &&
              forallb (fun c => match c with CZ _ => true | _ => false end) (hd_data d)
  end.
Lemma dset_knownb_ok d : dset_knownb d = true -> dset_known d.
Proof.
  unfold dset_knownb, dset_known. destruct (hd_item d) as [w|]; [|intros _ C; contradiction]. intros H _.
  apply andb_true_iff in H as [H H4]. apply andb_true_iff in H as [H H3]. apply andb_true_iff in H as [H1 H2]. split; [|split; [|split]].
  - intros [= ->]. discriminate.
  - destruct (hd_type d); try discriminate H2; reflexivity.
  - now apply Nat.eqb_eq.
  - apply Forall_forall. intros c HC. rewrite forallb_forall in H4. apply H4 in HC. destruct c; try discriminate. eauto.
Qed.

Definition attr_knownb (a : hattr) : bool :=
  match a with
  | HBytes _ | HStr _ => true
  | HEmpty (BStr | BNpStr | BOther) => false
  | HEmpty _ => true
  | HValue (BScalar _ _ | BArr _ _ _) => true
  | HValue _ => false
  end.
Lemma attr_knownb_ok a : attr_knownb a = true -> attr_known a.
Proof.
  destruct a as [b|s|t|v]; cbn; intros H; [apply ak_bytes|apply ak_str| |].
  - destruct t; try discriminate H; first [exact ak_none|apply ak_zero; exact I].
  - destruct v; try discriminate H; eapply ak_value; reflexivity.
Qed.

Definition item_knownb (i : hitem) : bool :=
  match i with
  | HGroup ds ats => nodupb (keys ds) && nodupb (keys ats) && forallb (fun p => dset_knownb (snd p)) ds && forallb (fun p => attr_knownb (snd p)) ats
  | HDset d ats => nodupb (keys ats) && dset_knownb d
  end.
Lemma item_knownb_ok i : item_knownb i = true -> item_known i.
Proof.
  destruct i as [ds ats|d ats]; cbn [item_knownb item_known]; intros H.
  - apply andb_true_iff in H as [H H4]. apply andb_true_iff in H as [H H3]. apply andb_true_iff in H as [H1 H2].
    split; [now apply nodupb_ok|]. split; [now apply nodupb_ok|]. rewrite forallb_forall in H3, H4. split.
    + intros k d HI. apply dset_knownb_ok. exact (H3 _ HI).
    + intros k a HI. apply attr_knownb_ok. exact (H4 _ HI).
  - apply andb_true_iff in H as [H1 H2]. split; [now apply nodupb_ok|now apply dset_knownb_ok].
Qed.

Definition file_knownb (f : hfile) : bool :=
  nodupb (keys (h_items f)) && nodupb (keys (h_attrs f)) && forallb (fun p => item_knownb (snd p)) (h_items f) &&
  forallb (fun p => attr_knownb (snd p)) (h_attrs f).
Lemma file_knownb_ok f : file_knownb f = true -> file_known f.
Proof.
  unfold file_knownb. intros H. apply andb_true_iff in H as [H H4]. apply andb_true_iff in H as [H H3]. apply andb_true_iff in H as [H1 H2].
  split; [now apply nodupb_ok|]. split; [now apply nodupb_ok|]. rewrite forallb_forall in H3, H4. split.
  - intros n i HI. apply item_knownb_ok. exact (H3 _ HI).
  - intros k a HI. apply attr_knownb_ok. exact (H4 _ HI).
Qed.
