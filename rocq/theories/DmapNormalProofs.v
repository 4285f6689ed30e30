(** Lemmas for C92: what a reader returns for a mild file is representable. *)
From Coq Require Import ZArith List Bool Lia ZifyBool ZifyNat.
From Verif Require Import Base Bytes BytesSpec BytesProofs Utf8 Utf8Proofs FloatBits FloatBitsProofs
  DmapTypes DmapRead DmapWrite Conversions DmapSpec DmapWriteSpec
  DmapReadProofs DmapFileProofs DmapStreamProofs DmapWriteProofs DmapWriterProofs DmapWriteFacts DmapShapeProofs SDarnChecks DmapNormalSpec.
Import ListNotations.
Open Scope Z_scope.

Section Quiet.
Ltac Zify.zify_post_hook ::= Z.div_mod_to_equations.
Lemma widen_quiet b : 0 <= b < 2 ^ 32 -> f32_snan b = true ->
  0 <= b + 2 ^ 22 < 2 ^ 32 /\ f32_snan (b + 2 ^ 22) = false /\ widen (b + 2 ^ 22) = widen b.
Proof.
  intros Hb HS. pose proof (narrow_range (widen b) (widen_range _ Hb)) as HN.
  rewrite narrow_widen_gen, HS in HN by auto. destruct HN as [H1 H2]. split; [exact H1|]. split; [exact H2|].
  unfold f32_snan in HS. destruct (f32_split b Hb) as (H3 & H4 & H5 & H6).
  destruct (f32_fields (f32_sign b) (f32_exp b) (f32_man b + 2 ^ 22)) as (F1 & F2 & F3); [exact H3|exact H4|lia|].
  replace (f32_sign b * 2 ^ 31 + f32_exp b * 2 ^ 23 + (f32_man b + 2 ^ 22)) with (b + 2 ^ 22) in F1, F2, F3 by lia.
  unfold widen. rewrite F1, F2, F3. replace (f32_exp b =? 255) with true by lia.
  replace (f32_man b =? 0) with false by lia. replace (f32_man b + 2 ^ 22 =? 0) with false by lia.
  replace ((f32_man b + 2 ^ 22) mod 2 ^ 22) with (f32_man b mod 2 ^ 22) by lia. reflexivity.
Qed.
End Quiet.
Ltac Zify.zify_post_hook ::= idtac.

Lemma plain_text_len s bs : plain_text s -> wire_text s bs -> zlen bs = zlen s + 1.
Proof.
  intros HP (e & HE & _ & ->). destruct (pack_text_plain _ HP) as [_ (e2 & HE2 & _ & HX)].
  apply app_inj_tail in HX as [-> _]. assert (e = e2) as -> by congruence. rewrite zlen_app. reflexivity.
Qed.

Lemma mild_scalar_back s bs : wire_scalar s bs -> mild_scalar s -> scalar_back s s /\ scalar_bytes s = zlen bs.
Proof.
  intros [name f v nb vb HT HV] [HN HM]. clear s bs. cbn [sc_name sc_fmt sc_value] in *.
  assert (A : reads_back f v v /\ zlen vb = match v with VStr t => zlen t + 1 | _ => Z.of_nat (wire_size f) end).
  { destruct HV as [b Hb|t bs HS|bs HL HB|bs HL HB|f z bs HI HW]; cbn [wire_size].
    - split; [|reflexivity]. apply rb_char; [reflexivity|]. unfold is_byte in Hb. lia.
    - split; [now apply rb_str|]. now apply plain_text_len.
    - split; [|unfold zlen; now rewrite HL]. rewrite le_num_dec. pose proof (le_dec_range bs HB) as HR. rewrite HL in HR.
      change (256 ^ Z.of_nat 4) with (2 ^ 32) in HR.
      destruct (f32_snan (le_dec bs)) eqn:E.
      + destruct (widen_quiet _ HR E) as (H1 & H2 & <-). apply rb_f32; [exact H1|exact H2|now left].
      + apply rb_f32; [exact HR|exact E|now left].
    - split; [|unfold zlen; now rewrite HL]. rewrite le_num_dec. pose proof (le_dec_range bs HB) as HR. rewrite HL in HR.
      apply rb_f64; [exact HR|now left].
    - split.
      + apply rb_int; [exact HI|reflexivity|]. apply HW.
      + destruct HW as (HL & _). unfold zlen. now rewrite HL. }
  destruct A as [A1 A2]. split; [now constructor|].
  unfold scalar_bytes. cbn [sc_name sc_value sc_fmt]. rewrite !zlen_app, A2, (plain_text_len _ _ HN HT).
  change (zlen [wire_code f]) with 1. destruct v; lia.
Qed.

Lemma mild_array_back blk a bs : wire_array blk a bs -> mild_array a ->
  (forall blk', 0 < blk' -> array_back blk' a a) /\ array_bytes a = zlen bs.
Proof.
  intros [name f dims data nb db sb eb HT Hf HR HD HB HS HE HP] [HN HZ]. cbn [ar_name ar_fmt ar_shape] in *. split.
  - intros blk' Hb. apply array_back_intro; try assumption.
    + destruct f; cbn; auto; congruence.
    + destruct HZ as [HZ|[HZ1 HZ2]]; [now left|right].
      assert (HSl : name = s_slist).
      { destruct dims as [|n dims]; [unfold zlen in HR; cbn in HR; lia|]. inversion HD; inversion HZ2; subst. intuition lia. }
      split; [exact HSl|]. split; [exact HZ1|]. clear - HZ2 Hb. induction HZ2; constructor; auto. lia.
    + clear - HE. induction HE as [|x xs b bs [_ [_ [H _]]] HE IH]; constructor; auto.
  - unfold array_bytes. cbn [ar_name ar_shape ar_fmt ar_value nd_data]. rewrite !zlen_app, (plain_text_len _ _ HN HT).
    change (zlen [wire_code f]) with 1.
    pose proof (wire_int_len _ _ _ _ HB) as L1. pose proof (wire_list_int_len _ _ _ _ HS) as L2. pose proof (wire_list_int_len _ _ _ _ HE) as L3.
    rewrite L1, L2, L3. unfold zlen. rewrite rev_length. lia.
Qed.

(** A list without repetition inside another one adds up to no more. *)
Lemma total_incl {A} (f : A -> Z) : (forall x, 0 <= f x) -> forall l l', NoDup l -> incl l l' -> total (map f l) <= total (map f l').
Proof.
  intros HF. assert (HA : forall a b, total (map f (a ++ b)) = total (map f a) + total (map f b)).
  { intros a b. unfold total. induction a as [|x a IH]; cbn [app map fold_right]; lia. }
  assert (HP : forall a, 0 <= total (map f a)).
  { induction a as [|x a IH]; cbn; [lia|]. specialize (HF x). unfold total in *. lia. }
  induction l as [|x l IH]; intros l' HN HI; [apply HP|].
  inversion HN as [|? ? HX HN']; subst. destruct (in_split x l' (HI x (or_introl eq_refl))) as (l1 & l2 & ->).
  rewrite HA. cbn [map total fold_right]. fold (total (map f l)). fold (total (map f l2)).
  assert (total (map f l) <= total (map f (l1 ++ l2))).
  { apply IH; auto. intros y Hy. specialize (HI y (or_intror Hy)). apply in_app_iff in HI. apply in_app_iff.
    destruct HI as [HI|[<-|HI]]; auto. contradiction. }
  rewrite HA in H. unfold total in *. cbn [fold_right]. lia.
Qed.

Definition field_size (it : item) : Z :=
  match it with IScalar s => scalar_bytes s | IArray a => array_bytes a | IPlain _ => 0 end.
Lemma field_size_nonneg it : 0 <= field_size it.
Proof.
  destruct it as [s|a|v]; cbn [field_size]; [| |lia].
  - unfold scalar_bytes. pose proof (zlen_nonneg (sc_name s)). destruct (sc_value s); try lia. pose proof (zlen_nonneg s0). lia.
  - unfold array_bytes. pose proof (zlen_nonneg (ar_name a)). pose proof (zlen_nonneg (ar_shape a)). pose proof (zlen_nonneg (nd_data (ar_value a))). nia.
Qed.
Lemma block_size b : block_bytes b = 16 + total (map (fun p => field_size (snd p)) (block_fields b)).
Proof.
  unfold block_bytes, block_fields. rewrite map_app, !map_map. cbn [snd field_size].
  assert (HA : forall a c, total (a ++ c) = total a + total c).
  { intros a c. unfold total. induction a as [|x a IH]; cbn [app fold_right]; lia. }
  rewrite HA. change (map (fun x => scalar_bytes x) (fst b)) with (map scalar_bytes (fst b)).
  change (map (fun x => array_bytes x) (snd b)) with (map array_bytes (snd b)). lia.
Qed.

(** A dictionary whose scalar names come before its array names is a block. *)
Lemma first_app l1 : forall l2, (forall k, In k l1 -> ~ In k l2) ->
  first_occurrences (l1 ++ l2) = first_occurrences l1 ++ first_occurrences l2.
Proof.
  induction l1 as [|k l1 IH]; intros l2 H; cbn [app first_occurrences]; auto.
  rewrite IH by (intros k' Hk; apply H; now right). rewrite filter_app. f_equal. f_equal.
  assert (HK : ~ In k (first_occurrences l2)).
  { rewrite first_occurrences_In. apply H. now left. }
  revert HK. generalize (first_occurrences l2) as l. clear. induction l as [|x l IH]; intros HK; cbn [filter]; auto.
  destruct (str_eqb x k) eqn:E; [apply str_eqb_eq in E; subst; exfalso; apply HK; now left|]. cbn [negb].
  rewrite IH; auto. intros C. apply HK. now right.
Qed.

Lemma scalars_ex (r : record) (b : DmapSpec.block) : (forall p, In p r -> exists s, In s (fst b) /\ p = (sc_name s, IScalar s)) ->
  exists ss, r = map (fun s => (sc_name s, IScalar s)) ss /\ incl ss (fst b).
Proof.
  induction r as [|p r IH]; intros H.
  - exists []. split; [reflexivity|]. intros x [].
  - destruct IH as (ss & -> & HI); [intros q Hq; apply H; now right|]. destruct (H p (or_introl eq_refl)) as (s & Hs & ->).
    exists (s :: ss). split; [reflexivity|]. intros x [<-|Hx]; auto.
Qed.
Lemma arrays_ex (r : record) (b : DmapSpec.block) : (forall p, In p r -> exists a, In a (snd b) /\ p = (ar_name a, IArray a)) ->
  exists aa, r = map (fun a => (ar_name a, IArray a)) aa /\ incl aa (snd b).
Proof.
  induction r as [|p r IH]; intros H.
  - exists []. split; [reflexivity|]. intros x [].
  - destruct IH as (ss & -> & HI); [intros q Hq; apply H; now right|]. destruct (H p (or_introl eq_refl)) as (s & Hs & ->).
    exists (s :: ss). split; [reflexivity|]. intros x [<-|Hx]; auto.
Qed.

Lemma dict_block b r : dict_of_block b r -> (forall s a, In s (fst b) -> In a (snd b) -> sc_name s <> ar_name a) ->
  exists b', r = block_fields b' /\ incl (fst b') (fst b) /\ incl (snd b') (snd b) /\
    map sc_name (fst b') = first_occurrences (map sc_name (fst b)) /\
    map ar_name (snd b') = first_occurrences (map ar_name (snd b)).
Proof.
  intros [HK HG] HD. destruct b as [ss aa]. cbn [fst snd] in *.
  unfold block_fields in HK. cbn [fst snd] in HK. rewrite map_app, !map_map in HK. cbn [fst] in HK.
  assert (HX : forall k, In k (map sc_name ss) -> ~ In k (map ar_name aa)).
  { intros k H1 H2. apply in_map_iff in H1 as (s & <- & H1). apply in_map_iff in H2 as (a & H3 & H2). now apply (HD s a). }
  change (map (fun x => sc_name x) ss) with (map sc_name ss) in HK. change (map (fun x => ar_name x) aa) with (map ar_name aa) in HK.
  rewrite first_app in HK by exact HX.
  assert (HN : NoDup (map fst r)).
  { rewrite HK, <- first_app by exact HX. apply first_occurrences_NoDup. }
  assert (HI : forall p, In p r -> In p (block_fields (ss, aa))).
  { intros [k v] Hp. apply (dict_get_nodup r k v HN) in Hp. rewrite HG in Hp. now apply last_value_in in Hp. }
  apply map_eq_app in HK as (r1 & r2 & -> & K1 & K2).
  destruct (scalars_ex r1 (ss, aa)) as (ss' & -> & I1).
  { intros p Hp. specialize (HI p (in_or_app _ _ _ (or_introl Hp))). apply in_app_iff in HI as [HI|HI].
    - apply in_map_iff in HI as (s & <- & HI). eauto.
    - apply in_map_iff in HI as (a & <- & HI). exfalso. cbn [fst snd] in HI.
      apply (in_map fst) in Hp. rewrite K1 in Hp. apply (proj1 (first_occurrences_In _ _)) in Hp. apply (HX _ Hp). cbn [fst]. now apply in_map. }
  destruct (arrays_ex r2 (ss, aa)) as (aa' & -> & I2).
  { intros p Hp. specialize (HI p (in_or_app _ _ _ (or_intror Hp))). apply in_app_iff in HI as [HI|HI].
    - apply in_map_iff in HI as (s & <- & HI). exfalso. cbn [fst snd] in HI.
      apply (in_map fst) in Hp. rewrite K2 in Hp. apply (proj1 (first_occurrences_In _ _)) in Hp. apply (fun H => HX _ H Hp). cbn [fst]. now apply in_map.
    - apply in_map_iff in HI as (a & <- & HI). eauto. }
  exists (ss', aa'). cbn [fst snd] in *. rewrite map_map in K1, K2. splits; auto.
Qed.

Lemma wire_scalars_mild ss sb : wire_list wire_scalar ss sb -> Forall mild_scalar ss ->
  Forall (fun s => scalar_back s s) ss /\ total (map scalar_bytes ss) = zlen sb.
Proof.
  intros H HM. induction H as [|s ss b bs Hs H IH]; [split; [constructor|reflexivity]|].
  inversion HM as [|? ? H1 H2]; subst. destruct (IH H2) as [I1 I2]. destruct (mild_scalar_back _ _ Hs H1) as [J1 J2].
  split; [now constructor|]. rewrite zlen_app. cbn [map total fold_right]. unfold total in I2. lia.
Qed.
Lemma wire_arrays_mild blk aa ab : wire_list (wire_array blk) aa ab -> Forall mild_array aa ->
  Forall (fun a => forall blk', 0 < blk' -> array_back blk' a a) aa /\ total (map array_bytes aa) = zlen ab.
Proof.
  intros H HM. induction H as [|s ss b bs Hs H IH]; [split; [constructor|reflexivity]|].
  inversion HM as [|? ? H1 H2]; subst. destruct (IH H2) as [I1 I2]. destruct (mild_array_back _ _ _ Hs H1) as [J1 J2].
  split; [now constructor|]. rewrite zlen_app. cbn [map total fold_right]. unfold total in I2. lia.
Qed.

Lemma mild_back id b bs r : wire_block id b bs -> mild_block b -> dict_of_block b r ->
  block_bytes b = zlen bs /\
  exists b', r = block_fields b' /\ block_back b' b' /\ block_bytes b' <= zlen bs.
Proof.
  intros HW (MS & MA & MD) HD. pose proof (wire_block_len _ _ _ HW) as HL.
  destruct HW as [ss aa szb nsb nab sb ab Hid HB HS0 HA0 W1 W2 W3 HSS HAA]. cbn [fst snd] in *.
  destruct (wire_scalars_mild _ _ HSS MS) as [B1 T1]. destruct (wire_arrays_mild _ _ _ HAA MA) as [B2 T2].
  assert (HZ : block_bytes (ss, aa) = zlen (id ++ szb ++ nsb ++ nab ++ sb ++ ab)).
  { unfold block_bytes. cbn [fst snd]. rewrite T1, T2, !zlen_app.
    pose proof (wire_int_len _ _ _ _ W1) as L1. pose proof (wire_int_len _ _ _ _ W2) as L2. pose proof (wire_int_len _ _ _ _ W3) as L3.
    rewrite L1, L2, L3. assert (zlen id = 4) by (unfold zlen; now rewrite Hid). lia. }
  split; [exact HZ|]. destruct (dict_block _ _ HD MD) as (b' & -> & I1 & I2 & N1 & N2). cbn [fst snd] in *. exists b'. split; [reflexivity|].
  assert (HND : NoDup (map fst (block_fields b'))).
  { destruct HD as [HK _]. rewrite HK. apply first_occurrences_NoDup. }
  assert (HLe : block_bytes b' <= zlen (id ++ szb ++ nsb ++ nab ++ sb ++ ab)).
  { rewrite <- HZ, !block_size.
    assert (total (map (fun p => field_size (snd p)) (block_fields b')) <= total (map (fun p => field_size (snd p)) (block_fields (ss, aa)))); [|lia].
    apply total_incl; [intros p; apply field_size_nonneg| |].
    - clear - HND. apply NoDup_map_inv in HND. exact HND.
    - unfold block_fields. cbn [fst snd]. intros p Hp. apply in_app_iff in Hp. apply in_app_iff. destruct Hp as [Hp|Hp]; [left|right];
        apply in_map_iff in Hp as (x & <- & Hx); apply in_map_iff; eauto. }
  split; [|exact HLe]. unfold block_back. splits.
  - intros C. rewrite C in N1. destruct ss as [|s ss]; [congruence|discriminate].
  - intros C. rewrite C in N2. destruct aa as [|s ss']; [congruence|discriminate].
  - exact HND.
  - lia.
  - rewrite Forall_forall in B1. clear - B1 I1. induction (fst b') as [|s l IH]; constructor.
    + apply B1, I1. now left.
    + apply IH. intros x Hx. apply I1. now right.
  - assert (HP : 0 < block_bytes b').
    { rewrite block_size. assert (0 <= total (map (fun p => field_size (snd p)) (block_fields b'))); [|lia].
      generalize (block_fields b') as l. clear. induction l as [|p l IH]; cbn; [lia|]. pose proof (field_size_nonneg (snd p)). unfold total in IH. lia. }
    rewrite Forall_forall in B2. revert HP. generalize (block_bytes b'). clear - B2 I2. intros z HP. induction (snd b') as [|s l IH]; constructor.
    + apply B2; auto. apply I2. now left.
    + apply IH. intros x Hx. apply I2. now right.
Qed.

Lemma mild_file bl buf : wire_file bl buf -> Forall mild_block bl -> forall rs, Forall2 dict_of_block bl rs ->
  file_bytes bl = zlen buf /\
  exists bl', rs = map block_fields bl' /\ Forall (fun b => block_back b b) bl' /\ file_bytes bl' <= zlen buf.
Proof.
  intros H. induction H as [|b bl x xs [id Hb] HW IH]; intros HM rs HF.
  - inversion HF; subst. split; [reflexivity|]. exists []. splits; auto. cbn. unfold file_bytes, zlen. cbn. lia.
  - inversion HM as [|? ? M1 M2]; subst. inversion HF as [|? r ? rs' F1 F2]; subst.
    destruct (IH M2 _ F2) as (L & bl' & -> & B & Z). destruct (mild_back _ _ _ _ Hb M1 F1) as (L1 & b' & -> & B1 & Z1).
    rewrite zlen_app. unfold file_bytes in *. cbn [map total fold_right]. unfold total in *. split; [lia|].
    exists (b' :: bl'). splits; [reflexivity|now constructor|]. cbn [map fold_right]. lia.
Qed.

Lemma fields_inj ss : forall aa ss' aa', block_fields (ss, aa) = block_fields (ss', aa') -> ss = ss' /\ aa = aa'.
Proof.
  assert (A : forall aa aa', map (fun a => (ar_name a, IArray a)) aa = map (fun a => (ar_name a, IArray a)) aa' -> aa = aa').
  { induction aa as [|a aa IH]; intros [|a' aa'] H; try discriminate; auto. cbn [map] in H. injection H as _ -> H. f_equal. now apply IH. }
  unfold block_fields. cbn [fst snd]. induction ss as [|s ss IH]; intros aa [|s' ss'] aa' H; cbn [map app] in H.
  - split; [reflexivity|now apply A].
  - destruct aa; discriminate.
  - destruct aa'; discriminate.
  - injection H as _ -> H. apply IH in H as [-> ->]. auto.
Qed.
Lemma fields_same b b' : NoDup (map fst (block_fields b)) -> dict_of_block b (block_fields b') -> b' = b.
Proof.
  intros HN HD. pose proof (dict_of_block_fun _ _ _ HD (record_of_fields_dict b)) as H. rewrite record_of_fields_nodup in H by exact HN.
  destruct b, b'. apply fields_inj in H as [-> ->]. reflexivity.
Qed.
