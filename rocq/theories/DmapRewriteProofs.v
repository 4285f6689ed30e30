(** Reading and writing again reproduces plain files byte for byte. *)
From Coq Require Import ZArith List Bool Lia ZifyBool ZifyNat.
From Verif Require Import Base Bytes BytesSpec BytesProofs Utf8 Utf8Proofs FloatBits FloatBitsProofs
  DmapTypes DmapRead DmapWrite Conversions DmapSpec DmapWriteSpec
  DmapReadProofs DmapFileProofs DmapStreamProofs DmapWriteProofs DmapWriterProofs.
Import ListNotations.
Open Scope Z_scope.
Ltac Zify.zify_post_hook ::= Z.div_mod_to_equations.

Lemma wire_int_pack s n z bs : (0 < n)%nat -> wire_int s n z bs -> pack_int s n z = Ok bs.
Proof.
  intros Hn H. pose proof H as H0. apply wire_int_iff in H as (HL & HB & ->); auto.
  now apply pack_unpack.
Qed.

Lemma plain_value_bytes f v vb :
  wire_value f v vb -> plain_value f v vb -> scalar_data_bytes f v = Ok vb.
Proof.
  intros H HP. destruct H as [b Hb|s bs HT|bs HL HB|bs HL HB|f z bs HI HW]; cbn [plain_value] in HP.
  - cbn [scalar_data_bytes]. apply chr_encode_small. unfold is_byte in Hb. lia.
  - cbn [scalar_data_bytes]. destruct (pack_text_plain _ HP) as [HQ HT2]. rewrite HQ. f_equal.
    destruct HT as (e & He & _ & ->). destruct HT2 as (e2 & He2 & _ & ->). congruence.
  - cbn [scalar_data_bytes]. rewrite le_num_dec in *.
    assert (HR : 0 <= le_dec bs < 2 ^ 32).
    { pose proof (le_dec_range bs HB) as HR. rewrite HL in HR. exact HR. }
    rewrite !(narrow_widen_gen (le_dec bs)), HP by lia. rewrite narrow_widen_gen, HP by lia.
    f_equal. rewrite <- HL. now apply le_enc_dec.
  - cbn [scalar_data_bytes]. rewrite le_num_dec. f_equal. rewrite <- HL. now apply le_enc_dec.
  - assert (HS : scalar_data_bytes f (VInt z) = pack_int (fmt_signed f) (fmt_size f) z).
    { cbn [In] in HI. intuition (subst; reflexivity). }
    rewrite HS. apply wire_int_pack; auto. apply fmt_size_pos.
Qed.

Lemma plain_scalar_wire s bs : plain_scalar s bs -> wire_scalar s bs.
Proof.
  intros [name f v vb HN HV HP]. rewrite app_assoc. constructor; auto. now apply pack_text_plain.
Qed.

Lemma plain_scalar_bytes s bs : plain_scalar s bs -> dmap_scalar_to_bytes s = Ok bs.
Proof.
  intros [name f v vb HN HV HP]. unfold dmap_scalar_to_bytes.
  cbn [sc_name sc_type sc_fmt sc_value].
  rewrite (proj1 (pack_text_plain _ HN)). cbn [rbind]. rewrite pack_type_code. cbn [rbind].
  rewrite (plain_value_bytes _ _ _ HV HP). cbn [rbind]. now rewrite <- app_assoc.
Qed.

Lemma wire_sizes_pack l bs : wire_list wire_int32 l bs -> pack_sizes l = Ok bs.
Proof.
  intros H. induction H as [|x xs b bs HR H IH]; cbn [pack_sizes]; auto.
  rewrite (wire_int_pack _ _ _ _ (ltac:(lia) : (0 < 4)%nat) HR). cbn [rbind]. now rewrite IH.
Qed.

Lemma wire_elems_tostring f shape data eb :
  f <> Fs -> wire_list (wire_int (wire_signed f) (wire_size f)) data eb ->
  tostring (mk_ndarray (wire_dtype f) false shape data) = eb.
Proof.
  intros Hf H. unfold tostring. cbn [nd_data nd_dtype nd_be].
  induction H as [|x xs b bs HR H IH]; cbn [flat_map]; auto. f_equal; auto.
  unfold elem_enc. cbv zeta.
  assert (HD : dtype_size (wire_dtype f) = wire_size f) by (destruct f; try reflexivity; congruence).
  rewrite HD. apply wire_int_pack in HR; [|apply fmt_size_pos].
  now apply pack_int_inv in HR as [-> _].
Qed.

Lemma plain_array_bytes blk a bs :
  wire_array blk a bs -> plain_array a -> fst (dmap_array_to_bytes a) = Ok bs.
Proof.
  intros [name f dims data nb db sb eb HT Hf HR HD HB HS HE HP] [HN HZ].
  cbn [ar_name ar_fmt ar_shape] in *.
  unfold dmap_array_to_bytes. cbn [ar_name ar_fmt ar_shape ar_value ar_type ar_dim].
  assert (HC : match f with
               | Fc => rlet isstr := first_is_str (mk_ndarray (wire_dtype f) false dims data) in
                       if isstr then Raise DmapCharError else Ok tt
               | Fs => Raise DmapDataError | _ => Ok tt end = Ok tt).
  { destruct f; try reflexivity; try congruence.
    destruct HZ as [HZ|HZ]; [|congruence]. unfold first_is_str. cbn [nd_shape].
    destruct dims as [|n dims]; [unfold zlen in HR; cbn in HR; lia|].
    inversion HZ as [|? ? Hn _]; subst. replace (n <=? 0) with false by lia.
    destruct dims; reflexivity. }
  rewrite HC. cbn [rbind].
  rewrite (proj1 (pack_text_plain _ HN)). cbn [rbind]. rewrite pack_type_code. cbn [rbind].
  rewrite (wire_int_pack _ _ _ _ (ltac:(lia) : (0 < 4)%nat) HB). cbn [rbind fst].
  assert (HRev : (if 1 <? zlen dims then rev dims else dims) = rev dims).
  { destruct (1 <? zlen dims) eqn:E; auto.
    destruct dims as [|n [|m dims]]; auto. rewrite !zlen_cons in E. pose proof (zlen_nonneg dims). lia. }
  rewrite HRev, (wire_sizes_pack _ _ HS). cbn [rbind].
  rewrite (wire_elems_tostring _ _ _ _ Hf HE). f_equal. rewrite <- !app_assoc. cbn [app].
  destruct HT as (e & He & _ & ->).
  assert (e = name) as ->.
  { destruct (pack_text_plain _ HN) as [_ (e2 & He2 & _ & HX)].
    apply app_inj_tail in HX as [-> _]. congruence. }
  rewrite <- app_assoc. reflexivity.
Qed.

Lemma plain_items ss sb aa ab blk :
  wire_list plain_scalar ss sb -> wire_list (wire_array blk) aa ab -> Forall plain_array aa ->
  exists bl, Forall2 (fun p b => item_bytes (snd p) = Ok b) (block_fields (ss, aa)) bl /\
    sb ++ ab = concat bl.
Proof.
  intros HS HA HP. induction HS as [|s ss b bs Hs HS IH].
  - cbn [block_fields fst snd map app].
    induction HA as [|a aa b bs Ha HA IH]; cbn [map].
    + exists []. split; [constructor|reflexivity].
    + inversion HP as [|? ? HP1 HP2]; subst. destruct (IH HP2) as (bl & HF & HE).
      exists (b :: bl). split; [constructor; auto|cbn [concat]; now rewrite <- HE].
      cbn [snd item_bytes]. eapply plain_array_bytes; eauto.
  - destruct IH as (bl & HF & HE). exists (b :: bl). split.
    + cbn [block_fields fst snd map app]. constructor; auto.
      cbn [snd item_bytes]. now apply plain_scalar_bytes.
    + cbn [concat]. now rewrite <- HE, app_assoc.
Qed.

Lemma wire_list_len4 szb nsb nab sb szb' nsb' nab' sb' :
  length szb = 4%nat -> length nsb = 4%nat -> length nab = 4%nat ->
  length szb' = 4%nat -> length nsb' = 4%nat -> length nab' = 4%nat ->
  [1; 0; 1; 0] ++ szb ++ nsb ++ nab ++ sb = [1; 0; 1; 0] ++ szb' ++ nsb' ++ nab' ++ sb' ->
  szb = szb' /\ nsb = nsb' /\ nab = nab' /\ sb = sb'.
Proof.
  intros H1 H2 H3 H4 H5 H6 HE.
  apply app_eq_len in HE as [_ HE]; auto. apply app_eq_len in HE as [-> HE]; [|lia].
  apply app_eq_len in HE as [-> HE]; [|lia]. apply app_eq_len in HE as [-> HE]; [|lia]. auto.
Qed.

(** Two readings of the same scalars from the front of a byte string end at the
    same place. *)
Lemma wire_scalars_split ss : forall sb sb' ab ab',
  wire_list wire_scalar ss sb -> wire_list wire_scalar ss sb' ->
  sb ++ ab = sb' ++ ab' -> zlen (sb ++ ab) <= ssize_max -> sb = sb' /\ ab = ab'.
Proof.
  intros sb sb' ab ab' H1 H2 HE HM.
  assert (O1 : occurs (sb ++ ab) 0 sb) by (exists [], ab; auto).
  assert (O2 : occurs (sb ++ ab) 0 sb') by (rewrite HE; exists [], ab'; auto).
  pose proof (read_scalars_occ _ _ _ HM H1 _ O1) as R1.
  pose proof (read_scalars_occ _ _ _ HM H2 _ O2) as R2.
  rewrite R1 in R2. injection R2 as HL.
  apply app_eq_len in HE; auto. unfold zlen in HL. lia.
Qed.

Lemma plain_block_bytes b bs :
  plain_block b bs -> zlen bs <= ssize_max ->
  dmap_record_to_bytes (block_fields b) = (Ok bs, record_after (block_fields b)).
Proof.
  intros [ss aa szb nsb nab sb ab bs' HE HW L1 L2 L3 HS HP HND] HM.
  pose proof HW as HW0. remember (ss, aa) as b0 eqn:Eb0. remember [1;0;1;0] as id eqn:Eid.
  destruct HW as [ss' aa' szb' nsb' nab' sb' ab' Hid HB HS0 HA0 W1 W2 W3 HSS HAA].
  injection Eb0 as -> ->. subst id.
  pose proof (wire_int_len _ _ _ _ W1) as K1. pose proof (wire_int_len _ _ _ _ W2) as K2.
  pose proof (wire_int_len _ _ _ _ W3) as K3. unfold zlen in K1, K2, K3.
  apply wire_list_len4 in HE as HE'; try lia. destruct HE' as (-> & -> & -> & HE2).
  assert (HSw : wire_list wire_scalar ss sb).
  { clear - HS. induction HS; constructor; auto. now apply plain_scalar_wire. }
  apply (wire_scalars_split ss) in HE2; auto.
  2:{ rewrite !zlen_app in HM. rewrite zlen_app. pose proof (zlen_nonneg szb).
      pose proof (zlen_nonneg nsb). pose proof (zlen_nonneg nab).
      change (zlen [1;0;1;0]) with 4 in HM. lia. }
  destruct HE2 as [-> ->].
  set (blk := zlen ([1;0;1;0] ++ szb ++ nsb ++ nab ++ sb ++ ab)) in *.
  destruct (plain_items _ _ _ _ _ HS HAA HP) as (bl & HF & HC).
  assert (HFB : fields_to_bytes (block_fields (ss, aa)) =
    (Ok (sb ++ ab, scalars_of (block_fields (ss, aa)), arrays_of (block_fields (ss, aa))),
     record_after (block_fields (ss, aa)))).
  { apply fields_to_bytes_iff. exists bl. auto. }
  assert (HNS : scalars_of (block_fields (ss, aa)) = zlen ss).
  { unfold scalars_of, block_fields. cbn [fst snd]. rewrite filter_app, zlen_app.
    replace (filter _ (map (fun a => (ar_name a, IArray a)) aa)) with (@nil (pystr * item))
      by (clear; induction aa; auto).
    replace (filter _ (map (fun s => (sc_name s, IScalar s)) ss))
      with (map (fun s => (sc_name s, IScalar s)) ss) by (clear; induction ss; cbn; congruence).
    rewrite zlen_map. unfold zlen. cbn. lia. }
  assert (HNA : arrays_of (block_fields (ss, aa)) = zlen aa).
  { unfold arrays_of, block_fields. cbn [fst snd]. rewrite filter_app, zlen_app.
    replace (filter _ (map (fun s => (sc_name s, IScalar s)) ss)) with (@nil (pystr * item))
      by (clear; induction ss; auto).
    replace (filter _ (map (fun a => (ar_name a, IArray a)) aa))
      with (map (fun a => (ar_name a, IArray a)) aa) by (clear; induction aa; cbn; congruence).
    rewrite zlen_map. unfold zlen. cbn. lia. }
  unfold dmap_record_to_bytes. rewrite HFB, HNS, HNA. cbv zeta.
  assert (HBlk : zlen (sb ++ ab) + 16 = blk).
  { unfold blk. rewrite !(zlen_app [1;0;1;0]), !(zlen_app szb), !(zlen_app nsb), !(zlen_app nab).
    change (zlen [1;0;1;0]) with 4. unfold zlen at 2 3 4. lia. }
  rewrite HBlk. unfold header_bytes.
  change (pack_int true 4 65537) with (Ok [1;0;1;0]). cbn [rbind].
  rewrite (wire_int_pack _ _ _ _ (ltac:(lia) : (0 < 4)%nat) W1). cbn [rbind].
  rewrite (wire_int_pack _ _ _ _ (ltac:(lia) : (0 < 4)%nat) W2). cbn [rbind].
  rewrite (wire_int_pack _ _ _ _ (ltac:(lia) : (0 < 4)%nat) W3). cbn [rbind].
  now rewrite <- !app_assoc.
Qed.

Lemma plain_block_wire b bs : plain_block b bs -> wire_block [1;0;1;0] b bs.
Proof. now intros []. Qed.

Lemma plain_block_nodup b bs : plain_block b bs -> NoDup (map fst (block_fields b)).
Proof. now intros []. Qed.

Lemma plain_rewrite bl buf :
  wire_list plain_block bl buf -> bl <> [] -> zlen buf <= 2 ^ 63 - 1 ->
  dmap_read buf = Ok (map block_fields bl) /\ dmap_write (map block_fields bl) = Ok buf.
Proof.
  intros HW HN HM.
  assert (HF : wire_file bl buf).
  { clear - HW. induction HW; constructor; auto. exists [1;0;1;0]. now apply plain_block_wire. }
  split.
  - rewrite dmap_read_trace, (fields_complete buf bl); auto. cbn [rbind]. f_equal.
    clear - HW. induction HW as [|b bl x xs Hb HW IH]; cbn [map]; auto. rewrite IH. f_equal.
    apply record_of_fields_nodup. eapply plain_block_nodup; eauto.
  - apply (dmap_write_of_bytes _ _ (map record_after (map block_fields bl))).
    + destruct bl; [congruence|discriminate].
    + destruct HW as [|b bl x xs Hb HW]; [congruence|]. apply check_dmap_dict_block.
      apply plain_block_wire in Hb. now inversion Hb.
    + apply records_bytes_iff.
      assert (HX : exists bs, Forall2 (fun r b => dmap_record_to_bytes r = (Ok b, record_after r))
                     (map block_fields bl) bs /\ buf = concat bs).
      { clear HN HF. revert HM. induction HW as [|b bl x xs Hb HW IH]; intros HM.
        - exists []. split; [constructor|reflexivity].
        - rewrite zlen_app in HM. pose proof (zlen_nonneg x). pose proof (zlen_nonneg xs).
          destruct IH as (bs & HF & ->); [lia|]. exists (x :: bs). split; [|reflexivity].
          cbn [map]. constructor; auto. apply plain_block_bytes; auto. unfold ssize_max. lia. }
      destruct HX as (bs & HX & ->). exists bs. auto.
Qed.

(** ** The same for files given by what the reader accepts *)

(** Positions of blocks carry the identifier. *)
Lemma walk_wire bl buf : wire_file bl buf -> forall pre, exists ns,
  walk (pre ++ buf) (zlen pre) ns /\ length ns = length bl.
Proof.
  intros H. induction H as [|b bl x xs [id Hb] HW IH]; intros pre.
  - exists []. rewrite app_nil_r. split; [constructor|reflexivity].
  - destruct (IH (pre ++ x)) as (ns & Hw & HL). rewrite <- app_assoc in Hw.
    exists (zlen x :: ns). split; [|cbn; lia].
    pose proof (wire_block_len _ _ _ Hb) as HLb.
    destruct Hb as [ss aa szb nsb nab sb ab Hid HB HS0 HA0 W1 W2 W3 HSS HAA].
    econstructor; [|exact W1|lia|].
    + exists (pre ++ id), (nsb ++ nab ++ sb ++ ab ++ xs). split; [now rewrite <- !app_assoc|].
      unfold zlen. rewrite app_length, Hid. lia.
    + rewrite zlen_app in Hw. exact Hw.
Qed.

Lemma stamped_wire bl buf : wire_file bl buf -> forall pre ns0,
  (forall ns2 n, walk (pre ++ buf) (zlen pre) (n :: ns2) -> walk (pre ++ buf) 0 (ns0 ++ n :: ns2)) ->
  total ns0 = zlen pre ->
  stamped (pre ++ buf) -> wire_list (wire_block [1;0;1;0]) bl buf.
Proof.
  intros H. induction H as [|b bl x xs [id Hb] HW IH]; intros pre ns0 HC HT HS; [constructor|].
  destruct (walk_wire (b :: bl) (x ++ xs)) with (pre := pre) as (ns & Hns & HLn).
  { constructor; eauto. }
  destruct ns as [|n ns]; [discriminate|].
  assert (HO : occurs (pre ++ x ++ xs) (zlen pre) [1;0;1;0]).
  { rewrite <- HT. apply (HS ns0 (n :: ns)); [now apply HC|discriminate]. }
  assert (id = [1;0;1;0]) as ->.
  { apply (occurs_eq (pre ++ x ++ xs) (zlen pre)); auto.
    - inversion Hb; subst. eexists pre, _. split; [|reflexivity]. now rewrite <- app_assoc.
    - inversion Hb. unfold zlen. match goal with H : length id = 4%nat |- _ => rewrite H end. reflexivity. }
  constructor; auto.
  assert (HX : forall ns2, walk (pre ++ x ++ xs) (zlen (pre ++ x)) ns2 ->
                 walk (pre ++ x ++ xs) (zlen pre) (zlen x :: ns2)).
  { intros ns2 H2. pose proof (wire_block_len _ _ _ Hb) as HLb.
    inversion Hb as [ss aa szb nsb nab sb ab Hid HB HS0 HA0 W1 W2 W3 HSS HAA]. subst b x.
    econstructor; [|exact W1|lia|].
    + exists (pre ++ [1;0;1;0]), (nsb ++ nab ++ sb ++ ab ++ xs). split; [now rewrite <- !app_assoc|].
      rewrite zlen_app. reflexivity.
    + now rewrite <- zlen_app. }
  apply (IH (pre ++ x) (ns0 ++ [zlen x])).
  - intros ns2 m H2. rewrite <- !app_assoc in *. cbn [app]. apply HC. now apply HX.
  - unfold total in *. rewrite fold_right_app. cbn [fold_right]. rewrite zlen_app.
    clear - HT. revert HT. generalize (zlen pre). induction ns0 as [|y l IHl]; cbn [fold_right]; intros z HT; [lia|].
    specialize (IHl (z - y)). lia.
  - now rewrite <- app_assoc.
Qed.

Lemma widen_nan b : 0 <= b < 2 ^ 32 -> f64_nan (widen b) = false -> f32_snan b = false.
Proof.
  intros Hb HN. destruct (widen_fields b Hb) as (E & M & HW & HE & HM & HC).
  pose proof (f32_split b Hb) as (HS & He & Hm & _). unfold f32_snan.
  destruct (f64_fields (f32_sign b) E M) as (_ & HE' & HM'); auto.
  unfold f64_nan in HN. rewrite HW, HE', HM' in HN.
  destruct HC as [HC|[HC|[HC|[HC|HC]]]]; lia.
Qed.

Lemma plain_fields_scalars ss sb :
  wire_list wire_scalar ss sb -> Forall tame_scalar ss -> wire_list plain_scalar ss sb.
Proof.
  intros H HT. induction H as [|s ss b bs Hs H IH]; [constructor|].
  inversion HT as [|? ? [HN HV] HT2]; subst. constructor; auto.
  destruct Hs as [name f v nb vb HTx HW]. cbn [sc_name sc_fmt sc_value] in *.
  assert (nb = name ++ [0]) as ->.
  { destruct HTx as (e & He & _ & ->). destruct (pack_text_plain _ HN) as [_ (e2 & He2 & _ & HX)].
    congruence. }
  rewrite <- app_assoc. constructor; auto.
  destruct HW as [b' Hb|s bs' HT'|bs' HL HB|bs' HL HB|f z bs' HI HW]; cbn [plain_value]; auto.
  - rewrite le_num_dec in *. apply widen_nan; auto.
    pose proof (le_dec_range bs' HB) as HR. rewrite HL in HR. exact HR.
  - cbn [In] in HI. destruct f; auto; intuition discriminate.
Qed.

Lemma rewrite_accepted buf rs :
  is_bytearray buf -> ~ negative_slist buf -> dmap_read buf = Ok rs -> stamped buf ->
  (forall bl, wire_file bl buf -> Forall tame_block bl) ->
  dmap_write rs = Ok buf.
Proof.
  intros HB HN HR HS HT. destruct (read_sound _ _ HB HN HR) as (bl & HW & HD).
  specialize (HT bl HW).
  assert (HP : wire_list plain_block bl buf).
  { assert (HI : wire_list (wire_block [1;0;1;0]) bl buf).
    { apply (stamped_wire bl buf HW [] []); auto. }
    clear - HI HT. induction HI as [|b bl x xs Hb HI IH]; [constructor|].
    inversion HT as [|? ? (HND & HSS & HAA) HT2]; subst. constructor; auto.
    pose proof Hb as Hb0. destruct Hb as [ss aa szb nsb nab sb ab Hid HB HS0 HA0 W1 W2 W3 HSw HAw].
    econstructor; eauto; try (apply wire_int_iff in W1, W2, W3; try lia; tauto).
    now apply plain_fields_scalars. }
  assert (HNE : bl <> []).
  { intros ->. inversion HD; subst. apply dmap_read_iff_trace in HR as (bl & HF & HD2).
    inversion HD2; subst. destruct (fields_nonempty _ _ HF) as [HX _]. now apply HX. }
  destruct (plain_rewrite _ _ HP HNE) as [HR2 HWr]; [apply HB|]. congruence.
Qed.
