(** Facts about the writer: element positions, characters and text, repeated
    writes, the file system. *)
From Coq Require Import ZArith List Bool Lia ZifyBool ZifyNat.
From Verif Require Import Base Bytes BytesSpec BytesProofs Utf8 Utf8Proofs FloatBits FloatBitsProofs
  DmapTypes DmapRead DmapWrite Conversions DmapSpec DmapWriteSpec
  DmapReadProofs DmapFileProofs DmapStreamProofs DmapWriteProofs DmapWriterProofs DmapRewriteProofs.
Import ListNotations.
Open Scope Z_scope.
Ltac Zify.zify_post_hook ::= Z.div_mod_to_equations.

Lemma ok_inj {A} (x y : A) : Ok x = Ok y -> x = y.
Proof. now intros [=]. Qed.

(** ** Positions of array elements *)

Lemma flat_map_seq_len {A} (f : nat -> list A) L n : forall a,
  (forall i, length (f i) = L) -> length (flat_map f (seq a n)) = (n * L)%nat.
Proof.
  induction n as [|n IH]; intros a H; cbn [seq flat_map]; auto.
  rewrite app_length, H, IH by auto. lia.
Qed.

Lemma flat_map_seq_nth {A} (f : nat -> list A) L n : forall a i j,
  (forall i, length (f i) = L) -> (i < n)%nat -> (j < L)%nat ->
  nth_error (flat_map f (seq a n)) (i * L + j) = nth_error (f (a + i)%nat) j.
Proof.
  induction n as [|n IH]; intros a i j H Hi Hj; [lia|]. cbn [seq flat_map].
  destruct i as [|i].
  - rewrite nth_error_app1 by (rewrite H; lia). now rewrite Nat.add_0_r.
  - rewrite nth_error_app2 by (rewrite H; lia). rewrite H.
    replace (S i * L + j - L)%nat with (i * L + j)%nat by lia.
    rewrite IH by (auto; lia). f_equal. f_equal. lia.
Qed.

Lemma all_indices_len shape :
  Forall (fun n => 0 <= n) shape -> zlen (all_indices shape) = product shape.
Proof.
  intros H. induction H as [|n s Hn H IH]; [reflexivity|]. cbn [all_indices]. unfold zlen.
  rewrite flat_map_seq_len with (L := length (all_indices s)) by (intros; now rewrite map_length).
  rewrite product_cons, <- IH. unfold zlen. nia.
Qed.

Lemma horner_acc shape : forall idx acc, length idx = length shape ->
  horner acc shape idx = acc * product shape + horner 0 shape idx.
Proof.
  induction shape as [|n s IH]; intros [|i is] acc H; cbn [horner length] in *; try discriminate.
  - rewrite product_nil. lia.
  - injection H as H. rewrite (IH is (acc * n + i)), (IH is (0 * n + i)) by auto.
    rewrite product_cons. nia.
Qed.

Lemma in_shape_pos shape idx : in_shape shape idx -> Forall (fun n => 1 <= n) shape.
Proof. intros H. induction H; constructor; auto; lia. Qed.

Lemma index_position shape idx : in_shape shape idx ->
  0 <= horner 0 shape idx < product shape /\
  nth_error (all_indices shape) (Z.to_nat (horner 0 shape idx)) = Some idx.
Proof.
  intros H. induction H as [|n i s is Hi H IH]; [split; [cbn; lia|reflexivity]|].
  cbn [horner all_indices]. destruct IH as [IH1 IH2].
  assert (HL : length is = length s) by (symmetry; eapply Forall2_len; eauto).
  rewrite horner_acc by auto. rewrite product_cons. replace (0 * n + i) with i by lia.
  assert (HP : zlen (all_indices s) = product s).
  { apply all_indices_len. eapply Forall_impl; [|apply (in_shape_pos _ _ H)]. cbn. lia. }
  split; [nia|].
  assert (HN : Z.to_nat (i * product s + horner 0 s is) =
    (Z.to_nat i * length (all_indices s) + Z.to_nat (horner 0 s is))%nat).
  { rewrite <- HP. unfold zlen. rewrite Z2Nat.inj_add by nia. rewrite Z2Nat.inj_mul by lia.
    now rewrite Nat2Z.id. }
  rewrite HN. unfold zlen in HP.
  rewrite (flat_map_seq_nth _ (length (all_indices s))).
  - cbn [Nat.add]. rewrite nth_error_map, IH2. cbn. f_equal. f_equal. lia.
  - intros. now rewrite map_length.
  - lia.
  - lia.
Qed.

Lemma flat_map_occurs {A} (f : A -> bytes) k l i x :
  (forall x, length (f x) = k) -> nth_error l i = Some x ->
  occurs (flat_map f l) (Z.of_nat k * Z.of_nat i) (f x).
Proof.
  intros H. revert i. induction l as [|y l IH]; intros [|i] Hx; cbn [nth_error] in Hx; try discriminate.
  - injection Hx as ->. cbn [flat_map]. exists [], (flat_map f l). split; [reflexivity|]. cbn. lia.
  - cbn [flat_map]. replace (Z.of_nat k * Z.of_nat (S i)) with (zlen (f y) + Z.of_nat k * Z.of_nat i).
    + apply occurs_shift. auto.
    + unfold zlen. rewrite H. lia.
Qed.

Lemma elem_enc_len d be z : length (elem_enc d be z) = dtype_size d.
Proof. unfold elem_enc. destruct be; [rewrite rev_length|]; apply le_enc_length. Qed.

Lemma wire_elems_occurs s n data eb i z :
  wire_list (wire_int s n) data eb -> nth_error data i = Some z ->
  exists zb, occurs eb (Z.of_nat n * Z.of_nat i) zb /\ wire_int s n z zb.
Proof.
  intros H. revert i. induction H as [|x xs b bs HR H IH]; intros [|i] Hi; cbn [nth_error] in Hi;
    try discriminate.
  - injection Hi as ->. exists b. split; auto. exists [], bs. split; [reflexivity|]. cbn. lia.
  - destruct (IH i Hi) as (zb & HO & HW). exists zb. split; auto.
    pose proof (wire_int_len _ _ _ _ HR) as HL.
    replace (Z.of_nat n * Z.of_nat (S i)) with (zlen b + Z.of_nat n * Z.of_nat i) by lia.
    now apply occurs_shift.
Qed.

Lemma pack_sizes_inv l bs : pack_sizes l = Ok bs -> wire_list wire_int32 l bs.
Proof.
  revert bs; induction l as [|x l IH]; intros bs; cbn [pack_sizes].
  - intros [= <-]. constructor.
  - intros H. inv_rbind H b. inv_rbind H bs'. injection H as <-.
    constructor; auto. now apply pack_int32_inv.
Qed.

Lemma pack_text_len s bs : pack_text s = Ok bs -> zlen bs = zlen s + 1.
Proof.
  unfold pack_text. destruct (utf8_enc _) as [e|] eqn:E; [|discriminate]. intros [= <-].
  apply utf8_enc_len in E. unfold pack_s.
  rewrite zlen_app. unfold zlen. rewrite firstn_length, repeat_length.
  rewrite app_length in *. cbn [length] in *. lia.
Qed.

Lemma pack_type_len c bs : pack_type c = Ok bs -> zlen bs = 1.
Proof.
  unfold pack_type. destruct (chr_encode c) as [[|b [|b2 l]]|]; cbn [rbind]; try discriminate.
  intros [= <-]. reflexivity.
Qed.

(** Everything an array writes. *)
Lemma array_bytes_inv a bs a' :
  dmap_array_to_bytes a = (Ok bs, a') ->
  exists nb tb db sb,
    bs = nb ++ tb ++ db ++ sb ++ tostring (ar_value a) /\
    pack_text (ar_name a) = Ok nb /\ pack_type (ar_type a) = Ok tb /\
    wire_int32 (ar_dim a) db /\
    wire_list wire_int32 (if 1 <? ar_dim a then rev (ar_shape a) else ar_shape a) sb /\
    ar_fmt a <> Fs.
Proof.
  unfold dmap_array_to_bytes. destruct (rbind _ _) as [h|e] eqn:EH; [|discriminate]. cbv zeta.
  destruct (rbind (pack_sizes _) _) as [x|] eqn:ES; [|discriminate].
  intros [= <- <-]. inv_rbind EH u. inv_rbind EH nb. inv_rbind EH tb. inv_rbind EH db.
  injection EH as <-. inv_rbind ES sb. injection ES as <-.
  exists nb, tb, db, sb. splits; auto.
  - now rewrite <- !app_assoc.
  - now apply pack_int32_inv.
  - now apply pack_sizes_inv.
  - intros HF. rewrite HF in *. discriminate.
Qed.

Lemma array_write_layout name d be ty f shape g bs a' :
  dmap_array_to_bytes (mk_darray name (mk_ndarray d be shape (map g (all_indices shape)))
                                 ty f (zlen shape) shape) = (Ok bs, a') ->
  shape <> [] ->
  exists head sb eb,
    bs = head ++ sb ++ eb /\ zlen head = zlen name + 6 /\
    wire_list wire_int32 (rev shape) sb /\
    forall idx, in_shape shape idx ->
      occurs eb (Z.of_nat (dtype_size d) * horner 0 shape idx) (elem_enc d be (g idx)).
Proof.
  intros H HNE. apply array_bytes_inv in H as (nb & tb & db & sb & -> & HN & HT & HD & HS & HF).
  cbn [ar_name ar_value ar_type ar_fmt ar_dim ar_shape] in *.
  exists (nb ++ tb ++ db), sb, (tostring (mk_ndarray d be shape (map g (all_indices shape)))).
  splits.
  - now rewrite <- !app_assoc.
  - rewrite !zlen_app, (pack_text_len _ _ HN), (pack_type_len _ _ HT), (wire_int_len _ _ _ _ HD). lia.
  - destruct (1 <? zlen shape) eqn:E; auto. destruct shape as [|n [|m l]]; auto.
    rewrite !zlen_cons in E. pose proof (zlen_nonneg l). lia.
  - intros idx HI. apply index_position in HI as [HR HX].
    unfold tostring. cbn [nd_dtype nd_be nd_data].
    replace (horner 0 shape idx) with (Z.of_nat (Z.to_nat (horner 0 shape idx))) by lia.
    apply flat_map_occurs; [intros; apply elem_enc_len|].
    rewrite nth_error_map, HX. reflexivity.
Qed.

Lemma wire_array_layout blk a bs :
  wire_array blk a bs ->
  exists head sb eb,
    bs = head ++ sb ++ eb /\
    wire_list wire_int32 (rev (ar_shape a)) sb /\
    nd_shape (ar_value a) = ar_shape a /\
    forall idx, in_shape (ar_shape a) idx ->
      exists zb, occurs eb (Z.of_nat (wire_size (ar_fmt a)) * horner 0 (ar_shape a) idx) zb /\
        wire_int (wire_signed (ar_fmt a)) (wire_size (ar_fmt a))
          (nth (Z.to_nat (horner 0 (ar_shape a) idx)) (nd_data (ar_value a)) 0) zb.
Proof.
  intros [name f dims data nb db sb eb HT Hf HR HD HB HS HE HP].
  cbn [ar_shape ar_value ar_fmt nd_shape nd_data].
  exists (nb ++ [wire_code f] ++ db), sb, eb. splits; auto; [now rewrite <- !app_assoc|].
  intros idx HI. apply index_position in HI as [HX _].
  assert (HN : nth_error data (Z.to_nat (horner 0 dims idx)) =
               Some (nth (Z.to_nat (horner 0 dims idx)) data 0)).
  { apply nth_error_nth'. unfold zlen in HP. lia. }
  destruct (wire_elems_occurs _ _ _ _ _ _ HE HN) as (zb & HO & HW).
  rewrite Z2Nat.id in HO by lia. eauto.
Qed.

(** The array fields of an accepted file. *)
Lemma read_array_layout buf rs r k a :
  is_bytearray buf -> ~ negative_slist buf -> dmap_read buf = Ok rs ->
  In r rs -> In (k, IArray a) r ->
  exists p blk bs, occurs buf p bs /\ wire_array blk a bs.
Proof.
  intros HB HN HR Hr Ha. destruct (read_sound _ _ HB HN HR) as (bl & HW & HD).
  assert (HX : exists b, In b bl /\ dict_of_block b r).
  { clear - HD Hr. induction HD as [|b r0 bl rs Hb HD IH]; [destruct Hr|].
    destruct Hr as [->|Hr]; [exists b; cbn; auto|]. destruct (IH Hr) as (b' & ? & ?).
    exists b'. cbn. auto. }
  destruct HX as (b & Hb & HK & HV).
  assert (HI : In (k, IArray a) (block_fields b)).
  { assert (HND : NoDup (map fst r)) by (rewrite HK; apply first_occurrences_NoDup).
    assert (HG : dict_get r k = Some (IArray a)).
    { clear - HND Ha. induction r as [|[k' v] r IH]; [destruct Ha|]. cbn [dict_get].
      cbn [map fst] in HND. inversion HND as [|? ? HNI HND2]; subst.
      destruct Ha as [[= -> ->]|Ha]; [now rewrite str_eqb_refl|].
      destruct (str_eqb k' k) eqn:E; [|auto]. apply str_eqb_eq in E. subst.
      exfalso. apply HNI. apply in_map_iff. exists (k, IArray a). auto. }
    rewrite HV in HG. clear - HG. unfold last_value in HG.
    assert (HGen : forall l acc, fold_left (fun acc p => if str_eqb (fst p) k then Some (snd p) else acc) l acc
      = Some (IArray a) -> In (k, IArray a) l \/ acc = Some (IArray a)).
    { induction l as [|[k' v] l IH]; intros acc H; cbn [fold_left fst snd] in H; auto.
      apply IH in H as [H|H]; [left; cbn; auto|]. destruct (str_eqb k' k) eqn:E; auto.
      apply str_eqb_eq in E. subst. left. left. congruence. }
    apply HGen in HG as [HG|HG]; [auto|discriminate]. }
  assert (HIa : In a (snd b)).
  { unfold block_fields in HI. apply in_app_iff in HI as [HI|HI]; apply in_map_iff in HI as (x & HE & HI).
    - discriminate.
    - injection HE as _ <-. auto. }
  assert (HO : exists p id bs, occurs buf p bs /\ wire_block id b bs).
  { clear - HW Hb. induction HW as [|b0 bl x xs [id H0] HW IH]; [destruct Hb|].
    destruct Hb as [->|Hb].
    - exists 0, id, x. split; auto. exists [], xs. auto.
    - destruct (IH Hb) as (p & id' & bs & HO & HB). exists (zlen x + p), id', bs. split; auto.
      now apply occurs_shift. }
  destruct HO as (p & id & bs & HO & HB').
  destruct HB' as [ss aa szb nsb nab sb ab Hid HB' HS0 HA0 W1 W2 W3 HSw HAw].
  cbn [snd] in HIa.
  set (blk := zlen (id ++ szb ++ nsb ++ nab ++ sb ++ ab)) in *. clearbody blk.
  assert (HOA : exists q x, occurs ab q x /\ wire_array blk a x).
  { clear - HAw HIa. induction HAw as [|a0 aa x xs H0 HAw IH]; [destruct HIa|].
    destruct HIa as [->|HIa].
    - exists 0, x. split; auto. exists [], xs. auto.
    - destruct (IH HIa) as (q & y & HO & HW). exists (zlen x + q), y. split; auto. now apply occurs_shift. }
  destruct HOA as (q & x & HOA & HWA).
  rewrite !occurs_app in HO. destruct HO as (_ & _ & _ & _ & _ & HO).
  destruct HO as (pre & post & -> & HP). destruct HOA as (pre2 & post2 & -> & HP2).
  exists (zlen pre + zlen pre2), blk, x. split; [|exact HWA].
  exists (pre ++ pre2), (post2 ++ post). split; [now rewrite <- !app_assoc|]. rewrite zlen_app. reflexivity.
Qed.

(** ** Records without scalars or arrays *)

Lemma empty_side_rejected r b r' rest :
  dmap_record_to_bytes r = (Ok b, r') -> scalars_of r = 0 \/ arrays_of r = 0 ->
  zlen (b ++ rest) <= 2 ^ 63 - 1 -> dmap_read (b ++ rest) = Raise ZeroByteError.
Proof.
  intros H HZ HM. apply record_bytes_header in H as (w1 & w2 & w3 & bl & HE & W1 & W2 & W3 & _).
  rewrite dmap_read_trace.
  rewrite (zero_counts_rejected (b ++ rest) ident65537 w1 w2 w3 (concat bl ++ rest)
             (zlen b) (scalars_of r) (arrays_of r)); auto.
  - rewrite HE at 1. now rewrite <- !app_assoc.
  - rewrite zlen_app. pose proof (zlen_nonneg rest).
    assert (zlen b = 4 + zlen (w1 ++ w2 ++ w3 ++ concat bl)) by (rewrite HE at 1; now rewrite zlen_app).
    pose proof (zlen_nonneg (w1 ++ w2 ++ w3 ++ concat bl)). lia.
  - apply scalars_of_nonneg.
  - apply arrays_of_nonneg.
Qed.

(** The stream of a fresh writer. *)
Lemma dmap_write_inv rs bs :
  dmap_write rs = Ok bs ->
  exists rs' bl, check_dmap_dict rs = Ok rs' /\ rs' <> [] /\
    Forall2 (fun r b => dmap_record_to_bytes r = (Ok b, record_after r)) rs' bl /\
    bs = concat bl.
Proof.
  unfold dmap_write, writer_new. intros H. inv_rbind H w. inv_rbind H0 rs'. injection H0 as <-.
  unfold write_dmap_stream in H. cbn [wr_records wr_filename wr_bytearr] in H.
  destruct rs' as [|r rs'].
  - change (check_dmap_dict []) with (Ok (@nil record)) in H. cbn [rbind] in H. discriminate.
  - cbn [empty_record_check wr_records wr_bytearr wr_filename] in H.
    destruct (dmap_records_to_bytes [] (r :: rs')) as [[[[]|e] acc] rs2] eqn:EB; cbn [rbind fst] in H;
      [|discriminate].
    injection H as <-. apply records_bytes_iff in EB as (bl & HF & -> & _).
    exists (r :: rs'), bl. splits; auto. discriminate.
Qed.

Lemma dmap_write_ok rs rs' bl :
  check_dmap_dict rs = Ok rs' -> rs' <> [] ->
  Forall2 (fun r b => dmap_record_to_bytes r = (Ok b, record_after r)) rs' bl ->
  dmap_write rs = Ok (concat bl).
Proof.
  intros HC HN HF. unfold dmap_write, writer_new. rewrite HC. cbn [rbind].
  destruct rs' as [|r rs']; [congruence|].
  cbv beta iota zeta delta [write_dmap_stream empty_record_check wr_records wr_filename wr_bytearr].
  assert (HB : dmap_records_to_bytes [] (r :: rs') = (Ok tt, [] ++ concat bl, map record_after (r :: rs'))).
  { apply records_bytes_iff. eauto. }
  rewrite HB. reflexivity.
Qed.

(** Fields that could be written in a larger record: header always fits. *)
Lemma block_written ss ss' aa aa' :
  Forall2 scalar_back ss ss' -> Forall2 (array_back (block_bytes (ss, aa))) aa aa' ->
  block_bytes (ss, aa) < 2 ^ 31 ->
  exists bs, dmap_record_to_bytes (block_fields (ss, aa)) =
    (Ok bs, record_after (block_fields (ss, aa))) /\ zlen bs = block_bytes (ss, aa).
Proof.
  intros HS HA HL. set (b := (ss, aa)) in *.
  assert (G1 : 1 * zlen (fst b) <= total (map scalar_bytes (fst b))).
  { apply total_ge. intros x. unfold scalar_bytes. pose proof (zlen_nonneg (sc_name x)).
    destruct (sc_value x) as [| | | | |t| | |]; try lia. pose proof (zlen_nonneg t). lia. }
  assert (G2 : 1 * zlen (snd b) <= total (map array_bytes (snd b))).
  { apply total_ge. intros a. unfold array_bytes. pose proof (zlen_nonneg (ar_name a)).
    pose proof (zlen_nonneg (ar_shape a)). pose proof (zlen_nonneg (nd_data (ar_value a))). nia. }
  pose proof (zlen_nonneg (fst b)). pose proof (zlen_nonneg (snd b)).
  set (N := block_bytes b) in *. assert (HN : N = block_bytes b) by reflexivity.
  unfold block_bytes in HN.
  destruct (arrays_to_bytes N (snd b) aa') as (ab & Ea & _ & HLa); auto; [lia| |].
  { apply Forall_forall. intros. apply array_bytes_nonneg. }
  destruct (scalars_to_bytes (fst b) ss' _ _ _ _ HS Ea) as (sb & Es & _ & HLs).
  destruct (pack32 N) as [P1 W1]; [lia|].
  destruct (pack32 (zlen (fst b))) as [P2 W2]; [lia|].
  destruct (pack32 (zlen (snd b))) as [P3 W3]; [lia|].
  destruct (pack32 65537) as [P0 W0]; [lia|].
  exists (ident65537 ++ le_enc 4 N ++ le_enc 4 (zlen (fst b)) ++ le_enc 4 (zlen (snd b)) ++ sb ++ ab).
  split.
  - unfold dmap_record_to_bytes, block_fields. rewrite Es. cbv zeta.
    rewrite zlen_app, HLs, HLa.
    replace (total (map scalar_bytes (fst b)) + total (map array_bytes (snd b)) + 16) with N by lia.
    unfold header_bytes. rewrite P0. cbn [rbind]. rewrite P1. cbn [rbind]. rewrite P2. cbn [rbind].
    rewrite P3. cbn [rbind]. change (le_enc 4 65537) with ident65537.
    rewrite <- !app_assoc. f_equal. unfold record_after. now rewrite map_app.
  - rewrite !zlen_app, !zlen_le_enc, HLs, HLa. change (zlen ident65537) with 4. lia.
Qed.

(** ** Files that are read back as the records they were written from *)

Lemma walk_blocks_any xs :
  Forall (fun b => exists id w1 rest, b = id ++ w1 ++ rest /\ length id = 4%nat /\ wire_int32 (zlen b) w1) xs ->
  forall pre, walk (pre ++ concat xs) (zlen pre) (map zlen xs).
Proof.
  intros H. induction H as [|b bl (id & w1 & rest & HE & Hid & W1) H IH]; intros pre; cbn [concat map].
  - rewrite app_nil_r. constructor.
  - econstructor; [|exact W1| |].
    + rewrite HE. exists (pre ++ id), (rest ++ concat bl). split.
      * now rewrite <- !app_assoc.
      * unfold zlen. rewrite app_length, Hid. lia.
    + rewrite HE, zlen_app. pose proof (zlen_nonneg (w1 ++ rest)).
      assert (zlen id = 4) by (unfold zlen; lia). lia.
    + rewrite app_assoc, <- zlen_app. apply IH.
Qed.

Lemma wire_file_pieces bl buf : wire_file bl buf ->
  exists xs, Forall2 (fun b x => exists id, wire_block id b x) bl xs /\ buf = concat xs.
Proof.
  intros H. induction H as [|b bl x xs Hb HW (ys & HF & ->)].
  - exists []. split; [constructor|reflexivity].
  - exists (x :: ys). split; [constructor; auto|reflexivity].
Qed.

Lemma concat_same_lengths {A} (xs ys : list (list A)) :
  concat xs = concat ys -> map zlen xs = map zlen ys -> xs = ys.
Proof.
  revert ys; induction xs as [|x xs IH]; intros [|y ys] HE HL; cbn [map concat] in *; try discriminate; auto.
  assert (HL1 : zlen x = zlen y) by congruence. assert (HL2 : map zlen xs = map zlen ys) by congruence.
  apply app_eq_len in HE as [-> HE]; [|unfold zlen in HL1; lia]. f_equal. auto.
Qed.

Lemma filter_shorter {A} (f : A -> bool) l : (length (filter f l) <= length l)%nat.
Proof. induction l as [|x l IH]; cbn; auto. destruct (f x); cbn; lia. Qed.

Lemma first_occurrences_len l : (length (first_occurrences l) <= length l)%nat.
Proof.
  induction l as [|x l IH]; cbn [first_occurrences length]; auto.
  pose proof (filter_shorter (fun k' => negb (str_eqb k' x)) (first_occurrences l)). lia.
Qed.

Lemma first_occurrences_full l : (length l <= length (first_occurrences l))%nat -> NoDup l.
Proof.
  induction l as [|x l IH]; cbn [first_occurrences length]; intros H; constructor.
  - pose proof (filter_shorter (fun k' => negb (str_eqb k' x)) (first_occurrences l)) as H1.
    pose proof (first_occurrences_len l).
    assert (HN : NoDup l) by (apply IH; lia). rewrite first_occurrences_nodup_id in H by auto.
    intros HI. clear - H HI. assert (HX : (length (filter (fun k' => negb (str_eqb k' x)) l) < length l)%nat).
    { clear H. induction l as [|y l IH]; [destruct HI|]. cbn [filter].
      pose proof (filter_shorter (fun k' => negb (str_eqb k' x)) l).
      destruct (str_eqb y x) eqn:E; cbn [negb length]; [lia|].
      destruct HI as [->|HI]; [now rewrite str_eqb_refl in E|]. specialize (IH HI). lia. }
    lia.
  - apply IH. pose proof (filter_shorter (fun k' => negb (str_eqb k' x)) (first_occurrences l)). lia.
Qed.

Lemma kinds_len r : scalars_of r + arrays_of r <= zlen r.
Proof.
  unfold scalars_of, arrays_of. induction r as [|[k it] r IH]; cbn [filter snd]; [cbn; lia|].
  destruct it; cbn [is_scalar is_array]; rewrite ?zlen_cons; lia.
Qed.

Lemma check_of_read buf rs : dmap_read buf = Ok rs -> check_dmap_dict rs = Ok rs /\ rs <> [].
Proof.
  intros H. pose proof (dmap_read_items _ _ H) as HK. split.
  - destruct rs as [|[|[k [| |v]] r] rs]; auto.
    inversion HK as [|? ? H1 _]; subst. inversion H1 as [|? ? H2 _]; subst. destruct H2.
  - intros ->. apply dmap_read_iff_trace in H as (bl & HF & HD). inversion HD; subst.
    destruct (fields_nonempty _ _ HF) as [HX _]. now apply HX.
Qed.

Lemma written_and_read rs bs :
  is_bytearray bs -> ~ negative_slist bs -> dmap_write rs = Ok bs -> dmap_read bs = Ok rs ->
  exists bl xs, rs = map block_fields bl /\ bs = concat xs /\
    Forall2 (fun b x => wire_block ident65537 b x /\
               dmap_record_to_bytes (block_fields b) = (Ok x, record_after (block_fields b))) bl xs.
Proof.
  intros HB HN HW HR. destruct (check_of_read _ _ HR) as [HC HNE].
  destruct (dmap_write_inv _ _ HW) as (rs' & ys & HC' & _ & HF & ->).
  assert (rs' = rs) as -> by congruence. clear HC' HC.
  destruct (read_sound _ _ HB HN HR) as (bl & HWF & HD).
  destruct (wire_file_pieces _ _ HWF) as (xs & HX & HE).
  assert (HL : map zlen ys = map zlen xs).
  { apply (walk_fun (concat ys) 0).
    - apply (walk_blocks_any ys) with (pre := []).
      clear - HF. induction HF as [|r y rs ys Hy HF IH]; constructor; auto.
      apply record_bytes_header in Hy as (w1 & w2 & w3 & l & HE & W1 & _).
      exists ident65537, w1, (w2 ++ w3 ++ concat l). auto.
    - rewrite HE. apply (walk_blocks_any xs) with (pre := []).
      clear - HX. induction HX as [|b x bl xs [id Hx] HX IH]; constructor; auto.
      destruct Hx. exists id, szb, (nsb ++ nab ++ sb ++ ab). auto. }
  assert (ys = xs) as -> by (now apply concat_same_lengths).
  clear HE HL HB HN HW HR HNE HWF.
  exists bl, xs. assert (HG : rs = map block_fields bl /\
    Forall2 (fun b x => wire_block ident65537 b x /\
               dmap_record_to_bytes (block_fields b) = (Ok x, record_after (block_fields b))) bl xs).
  { revert bl HD HX. induction HF as [|r x rs xs Hx HF IH]; intros bl HD HX.
    - inversion HX; subst. split; [reflexivity|constructor].
    - inversion HX as [|b y bl' ys' [id Hb] HX']; subst. inversion HD as [|? ? ? ? HDb HD']; subst.
      destruct (IH _ HD' HX') as [-> IH2].
      assert (HK : id = ident65537 /\ zlen (fst b) = scalars_of r /\ zlen (snd b) = arrays_of r).
      { apply record_bytes_header in Hx as (w1 & w2 & w3 & l & HE & W1 & W2 & W3 & _).
        destruct Hb as [ss aa szb nsb nab sb ab Hid HB HS0 HA0 V1 V2 V3 HSw HAw]. cbn [fst snd].
        pose proof (wire_int_len _ _ _ _ W1). pose proof (wire_int_len _ _ _ _ W2).
        pose proof (wire_int_len _ _ _ _ W3). pose proof (wire_int_len _ _ _ _ V1).
        pose proof (wire_int_len _ _ _ _ V2). pose proof (wire_int_len _ _ _ _ V3). unfold zlen in *.
        apply app_eq_len in HE as [-> HE]; [|auto]. apply app_eq_len in HE as [_ HE]; [|lia].
        apply app_eq_len in HE as [-> HE]; [|lia]. apply app_eq_len in HE as [-> HE]; [|lia].
        apply wire_int_iff in W2 as (_ & _ & W2), W3 as (_ & _ & W3), V2 as (_ & _ & V2), V3 as (_ & _ & V3); try lia.
        split; auto. lia. }
      destruct HK as (-> & HK1 & HK2).
      assert (HND : NoDup (map fst (block_fields b))).
      { apply first_occurrences_full. destruct HDb as [HDk _]. rewrite <- HDk.
        rewrite !map_length. unfold block_fields. rewrite app_length, !map_length.
        pose proof (kinds_len r). unfold zlen in *. lia. }
      assert (r = block_fields b) as ->.
      { rewrite <- record_of_fields_nodup by auto.
        eapply dict_of_block_fun; eauto. apply record_of_fields_dict. }
      split; [reflexivity|]. constructor; auto. }
  destruct HG; auto.
Qed.

(** Bytes gained by wide chars and lost by non-ASCII text. *)
Definition text_loss (t : pystr) : Z :=
  match utf8_enc t with Some e => zlen e - zlen t | None => 0 end.
Definition wide_gain (s : dscalar) : Z :=
  match sc_fmt s, sc_value s with Fc, VInt z => if z <? 128 then 0 else 1 | _, _ => 0 end.
Definition value_loss (s : dscalar) : Z :=
  match sc_value s with VStr t => text_loss t | _ => 0 end.

Lemma text_loss_nonneg t : 0 <= text_loss t.
Proof.
  unfold text_loss. destruct (utf8_enc t) eqn:E; [|lia]. apply utf8_enc_len in E. unfold zlen. lia.
Qed.

Lemma text_loss_ascii t e : utf8_enc t = Some e -> (text_loss t = 0 <-> ascii t).
Proof.
  intros H. unfold text_loss. rewrite H. split.
  - intros HZ. assert (HD : ascii t \/ ~ ascii t).
    { unfold ascii. clear. induction t as [|c t IH]; [left; constructor|].
      destruct IH as [IH|IH].
      - destruct (Z_lt_dec c 128), (Z_le_dec 0 c);
          [left; constructor; auto; lia|right..]; intros HF; inversion HF; lia.
      - right. intros HF. inversion HF. auto. }
    destruct HD as [HD|HD]; auto. apply (utf8_enc_len_nonascii _ _ H) in HD. unfold zlen in HZ. lia.
  - intros HA. rewrite (utf8_enc_ascii _ HA) in H. injection H as <-. lia.
Qed.

Lemma wire_text_loss t bs : wire_text t bs -> zlen bs = zlen t + 1 + text_loss t.
Proof.
  intros (e & He & _ & ->). unfold text_loss. rewrite He, zlen_app. change (zlen [0]) with 1. lia.
Qed.

Lemma scalar_lengths s wb b :
  wire_scalar s wb -> dmap_scalar_to_bytes s = Ok b ->
  zlen b = zlen wb + wide_gain s - text_loss (sc_name s) - value_loss s.
Proof.
  intros [name f v nb vb HT HV] H. unfold dmap_scalar_to_bytes in H. cbn [sc_name sc_type sc_fmt sc_value] in *.
  inv_rbind H nb'. inv_rbind H tb. inv_rbind H db. injection H as <-.
  apply pack_text_len in H0. apply pack_type_len in H1. apply wire_text_loss in HT.
  rewrite !zlen_app, H0, H1, HT. change (zlen [wire_code f]) with 1.
  assert (HD : zlen db = zlen vb + wide_gain (mk_dscalar name v (wire_code f) f)
                         - value_loss (mk_dscalar name v (wire_code f) f)).
  { unfold wide_gain, value_loss. cbn [sc_fmt sc_value].
    destruct HV as [c Hc|t bs Ht|bs HL HB|bs HL HB|f z bs HI HW]; cbv beta iota.
    - cbn [scalar_data_bytes] in H2. unfold chr_encode in H2. unfold is_byte in Hc.
      replace ((c <? - 2 ^ 31) || (2 ^ 31 <=? c)) with false in H2 by lia.
      replace ((c <? 0) || (1114111 <? c)) with false in H2 by lia.
      unfold utf8_enc1 in H2. replace (c <? 0) with false in H2 by lia.
      destruct (c <? 128); [injection H2 as <-; reflexivity|].
      replace (c <? 2048) with true in H2 by lia. injection H2 as <-. reflexivity.
    - cbn [scalar_data_bytes] in H2. apply pack_text_len in H2. apply wire_text_loss in Ht. lia.
    - cbn [scalar_data_bytes] in H2. apply ok_inj in H2 as <-. rewrite zlen_le_enc. unfold zlen. lia.
    - cbn [scalar_data_bytes] in H2. apply ok_inj in H2 as <-. rewrite zlen_le_enc. unfold zlen. lia.
    - assert (HP : pack_int (fmt_signed f) (fmt_size f) z = Ok db).
      { cbn [In] in HI. intuition (subst; exact H2). }
      apply pack_int_inv in HP as [-> _]. rewrite zlen_le_enc, (wire_int_len _ _ _ _ HW).
      cbn [In] in HI. intuition (subst; reflexivity). }
  unfold value_loss, wide_gain in *. cbn [sc_name] in *. lia.
Qed.

Lemma array_lengths blk a wb b :
  wire_array blk a wb -> fst (dmap_array_to_bytes a) = Ok b ->
  zlen b = zlen wb - text_loss (ar_name a).
Proof.
  intros HW H. destruct (dmap_array_to_bytes a) as [x a'] eqn:E. cbn [fst] in H. subst x.
  apply array_bytes_inv in E as (nb' & tb & db' & sb' & -> & HN & HT & HD & HS & HF).
  destruct HW as [name f dims data nb db sb eb HTx Hf HR HDm HB HSz HE HP].
  cbn [ar_name ar_value ar_type ar_fmt ar_dim ar_shape] in *.
  apply pack_text_len in HN. apply pack_type_len in HT. apply wire_text_loss in HTx.
  rewrite (wire_elems_tostring _ _ _ _ Hf HE).
  apply wire_list_int_len in HS, HSz. pose proof (wire_int_len _ _ _ _ HB). pose proof (wire_int_len _ _ _ _ HD).
  rewrite !zlen_app. change (zlen [wire_code f]) with 1.
  assert (HX : zlen (if 1 <? zlen dims then rev dims else dims) = zlen (rev dims))
    by (destruct (1 <? zlen dims); rewrite ?zlen_rev; reflexivity).
  lia.
Qed.

Lemma fields_lengths ss aa blk sb ab bl :
  wire_list wire_scalar ss sb -> wire_list (wire_array blk) aa ab ->
  Forall2 (fun p b => item_bytes (snd p) = Ok b) (block_fields (ss, aa)) bl ->
  zlen (concat bl) = zlen (sb ++ ab) + total (map wide_gain ss)
    - total (map (fun s => text_loss (sc_name s)) ss) - total (map value_loss ss)
    - total (map (fun a => text_loss (ar_name a)) aa).
Proof.
  intros HS HA. revert bl. induction HS as [|s ss x xs Hs HS IH]; intros bl HF.
  - cbn [map total fold_right app]. cbn [block_fields fst snd map app] in HF.
    revert bl HF. induction HA as [|a aa x xs Ha HA IH]; intros bl HF; cbn [map] in HF.
    + inversion HF; subst. reflexivity.
    + inversion HF as [|? b ? bl' Hb HF']; subst. apply IH in HF'.
      cbn [snd item_bytes] in Hb. apply (array_lengths _ _ _ _ Ha) in Hb.
      cbn [concat map total fold_right] in *. unfold total in *. rewrite !zlen_app. lia.
  - cbn [block_fields fst snd map app] in HF.
    inversion HF as [|? b ? bl' Hb HF']; subst. apply IH in HF'.
    cbn [snd item_bytes] in Hb. apply (scalar_lengths _ _ _ Hs) in Hb.
    cbn [concat map total fold_right] in *. unfold total in *. rewrite !zlen_app in *. lia.
Qed.

Lemma total_zero {A} (f : A -> Z) l : (forall x, 0 <= f x) ->
  0 <= total (map f l) /\ (total (map f l) = 0 <-> Forall (fun x => f x = 0) l).
Proof.
  intros H. induction l as [|x l [IH1 IH2]]; cbn [map total fold_right].
  - split; [lia|]. split; [constructor|reflexivity].
  - unfold total in *. pose proof (H x). split; [lia|]. split.
    + intros HZ. constructor; [lia|]. apply IH2. lia.
    + intros HF. inversion HF; subst. apply IH2 in H4. lia.
Qed.

(** In such a file the gains and losses of each record balance. *)
Lemma written_read_balance ident b x x' :
  wire_block ident b x -> dmap_record_to_bytes (block_fields b) = (Ok x, x') ->
  total (map wide_gain (fst b)) =
  total (map (fun s => text_loss (sc_name s)) (fst b)) + total (map value_loss (fst b)) +
  total (map (fun a => text_loss (ar_name a)) (snd b)).
Proof.
  intros HW H. apply record_bytes_header in H as (w1 & w2 & w3 & bl & HE & W1 & W2 & W3 & HF & _).
  destruct HW as [ss aa szb nsb nab sb ab Hid HB HS0 HA0 V1 V2 V3 HSw HAw]. cbn [fst snd].
  pose proof (fields_lengths _ _ _ _ _ _ HSw HAw HF) as HL.
  assert (HX : zlen (sb ++ ab) = zlen (concat bl)).
  { pose proof (wire_int_len _ _ _ _ W1). pose proof (wire_int_len _ _ _ _ W2).
    pose proof (wire_int_len _ _ _ _ W3). pose proof (wire_int_len _ _ _ _ V1).
    pose proof (wire_int_len _ _ _ _ V2). pose proof (wire_int_len _ _ _ _ V3). unfold zlen in *.
    apply (f_equal (@length Z)) in HE. rewrite !app_length in HE. rewrite app_length.
    change (length ident65537) with 4%nat in HE. lia. }
  lia.
Qed.
