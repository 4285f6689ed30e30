(** Proofs about the faults of DmapFaultSpec.v: every byte string is well formed
    or has a fault, and the reader raises the exception of the fault. *)
From Coq Require Import ZArith List Bool Lia.
From Verif Require Import Base Bytes BytesSpec BytesProofs Utf8 Utf8Proofs DmapTypes DmapSpec
  DmapFaultSpec DmapRead DmapReadProofs DmapFileProofs.
Import ListNotations.
Open Scope Z_scope.

Ltac Zify.zify_post_hook ::= Z.div_mod_to_equations.

(** ** Every byte string is well formed or has a fault *)

Lemma first_zero (B : bytes) : ~ In 0 B \/ exists b R, B = b ++ 0 :: R /\ ~ In 0 b.
Proof.
  induction B as [|x B IH]; [left; cbn; tauto|].
  destruct (Z.eq_dec x 0) as [->|HX]; [right; exists [], B; split; [reflexivity|cbn; tauto]|].
  destruct IH as [IH|(b & R & -> & HN)].
  - left. cbn [In]. intuition congruence.
  - right. exists (x :: b), R. split; [reflexivity|]. cbn [In]. intuition congruence.
Qed.

Lemma text_total B : (exists s bs R, B = bs ++ R /\ wire_text s bs) \/ exists e, text_fault B e.
Proof.
  destruct B as [|x B']; [right; exists CursorError; constructor|].
  set (B := x :: B'). assert (HB : B <> []) by discriminate. clearbody B. clear x B'.
  destruct (first_zero B) as [HN|(b & R & -> & HN)].
  - right. exists IndexError. now constructor.
  - destruct (utf8_dec b) as [s|] eqn:ED.
    + left. apply utf8_enc_dec in ED. exists s, (b ++ [0]), R. split; [now rewrite <- app_assoc|].
      exists b. split; [exact ED|]. split; [|reflexivity]. now rewrite <- (utf8_enc_nul _ _ ED).
    + right. exists UnicodeDecodeError. constructor; auto. intros s HS.
      apply utf8_dec_enc in HS. congruence.
Qed.

Lemma type_code_iff t o : type_code t o <-> dmap_data_types t = Some o.
Proof.
  split.
  - intros []; [reflexivity|apply data_types_code].
  - destruct o as [f|]; intros H.
    + apply data_types_inv in H. subst t. constructor.
    + unfold dmap_data_types in H.
      destruct (t =? 0) eqn:E; [apply Z.eqb_eq in E as ->; constructor|].
      repeat match type of H with
             | (if ?b then _ else _) = _ => destruct b; [discriminate H|]
             end.
      discriminate H.
Qed.

Lemma code_total B : (exists t o R, B = t :: R /\ type_code t o) \/ exists e, code_fault B e.
Proof.
  destruct B as [|t R]; [right; eexists; constructor|].
  destruct (dmap_data_types t) as [o|] eqn:E.
  - left. exists t, o, R. split; auto. now apply type_code_iff.
  - right. exists DmapDataTypeError. constructor. intros o H. apply type_code_iff in H. congruence.
Qed.

Lemma cut_at (B : bytes) n :
  Z.of_nat n <= zlen B -> exists b R, B = b ++ R /\ length b = n.
Proof.
  intros H. exists (firstn n B), (skipn n B). split; [now rewrite firstn_skipn|].
  rewrite firstn_length. unfold zlen in H. lia.
Qed.

Lemma int_total s n B : (0 < n)%nat -> Forall is_byte B -> Z.of_nat n <= zlen B ->
  exists z b R, B = b ++ R /\ wire_int s n z b.
Proof.
  intros Hn HB HL. destruct (cut_at B n HL) as (b & R & -> & Hb).
  apply Forall_app in HB as [HB _].
  exists (unpack_int s n b), b, R. split; auto. apply wire_int_iff; auto.
Qed.

Lemma value_total f B : Forall is_byte B ->
  (exists v bs R, B = bs ++ R /\ wire_value f v bs) \/ exists e, value_fault f B e.
Proof.
  intros HB.
  assert (HF : f = Fs \/ f <> Fs) by (destruct f; auto; right; discriminate).
  destruct HF as [->|HF].
  { destruct (text_total B) as [(s & bs & R & -> & HW)|[e He]].
    - left. exists (VStr s), bs, R. split; auto. now constructor.
    - right. exists e. now constructor. }
  destruct (Z_lt_le_dec (zlen B) (Z.of_nat (wire_size f))) as [HL|HL].
  { right. exists CursorError. now constructor. }
  left. rewrite wire_size_eq in HL.
  destruct (int_total (wire_signed f) (fmt_size f) B (fmt_size_pos f) HB HL) as (z & b & R & -> & HW).
  destruct f; try congruence;
    try (exists (VInt z), b, R; split; [reflexivity|]; constructor; [cbn; tauto|exact HW]).
  - destruct HW as (Hb & HB1 & _). destruct b as [|x [|? ?]]; try discriminate.
    exists (VInt x), [x], R. split; auto. constructor. now inversion HB1.
  - destruct HW as (Hb & HB1 & _). eexists _, b, R. split; auto. constructor; auto.
  - destruct HW as (Hb & HB1 & _). eexists _, b, R. split; auto. constructor; auto.
Qed.

Lemma scalar_total B : Forall is_byte B ->
  (exists s bs R, B = bs ++ R /\ wire_scalar s bs) \/ exists e, scalar_fault B e.
Proof.
  intros HB. destruct (text_total B) as [(name & nb & R & -> & HN)|[e He]];
    [|right; exists e; now apply sf_name].
  apply Forall_app in HB as [_ HB].
  destruct (code_total R) as [(t & o & R' & -> & HT)|[e He]];
    [|right; exists e; eapply sf_code; eauto].
  destruct HT as [|f]; [right; exists DmapDataError; eapply sf_dmap; eauto|].
  inversion HB as [|? ? _ HB']; subst.
  destruct (value_total f R' HB') as [(v & vb & R'' & -> & HV)|[e He]];
    [|right; exists e; eapply sf_value; eauto].
  left. exists (mk_dscalar name v (wire_code f) f), (nb ++ [wire_code f] ++ vb), R''.
  split; [now rewrite <- !app_assoc|]. now constructor.
Qed.

Lemma scalars_total n : forall B, Forall is_byte B ->
  (exists ss sb R, B = sb ++ R /\ wire_list wire_scalar ss sb /\ length ss = n) \/
  exists ss sb R e, B = sb ++ R /\ wire_list wire_scalar ss sb /\ (length ss < n)%nat /\
    scalar_fault R e.
Proof.
  induction n as [|n IH]; intros B HB.
  { left. exists [], [], B. split; auto. split; [constructor|reflexivity]. }
  destruct (scalar_total B HB) as [(s & b & R & -> & HS)|[e He]].
  2:{ right. exists [], [], B, e. split; auto. split; [constructor|]. cbn [length]. split; [lia|auto]. }
  apply Forall_app in HB as [_ HB].
  destruct (IH R HB) as [(ss & sb & R' & -> & HW & HL)|(ss & sb & R' & e & -> & HW & HL & HF)].
  - left. exists (s :: ss), (b ++ sb), R'. rewrite <- app_assoc. split; auto.
    split; [now constructor|]. cbn [length]. lia.
  - right. exists (s :: ss), (b ++ sb), R', e. rewrite <- app_assoc. split; auto.
    split; [now constructor|]. cbn [length]. split; [lia|auto].
Qed.

Lemma ints_total n : forall B, Forall is_byte B -> 4 * Z.of_nat n <= zlen B ->
  exists xs b R, B = b ++ R /\ wire_list wire_int32 xs b /\ length xs = n.
Proof.
  induction n as [|n IH]; intros B HB HL.
  { exists [], [], B. split; auto. split; [constructor|reflexivity]. }
  destruct (int_total true 4 B ltac:(lia) HB ltac:(lia)) as (z & b & R & -> & HW).
  apply Forall_app in HB as [_ HB]. pose proof (wire_int_len _ _ _ _ HW) as Hb.
  rewrite zlen_app in HL.
  destruct (IH R HB ltac:(lia)) as (xs & bs & R' & -> & HX & HXL).
  exists (z :: xs), (b ++ bs), R'. rewrite <- app_assoc. split; auto.
  split; [now constructor|]. cbn [length]. lia.
Qed.

Lemma elems_total s k n : (0 < k)%nat -> forall B, Forall is_byte B ->
  Z.of_nat n * Z.of_nat k <= zlen B ->
  exists xs b R, B = b ++ R /\ wire_list (wire_int s k) xs b /\ length xs = n.
Proof.
  intros Hk. induction n as [|n IH]; intros B HB HL.
  { exists [], [], B. split; auto. split; [constructor|reflexivity]. }
  destruct (int_total s k B Hk HB ltac:(nia)) as (z & b & R & -> & HW).
  apply Forall_app in HB as [_ HB]. pose proof (wire_int_len _ _ _ _ HW) as Hb.
  rewrite zlen_app in HL.
  destruct (IH R HB ltac:(nia)) as (xs & bs & R' & -> & HX & HXL).
  exists (z :: xs), (b ++ bs), R'. rewrite <- app_assoc. split; auto.
  split; [now constructor|]. cbn [length]. lia.
Qed.

Lemma negative_suffix A B : negative_slist B -> negative_slist (A ++ B).
Proof.
  intros (p & ty & dims & db & sb & HO & H). exists (zlen A + p), ty, dims, db, sb.
  split; [now apply occurs_shift|exact H].
Qed.

Lemma sizes_fine_nonneg blk name sizes :
  sizes_fine blk name sizes -> Forall (fun n => 0 <= n) sizes.
Proof. intros H. eapply Forall_impl; [|exact H]. intros n. cbn. lia. Qed.

Lemma sizes_dec blk name sizes :
  (name = s_slist -> Forall (fun n => 0 <= n) sizes) ->
  sizes_fine blk name sizes \/
  exists n, In n sizes /\ ((n <= 0 /\ name <> s_slist) \/ blk <= n).
Proof.
  unfold sizes_fine. intros HS. induction sizes as [|n l IH]; [left; constructor|].
  destruct IH as [IH|(m & HM & HC)].
  { intros E. specialize (HS E). now inversion HS. }
  2:{ right. exists m. split; [now right|auto]. }
  destruct (Z_lt_le_dec n blk) as [HB|HB]; [|right; exists n; split; [now left|auto]].
  destruct (Z_lt_le_dec 0 n) as [HP|HP].
  { left. constructor; auto. split; auto. left. lia. }
  destruct (str_eq_dec name s_slist) as [E|E].
  - specialize (HS E). inversion HS as [|? ? Hn _]; subst. left. constructor; auto.
    split; auto. right. split; auto. lia.
  - right. exists n. split; [now left|auto].
Qed.

Lemma array_total blk B : 0 < blk -> Forall is_byte B -> ~ negative_slist B ->
  (exists a bs R, B = bs ++ R /\ fine_array blk a bs) \/ exists e, array_fault blk B e.
Proof.
  intros Hblk HB HNS. destruct (text_total B) as [(name & nb & R & -> & HN)|[e He]];
    [|right; exists e; now apply af_name].
  apply Forall_app in HB as [_ HB].
  destruct (code_total R) as [(t & o & R' & -> & HT)|[e He]];
    [|right; exists e; eapply af_code; eauto].
  inversion HB as [|? ? _ HB']; subst. clear HB. rename HB' into HB.
  destruct (Z_lt_le_dec (zlen R') 4) as [HL|HL];
    [right; exists CursorError; eapply af_rank_cut; eauto|].
  destruct (int_total true 4 R' ltac:(lia) HB HL) as (n & db & R & -> & HD).
  apply Forall_app in HB as [_ HB].
  destruct (Z_lt_le_dec blk n) as [HR|HR];
    [right; exists MismatchByteError; eapply af_rank_large; eauto|].
  destruct (Z_lt_le_dec n 0) as [HR1|HR1];
    [right; exists NegativeByteError; eapply af_rank_sign; eauto; now constructor|].
  destruct (Z.eq_dec n 0) as [->|HR2];
    [right; exists ZeroByteError; eapply af_rank_sign; eauto; constructor|].
  destruct (Z_lt_le_dec (zlen R) (4 * n)) as [HSZ|HSZ];
    [right; exists CursorError; eapply af_sizes_cut; eauto; lia|].
  destruct (ints_total (Z.to_nat n) R HB ltac:(lia)) as (sizes & sb & R' & -> & HS & HSL).
  apply Forall_app in HB as [_ HB].
  assert (HZ : zlen sizes = n) by (unfold zlen; lia). subst n.
  assert (HFA : forall e, sizes_fault blk name o sizes (zlen R') e ->
    exists e, array_fault blk (nb ++ t :: db ++ sb ++ R') e).
  { intros e He. exists e. eapply af_sizes; eauto. lia. }
  assert (HNG : name = s_slist -> Forall (fun n => 0 <= n) sizes).
  { intros ->. rewrite Forall_forall. intros n Hn. destruct (Z_lt_le_dec n 0); auto. exfalso.
    apply HNS. destruct HN as (u & HU & _ & ->).
    assert (u = s_slist) as -> by (vm_compute in HU; injection HU as <-; reflexivity).
    exists 0, t, sizes, db, sb. split; [|split; [exact HD|split; [exact HS|]]].
    - exists [], R'. split; [|reflexivity]. cbn [app]. rewrite <- !app_assoc. cbn [app].
      now rewrite <- app_assoc.
    - apply Exists_exists. exists n. auto. }
  destruct (sizes_dec blk name sizes HNG) as [HF|(m & HM & HC)];
    [|right; eapply HFA; eapply zf_size; eauto].
  pose proof (sizes_fine_nonneg _ _ _ HF) as HNN. pose proof (product_nonneg _ HNN) as HPN.
  assert (HTL : too_large blk o sizes \/ ~ too_large blk o sizes) by (unfold too_large; lia).
  destruct HTL as [HTL|HTL]; [right; eapply HFA; now apply zf_large|].
  destruct HT as [|f]; [right; eapply HFA; apply zf_type; auto|].
  assert (Hf : f = Fs \/ f <> Fs) by (destruct f; auto; right; discriminate).
  destruct Hf as [->|Hf]; [right; eapply HFA; apply zf_type; auto|].
  destruct (Z_lt_le_dec (zlen R') (product sizes * item_size (Some f))) as [HCut|HCut];
    [right; eapply HFA; eapply zf_cut; eauto|].
  destruct (Z_lt_le_dec 32 (zlen sizes)) as [H32|H32];
    [right; eapply HFA; eapply zf_rank; eauto|].
  left. cbn [item_size] in HCut.
  destruct (elems_total (wire_signed f) (wire_size f) (Z.to_nat (product sizes))
              ltac:(rewrite wire_size_eq; apply fmt_size_pos) R' HB
              ltac:(rewrite Z2Nat.id; auto)) as (data & eb & R & -> & HE & HEL).
  exists (mk_darray name (mk_ndarray (wire_dtype f) false (rev sizes) data)
                 (wire_code f) f (zlen (rev sizes)) (rev sizes)),
    (nb ++ [wire_code f] ++ db ++ sb ++ eb), R.
  split; [rewrite <- !app_assoc; reflexivity|].
  split; [|split].
  - constructor; auto.
    + rewrite zlen_rev. lia.
    + apply Forall_rev. exact HF.
    + now rewrite zlen_rev.
    + now rewrite rev_involutive.
    + rewrite product_rev. unfold zlen. lia.
  - cbn [ar_shape]. rewrite zlen_rev. exact HR.
  - cbn [ar_shape ar_fmt]. unfold too_large in *. now rewrite product_rev.
Qed.

Lemma arrays_total blk n : 0 < blk -> forall B, Forall is_byte B -> ~ negative_slist B ->
  (exists aa ab R, B = ab ++ R /\ wire_list (fine_array blk) aa ab /\ length aa = n) \/
  exists aa ab R e, B = ab ++ R /\ wire_list (fine_array blk) aa ab /\ (length aa < n)%nat /\
    array_fault blk R e.
Proof.
  intros Hblk. induction n as [|n IH]; intros B HB HNS.
  { left. exists [], [], B. split; auto. split; [constructor|reflexivity]. }
  destruct (array_total blk B Hblk HB HNS) as [(s & b & R & -> & HS)|[e He]].
  2:{ right. exists [], [], B, e. split; auto. split; [constructor|]. cbn [length]. split; [lia|auto]. }
  apply Forall_app in HB as [_ HB].
  assert (HNS' : ~ negative_slist R) by (intros C; now apply HNS, negative_suffix).
  destruct (IH R HB HNS') as [(ss & sb & R' & -> & HW & HL)|(ss & sb & R' & e & -> & HW & HL & HF)].
  - left. exists (s :: ss), (b ++ sb), R'. rewrite <- app_assoc. split; auto.
    split; [now constructor|]. cbn [length]. lia.
  - right. exists (s :: ss), (b ++ sb), R', e. rewrite <- app_assoc. split; auto.
    split; [now constructor|]. cbn [length]. split; [lia|auto].
Qed.

Lemma fine_arrays blk aa ab :
  wire_list (fine_array blk) aa ab -> wire_list (wire_array blk) aa ab.
Proof. intros H. induction H as [|x xs b bs [HR _] _ IH]; constructor; auto. Qed.

Lemma starts_len B sz R : starts B sz R -> zlen B = 8 + zlen R.
Proof.
  intros (id & szb & -> & HL & HW). rewrite !zlen_app, (wire_int_len _ _ _ _ HW).
  unfold zlen at 1. lia.
Qed.

Lemma block_total B : B <> [] -> Forall is_byte B -> ~ negative_slist B ->
  (exists id b bs R, B = bs ++ R /\ wire_block id b bs) \/ exists e, block_fault B e.
Proof.
  intros HNE HB HNS.
  assert (HP : 0 < zlen B).
  { assert (zlen B <> 0) by (rewrite zlen_0; auto). pose proof (zlen_nonneg B). lia. }
  destruct (Z_lt_le_dec (zlen B) 8) as [H8|H8]; [right; exists CursorError; apply bf_cut; lia|].
  destruct (cut_at B 4 ltac:(lia)) as (id & R & EB & Hid).
  assert (HBR : Forall is_byte id /\ Forall is_byte R) by (subst B; now apply Forall_app).
  assert (HRL : 4 <= zlen R).
  { subst B. rewrite zlen_app in H8. unfold zlen in *. lia. }
  destruct HBR as [HBid HBR].
  destruct (int_total true 4 R ltac:(lia) HBR ltac:(lia)) as (sz & szb & R1 & -> & HSZ).
  apply Forall_app in HBR as [_ HBR].
  assert (HST : starts B sz R1) by (exists id, szb; auto).
  pose proof (starts_len _ _ _ HST) as HLen.
  destruct (Z_lt_le_dec (zlen B) sz) as [HZ1|HZ1];
    [right; exists MismatchByteError; eapply bf_size; eauto; now constructor|].
  destruct (Z_lt_le_dec sz 0) as [HZ2|HZ2];
    [right; exists NegativeByteError; eapply bf_size; eauto; apply bz_sign; now constructor|].
  destruct (Z.eq_dec sz 0) as [->|HZ3];
    [right; exists ZeroByteError; eapply bf_size; eauto; apply bz_sign; constructor|].
  destruct (Z_lt_le_dec (zlen R1) 8) as [HC|HC];
    [right; exists CursorError; eapply bf_counts_cut; eauto; lia|].
  destruct (int_total true 4 R1 ltac:(lia) HBR ltac:(lia)) as (ns & nsb & R2 & -> & HNSB).
  apply Forall_app in HBR as [_ HBR]. pose proof (wire_int_len _ _ _ _ HNSB) as HL1.
  rewrite zlen_app in HC.
  destruct (int_total true 4 R2 ltac:(lia) HBR ltac:(lia)) as (na & nab & R3 & -> & HNAB).
  apply Forall_app in HBR as [_ HBR]. pose proof (wire_int_len _ _ _ _ HNAB) as HL2.
  assert (HCF : forall e, counts_fault sz ns na e -> exists e, block_fault B e).
  { intros e He. exists e. eapply bf_counts; eauto. lia. }
  destruct (Z_lt_le_dec ns 0) as [HC1|HC1]; [right; eapply HCF, bc_scalars; now constructor|].
  destruct (Z.eq_dec ns 0) as [->|HC2]; [right; eapply HCF, bc_scalars; constructor|].
  destruct (Z_lt_le_dec na 0) as [HC3|HC3]; [right; eapply HCF, bc_arrays; [lia|now constructor]|].
  destruct (Z.eq_dec na 0) as [->|HC4]; [right; eapply HCF, bc_arrays; [lia|constructor]|].
  destruct (Z_lt_le_dec sz (ns + na)) as [HC5|HC5]; [right; eapply HCF, bc_sum; lia|].
  assert (HH : fine_header B sz ns na R3).
  { exists nsb, nab. split; [exact HST|]. split; [exact HNSB|]. split; [exact HNAB|]. lia. }
  assert (HNS3 : ~ negative_slist R3).
  { intros C. apply HNS. rewrite EB. now do 4 apply negative_suffix. }
  destruct (scalars_total (Z.to_nat ns) R3 HBR)
    as [(ss & sb & R4 & -> & HSS & HSL)|(ss & sb & R4 & e & -> & HSS & HSL & HF)].
  2:{ right. exists e. eapply bf_scalar; eauto. unfold zlen. lia. }
  apply Forall_app in HBR as [_ HBR].
  assert (HNS4 : ~ negative_slist R4) by (intros C; now apply HNS3, negative_suffix).
  destruct (arrays_total sz (Z.to_nat na) ltac:(lia) R4 HBR HNS4)
    as [(aa & ab & R5 & -> & HAA & HAL)|(aa & ab & R5 & e & -> & HAA & HAL & HF)].
  2:{ right. exists e. eapply bf_array; eauto; unfold zlen; lia. }
  destruct (Z.eq_dec sz (16 + zlen sb + zlen ab)) as [HE|HE].
  2:{ right. exists CursorError. eapply bf_length; eauto; unfold zlen; lia. }
  left. exists id, (ss, aa), (id ++ szb ++ nsb ++ nab ++ sb ++ ab), R5.
  split; [rewrite EB, <- !app_assoc; reflexivity|].
  assert (HLL : zlen (id ++ szb ++ nsb ++ nab ++ sb ++ ab) = sz).
  { rewrite !zlen_app, (wire_int_len _ _ _ _ HSZ), HL1, HL2.
    assert (zlen id = 4) by (unfold zlen; lia). lia. }
  constructor; auto.
  - intros ->. cbn [length] in HSL. lia.
  - intros ->. cbn [length] in HAL. lia.
  - now rewrite HLL.
  - replace (zlen ss) with ns by (unfold zlen; lia). exact HNSB.
  - replace (zlen aa) with na by (unfold zlen; lia). exact HNAB.
  - rewrite HLL. now apply fine_arrays.
Qed.

Lemma blocks_total n : forall B, (length B <= n)%nat -> Forall is_byte B -> ~ negative_slist B ->
  (exists bl, wire_file bl B) \/
  exists bl A R e, B = A ++ R /\ wire_file bl A /\ block_fault R e.
Proof.
  induction n as [|n IH]; intros B HL HB HNS.
  { destruct B; [|cbn [length] in HL; lia]. left. exists []. constructor. }
  destruct B as [|x B']; [left; exists []; constructor|].
  remember (x :: B') as B eqn:EB. assert (HNE : B <> []) by (subst; discriminate).
  destruct (block_total B HNE HB HNS) as [(id & b & bs & R & -> & HW)|[e He]].
  2:{ right. exists [], [], B, e. split; auto. split; [constructor|auto]. }
  apply Forall_app in HB as [_ HB].
  assert (HNS' : ~ negative_slist R) by (intros C; now apply HNS, negative_suffix).
  pose proof (wire_block_len _ _ _ HW) as HWL.
  destruct (IH R) as [[bl HF]|(bl & A & R' & e & -> & HF & HE)]; auto.
  { rewrite app_length in HL. unfold zlen in HWL. lia. }
  - left. exists (b :: bl). constructor; [now exists id|exact HF].
  - right. exists (b :: bl), (bs ++ A), R', e. rewrite <- app_assoc. split; auto.
    split; [|auto]. constructor; [now exists id|exact HF].
Qed.

Lemma file_total B : Forall is_byte B -> ~ negative_slist B ->
  (exists bl, bl <> [] /\ wire_file bl B) \/ exists e, file_fault B e.
Proof.
  intros HB HNS. destruct B as [|x B']; [right; exists EmptyFileError; constructor|].
  destruct (blocks_total (length (x :: B')) (x :: B') (le_n _) HB HNS)
    as [[bl HF]|(bl & A & R & e & -> & HF & HE)].
  - left. exists bl. split; auto. intros ->. inversion HF.
  - right. exists e. now apply (ff_block bl).
Qed.

(** ** The reader raises the exception of the fault *)

Definition raising {A} (m : rd A) (c : Z) (e : exn) : Prop := exists c', m c = (Raise e, c').

Lemma raising_here {A} (m : rd A) c c' e : m c = (Raise e, c') -> raising m c e.
Proof. intros H. now exists c'. Qed.

Lemma raising_bind {A B} (m : rd A) (f : A -> rd B) c e : raising m c e -> raising (bind m f) c e.
Proof. intros [c' H]. exists c'. now apply bind_raise. Qed.

Lemma raising_step {A B} (m : rd A) (f : A -> rd B) c a c1 e :
  m c = (Ok a, c1) -> raising (f a) c1 e -> raising (bind m f) c e.
Proof. intros H [c' HF]. exists c'. now rewrite (bind_eq _ _ _ _ _ H). Qed.

Lemma sign_raises n c e : sign_fault n e -> raising (zero_negative_check n) c e.
Proof.
  intros [|m H]; [now exists c|]. exists c. unfold zero_negative_check.
  replace (m =? 0) with false by lia. now replace (m <? 0) with true by lia.
Qed.

Lemma large_raises a b c : b < a -> raising (bytes_check a b) c MismatchByteError.
Proof. intros H. exists c. unfold bytes_check. now replace (b <? a) with true by lia. Qed.

Section Raising.
Variable buf : bytes.
Hypothesis Hmax : zlen buf <= ssize_max.

(** From position [c] on the input is [B]. *)
Definition rest (c : Z) (B : bytes) : Prop := occurs buf c B /\ c + zlen B = zlen buf.

Lemma rest_app c x R : rest c (x ++ R) -> occurs buf c x /\ rest (c + zlen x) R.
Proof.
  intros [HO HL]. apply occurs_app in HO as [HO1 HO2]. rewrite zlen_app in HL.
  split; auto. split; auto. lia.
Qed.

Lemma rest_cons c x R : rest c (x :: R) -> occurs buf c [x] /\ rest (c + 1) R.
Proof. apply (rest_app c [x] R). Qed.

Lemma checks_raise n c : zlen buf - c < n -> 0 < n ->
  read_data_checks buf n c = (Raise CursorError, c).
Proof.
  intros H Hn. unfold read_data_checks, bind, get_cursor, end_bytes.
  destruct (zlen buf <=? c); [reflexivity|]. now replace (zlen buf - c <? n) with true by lia.
Qed.

Lemma raw_raises n c : zlen buf - c < Z.of_nat n -> (0 < n)%nat ->
  raising (read_data_raw buf n) c CursorError.
Proof.
  intros H Hn. apply raising_bind. eexists. apply checks_raise; lia.
Qed.

Lemma i_raises c : zlen buf - c < 4 -> raising (read_data_i buf) c CursorError.
Proof. intros H. apply raising_bind, raw_raises; lia. Qed.

Lemma scan_raises B : forall fuel c k, 0 <= c + k ->
  rest (c + k) B -> ~ In 0 B -> (length B < fuel)%nat ->
  scan_nul buf fuel c k = Raise IndexError.
Proof.
  induction B as [|x B IH]; intros fuel c k H0 HR HN HF; destruct fuel as [|fuel];
    cbn [length] in HF; try lia; cbn [scan_nul].
  - destruct HR as [_ HL]. rewrite zlen_nil in HL. unfold py_index.
    replace (c + k <? 0) with false by lia.
    replace ((0 <=? c + k) && (c + k <? zlen buf)) with false by lia. reflexivity.
  - apply rest_cons in HR as [HO HR]. rewrite (py_index_occurs _ _ _ HO).
    cbn [In] in HN. replace (x =? 0) with false by lia. cbn [negb orb].
    apply IH; try tauto; try lia. now replace (c + (k + 1)) with (c + k + 1) by lia.
Qed.

Lemma text_raises c B e : rest c B -> text_fault B e -> raising (read_data_s buf) c e.
Proof.
  intros HR HF. assert (H0 : 0 <= c) by (destruct HR as [HO _]; now apply occurs_bounds in HO).
  destruct HF as [|B HB HN|b B HN HU].
  - apply raising_bind. destruct HR as [_ HL]. rewrite zlen_nil in HL.
    eexists. apply checks_raise; lia.
  - assert (HP : 0 < zlen B).
    { assert (zlen B <> 0) by (rewrite zlen_0; auto). pose proof (zlen_nonneg B). lia. }
    pose proof (proj2 HR) as HL.
    eapply raising_step; [apply checks_pass; lia|].
    eapply raising_step; [reflexivity|]. apply raising_bind.
    exists c. unfold lift. rewrite (scan_raises B); auto; try lia.
    + now rewrite Z.add_0_r.
    + unfold zlen in HL. lia.
  - change (b ++ 0 :: B) with (b ++ [0] ++ B) in HR. rewrite app_assoc in HR.
    apply rest_app in HR as [HO HR]. pose proof (occurs_bounds _ _ _ HO) as [_ HB].
    rewrite zlen_app in HB. change (zlen [0]) with 1 in HB. pose proof (zlen_nonneg b).
    eapply raising_step; [apply checks_pass; lia|].
    eapply raising_step; [reflexivity|].
    eapply raising_step.
    { unfold lift. rewrite (scan_nul_occ buf b); [reflexivity| |exact HN|].
      - now rewrite Z.add_0_r.
      - unfold zlen in HB. lia. }
    replace (0 + zlen b) with (zlen b) by lia.
    eapply raising_step; [apply bytes_check_pass; unfold end_bytes; lia|].
    eapply raising_step.
    { unfold lift. rewrite unpack_from_occurs; [reflexivity| |exact Hmax].
      eapply occurs_prefix; eauto. }
    eapply raising_step; [reflexivity|].
    destruct (utf8_dec b) as [s|] eqn:ED; [|eexists; reflexivity].
    apply utf8_enc_dec in ED. now destruct (HU s).
Qed.

Lemma code_raises c B e : rest c B -> code_fault B e ->
  raising (read_data_c buf) c e \/
  exists t, read_data_c buf c = (Ok t, c + 1) /\ raising (check_data_type t) (c + 1) e.
Proof.
  intros HR HF. destruct HF as [|t R HT].
  - left. apply raising_bind. destruct HR as [_ HL]. rewrite zlen_nil in HL.
    eexists. apply checks_raise; lia.
  - right. apply rest_cons in HR as [HO _]. exists t. split; [now apply read_c_occ|].
    unfold check_data_type. destruct (dmap_data_types t) as [o|] eqn:E; [|eexists; reflexivity].
    apply type_code_iff in E. now destruct (HT o).
Qed.

Lemma value_raises f c B e : rest c B -> value_fault f B e -> raising (read_data buf f) c e.
Proof.
  intros HR HF. destruct HF as [B' e' HT|f' B' Hf HL].
  - apply raising_bind. eapply text_raises; eauto.
  - destruct HR as [_ HE]. rewrite wire_size_eq in HL.
    destruct f'; try congruence; cbn [read_data fmt_size] in *; apply raising_bind;
      try (apply raw_raises; lia).
    apply raising_bind. eexists. apply checks_raise; lia.
Qed.

Lemma scalar_raises c B e : rest c B -> scalar_fault B e -> raising (read_scalar buf) c e.
Proof.
  intros HR HF. destruct HF as [B' e' HT|name nb B' e' HN HC|name nb B' HN|name nb f B' e' HN HV].
  - apply raising_bind. eapply text_raises; eauto.
  - apply rest_app in HR as [HO HR].
    eapply raising_step; [eapply read_s_occ; eauto|].
    destruct (code_raises _ _ _ HR HC) as [HX|(t & HX & HY)]; [now apply raising_bind|].
    eapply raising_step; [exact HX|]. now apply raising_bind.
  - apply rest_app in HR as [HO HR]. apply rest_cons in HR as [HO2 HR].
    eapply raising_step; [eapply read_s_occ; eauto|].
    eapply raising_step; [apply read_c_occ; eauto|].
    eapply raising_step; [reflexivity|]. eexists. reflexivity.
  - apply rest_app in HR as [HO HR]. apply rest_cons in HR as [HO2 HR].
    eapply raising_step; [eapply read_s_occ; eauto|].
    eapply raising_step; [apply read_c_occ; eauto|].
    eapply raising_step; [unfold check_data_type; rewrite data_types_code; reflexivity|].
    apply raising_bind. eapply value_raises; eauto.
Qed.

Lemma scalars_raise ss sb : wire_list wire_scalar ss sb -> forall n c R e,
  rest c (sb ++ R) -> (length ss < n)%nat -> scalar_fault R e ->
  raising (read_scalars buf n) c e.
Proof.
  intros HW. induction HW as [|x xs b bs HR HW IH]; intros n c R e HC HL HF;
    (destruct n as [|n]; cbn [length] in HL; [lia|]); cbn [read_scalars].
  - apply raising_bind. eapply scalar_raises; eauto.
  - rewrite <- app_assoc in HC. apply rest_app in HC as [HO HC].
    eapply raising_step; [eapply read_scalar_occ; eauto|].
    apply raising_bind. apply (IH n _ R); auto. lia.
Qed.

Lemma shape_raises n : forall c, 0 <= c <= zlen buf -> zlen buf - c < 4 * Z.of_nat n ->
  Forall is_byte buf -> raising (read_shape buf n) c CursorError.
Proof.
  induction n as [|n IH]; intros c H0 HL HB; [lia|]. cbn [read_shape].
  destruct (Z_lt_le_dec (zlen buf - c) 4) as [HS|HS]; [now apply raising_bind, i_raises|].
  destruct (occurs_slice buf c 4) as [HO HSL]; try lia.
  destruct (int_total true 4 (slice buf c 4) ltac:(lia)) as (z & b & R & E & HW); [|lia|].
  { eapply occurs_Forall; eauto. }
  rewrite E in HO. apply occurs_prefix in HO.
  eapply raising_step; [eapply read_i_occ; eauto|].
  apply raising_bind, IH; auto; lia.
Qed.

Lemma existsb_exact {A} (P : A -> bool) l x : In x l -> P x = true -> existsb P l = true.
Proof. intros H1 H2. apply existsb_exists. eauto. Qed.

Lemma fine_existsb blk name sizes : sizes_fine blk name sizes ->
  (existsb (fun x => x <=? 0) sizes && negb (str_eqb name s_slist))%bool = false /\
  existsb (fun x => blk <=? x) sizes = false.
Proof.
  intros HS. unfold sizes_fine in HS. rewrite Forall_forall in HS. split.
  - destruct (str_eqb name s_slist) eqn:ES; [apply andb_false_r|]. rewrite andb_true_r.
    apply not_true_is_false. intros HX. apply existsb_exists in HX as (n & Hn & Hn0).
    apply HS in Hn. apply str_eqb_neq in ES. destruct Hn as [[Hn|[Hn _]] _]; [lia|tauto].
  - apply not_true_is_false. intros HX. apply existsb_exists in HX as (n & Hn & Hn0).
    apply HS in Hn. lia.
Qed.

(** What is read after the sizes. *)
Definition array_tail (blk : Z) (name : pystr) (t : Z) (o : option fmt) (dim : Z) (shp : list Z)
  : rd darray :=
  if existsb (fun x => x <=? 0) shp && negb (str_eqb name s_slist) then fail DmapDataError else
  if existsb (fun x => blk <=? x) shp then fail DmapDataError else
  do_ bytes_check (prod shp) blk;
  do_ bytes_check (prod shp * opt_size o) blk;
  match o with
  | Some Fs => fail DmapDataError
  | None => fail DmapDataError
  | Some f =>
      do array_value <- read_numerical_array buf shp f (prod shp);
      ret (mk_darray name array_value t f dim shp)
  end.

Lemma item_opt o : item_size o = opt_size o.
Proof. destruct o as [f|]; [cbn; now rewrite wire_size_eq|reflexivity]. Qed.

Lemma chunks_zlen k n b : zlen (chunks k (Z.to_nat n) b) = Z.max n 0.
Proof. unfold zlen. rewrite chunks_length. lia. Qed.

Lemma tail_raises blk name t o dim shp sizes c B e :
  blk <= ssize_max -> shp = sizes \/ shp = rev sizes -> rest c B ->
  sizes_fault blk name o sizes (zlen B) e -> raising (array_tail blk name t o dim shp) c e.
Proof.
  intros HBK HSH HR HF. unfold array_tail.
  assert (H0 : 0 <= c) by (destruct HR as [HO _]; now apply occurs_bounds in HO).
  assert (HIN : forall n, In n sizes -> In n shp).
  { intros n Hn. destruct HSH as [->| ->]; auto. now apply in_rev in Hn. }
  assert (HP : prod shp = product sizes).
  { rewrite prod_product. destruct HSH as [->| ->]; auto. apply product_rev. }
  assert (HZ : zlen shp = zlen sizes) by (destruct HSH as [->| ->]; auto; apply zlen_rev).
  assert (HFI : sizes_fine blk name sizes -> sizes_fine blk name shp).
  { intros H. destruct HSH as [->| ->]; auto. now apply Forall_rev. }
  assert (HNUM : forall f, o = Some f -> f <> Fs -> sizes_fine blk name sizes ->
    ~ too_large blk o sizes -> zlen B < product sizes * item_size o \/ 32 < zlen sizes ->
    raising (read_numerical_array buf shp f (prod shp)) c ValueError).
  { intros f -> Hf HS HNL HC. pose proof (sizes_fine_nonneg _ _ _ HS) as HNN.
    pose proof (product_nonneg _ HNN) as HPN. pose proof (fmt_size_pos f) as HFS.
    unfold too_large in HNL. cbn [item_size] in HC, HNL. rewrite wire_size_eq in HC, HNL.
    pose proof (proj2 HR) as HL. pose proof (zlen_nonneg B) as HB0.
    unfold read_numerical_array. rewrite fmt_dtype_eq by auto.
    eapply raising_step; [reflexivity|]. rewrite HP.
    unfold ssize_max in *.
    assert (HFB : frombuffer buf (fmt_size f) (product sizes) c =
      if zlen B <? product sizes * Z.of_nat (fmt_size f) then Raise ValueError
      else Ok (chunks (fmt_size f) (Z.to_nat (product sizes)) (skipn (Z.to_nat c) buf))).
    { unfold frombuffer, ssize_min, ssize_max.
      replace ((product sizes <? - 2 ^ 63) || (2 ^ 63 - 1 <? product sizes))%bool
        with false by lia.
      replace ((c <? - 2 ^ 63) || (2 ^ 63 - 1 <? c))%bool with false by lia.
      replace ((c <? 0) || (zlen buf <? c))%bool with false by lia.
      replace (product sizes <? 0) with false by lia.
      now replace (zlen buf - c) with (zlen B) by lia. }
    destruct (Z_lt_le_dec (zlen B) (product sizes * Z.of_nat (fmt_size f))) as [HX|HX].
    { apply raising_bind. exists c. unfold lift. rewrite HFB.
      now replace (zlen B <? product sizes * Z.of_nat (fmt_size f)) with true by lia. }
    eapply raising_step.
    { unfold lift. rewrite HFB.
      replace (zlen B <? product sizes * Z.of_nat (fmt_size f)) with false by lia. reflexivity. }
    eapply raising_step; [reflexivity|].
    apply raising_bind. eexists. unfold lift, np_reshape, npy_maxdims.
    replace (32 <? zlen shp) with true by lia. reflexivity. }
  assert (HFINE : sizes_fine blk name sizes -> forall (m : rd darray),
    raising m c e -> raising (if (existsb (fun x => x <=? 0) shp && negb (str_eqb name s_slist))%bool
      then fail DmapDataError else if existsb (fun x => blk <=? x) shp then fail DmapDataError
      else m) c e).
  { intros HS m Hm. destruct (fine_existsb _ _ _ (HFI HS)) as [-> ->]. exact Hm. }
  assert (HNLC : ~ too_large blk o sizes -> forall m : rd darray, raising m c e ->
    raising (do_ bytes_check (prod shp) blk; do_ bytes_check (prod shp * opt_size o) blk; m) c e).
  { intros HNL m Hm. unfold too_large in HNL. rewrite item_opt in HNL. rewrite HP.
    eapply raising_step; [apply bytes_check_pass; lia|].
    eapply raising_step; [apply bytes_check_pass; lia|]. exact Hm. }
  destruct HF as [n Hn HC|HS HLG|HS HNL HT|f HS HNL HT Hf HC|f HS HNL HT Hf HC].
  - apply HIN in Hn. destruct HC as [[HC1 HC2]|HC].
    + rewrite (existsb_exact (fun x => x <=? 0) shp n Hn) by lia.
      apply str_eqb_neq in HC2. rewrite HC2. eexists. reflexivity.
    + rewrite (existsb_exact (fun x => blk <=? x) shp n Hn) by lia.
      destruct (_ && _)%bool; eexists; reflexivity.
  - apply HFINE; auto. unfold too_large in HLG. rewrite item_opt in HLG. rewrite HP.
    destruct (Z_lt_le_dec blk (product sizes)) as [HX|HX]; [now apply raising_bind, large_raises|].
    eapply raising_step; [apply bytes_check_pass; lia|].
    apply raising_bind, large_raises. lia.
  - apply HFINE; auto. apply HNLC; auto. destruct HT as [->| ->]; eexists; reflexivity.
  - apply HFINE; auto. apply HNLC; auto. subst o.
    assert (HX := HNUM f eq_refl Hf HS HNL (or_introl HC)).
    destruct f; try congruence; now apply raising_bind.
  - apply HFINE; auto. apply HNLC; auto. subst o.
    assert (HX := HNUM f eq_refl Hf HS HNL (or_intror HC)).
    destruct f; try congruence; now apply raising_bind.
Qed.

Lemma array_raises blk c B e : Forall is_byte buf -> 0 < blk <= ssize_max ->
  rest c B -> array_fault blk B e -> raising (read_array buf blk) c e.
Proof.
  intros HB HBK HR HF. unfold read_array.
  assert (HNAME : forall name nb t o B (m : pystr -> Z -> option fmt -> rd darray),
    wire_text name nb -> type_code t o -> rest c (nb ++ t :: B) ->
    (forall c, rest c B -> raising (m name t o) c e) ->
    raising (do array_name <- read_data_s buf; do array_type <- read_data_c buf;
             do array_type_fmt <- check_data_type array_type;
             m array_name array_type array_type_fmt) c e).
  { clear HR. intros name nb t o B0 m HN HT HR Hm.
    apply rest_app in HR as [HO HR]. apply rest_cons in HR as [HO2 HR].
    eapply raising_step; [eapply read_s_occ; eauto|].
    eapply raising_step; [apply read_c_occ; eauto|].
    apply type_code_iff in HT.
    eapply raising_step; [unfold check_data_type; rewrite HT; reflexivity|]. now apply Hm. }
  destruct HF as [B e HT|name nb B e HN HC|name nb t o B HN HT HL|name nb t o n db B HN HT HD HL
    |name nb t o n db B e HN HT HD HL|name nb t o n db B HN HT HD HL HS
    |name nb t o sizes db sb B e HN HT HD HL HS HF].
  - apply raising_bind. eapply text_raises; eauto.
  - apply rest_app in HR as [HO HR].
    eapply raising_step; [eapply read_s_occ; eauto|].
    destruct (code_raises _ _ _ HR HC) as [HX|(t & HX & HY)]; [now apply raising_bind|].
    eapply raising_step; [exact HX|]. now apply raising_bind.
  - eapply HNAME; eauto. clear c HR HNAME. intros c HR.
    apply raising_bind, i_raises. destruct HR as [_ HE]. lia.
  - eapply HNAME; eauto. clear c HR HNAME. intros c HR. apply rest_app in HR as [HO3 HR].
    eapply raising_step; [eapply read_i_occ; eauto|].
    now apply raising_bind, large_raises.
  - eapply HNAME; eauto. clear c HR HNAME. intros c HR. apply rest_app in HR as [HO3 HR].
    eapply raising_step; [eapply read_i_occ; eauto|].
    eapply raising_step; [apply bytes_check_pass; destruct HL; lia|].
    now apply raising_bind, sign_raises.
  - eapply HNAME; eauto. clear c HR HNAME. intros c HR. apply rest_app in HR as [HO3 HR].
    eapply raising_step; [eapply read_i_occ; eauto|].
    eapply raising_step; [apply bytes_check_pass; lia|].
    eapply raising_step; [apply zn_check_pass; lia|].
    rewrite (wire_int_len _ _ _ _ HD) in HR. destruct HR as [HO HE].
    pose proof (occurs_bounds _ _ _ HO) as HOB. pose proof (zlen_nonneg B).
    apply raising_bind, shape_raises; auto; lia.
  - eapply HNAME; eauto. clear c HR HNAME. intros c HR. apply rest_app in HR as [HO3 HR].
    eapply raising_step; [eapply read_i_occ; eauto|].
    eapply raising_step; [apply bytes_check_pass; lia|].
    eapply raising_step; [apply zn_check_pass; lia|].
    rewrite (wire_int_len _ _ _ _ HD) in HR. apply rest_app in HR as [HO4 HR].
    eapply raising_step.
    { replace (Z.to_nat (zlen sizes)) with (length sizes) by (unfold zlen; lia).
      eapply read_shape_occ; eauto. }
    cbv zeta. eapply tail_raises; [| |exact HR|exact HF]; [lia|].
    destruct (1 <? zlen sizes); auto.
Qed.

(** The model's reading of a fine array; unlike read_array_occ it does not need the
    array to lie inside the block. *)
Lemma fine_array_read blk c a bs :
  occurs buf c bs -> fine_array blk a bs -> read_array buf blk c = (Ok a, c + zlen bs).
Proof.
  intros HO (HW & HRK & HNL). destruct HW as [name f dims data nb db sb eb HT Hf HD HS HDB HSB HE HP].
  cbn [ar_shape ar_fmt] in *. unfold too_large in HNL. cbn [item_size] in HNL.
  apply occurs_app in HO as [HO1 HO]. apply occurs_app in HO as [HO2 HO].
  apply occurs_app in HO as [HO3 HO]. apply occurs_app in HO as [HO4 HO5].
  pose proof (wire_int_len _ _ _ _ HDB) as HLd. change (Z.of_nat 4) with 4 in HLd.
  change (zlen [wire_code f]) with 1 in *.
  pose proof (wire_list_int_len _ _ _ _ HE) as HLe. rewrite wire_size_eq in *.
  pose proof (sizes_fine_nonneg blk name dims HS) as HNN.
  pose proof (product_nonneg _ HNN) as HPN.
  pose proof (fmt_size_pos f) as HFS.
  unfold read_array. erewrite bind_eq by (eapply read_s_occ; eauto).
  erewrite bind_eq by (apply read_c_occ; eauto).
  erewrite bind_eq by (unfold check_data_type; rewrite data_types_code; reflexivity).
  erewrite bind_eq by (eapply read_i_occ; eauto).
  erewrite bind_eq by (apply bytes_check_pass; lia).
  erewrite bind_eq by (apply zn_check_pass; lia).
  erewrite bind_eq.
  2:{ replace (Z.to_nat (zlen dims)) with (length (rev dims))
        by (rewrite rev_length; unfold zlen; lia).
      eapply read_shape_occ; eauto. rewrite HLd in HO4. exact HO4. }
  cbv zeta.
  replace (if 1 <? zlen dims then rev (rev dims) else rev dims) with dims.
  2:{ destruct (1 <? zlen dims) eqn:E; [symmetry; apply rev_involutive|].
      destruct dims as [|x [|? ?]]; auto. unfold zlen in E; cbn [length] in E. lia. }
  destruct (fine_existsb _ _ _ HS) as [-> ->]. rewrite prod_product.
  erewrite bind_eq by (apply bytes_check_pass; lia).
  erewrite bind_eq by (apply bytes_check_pass; cbn [opt_size]; lia).
  cbv beta iota.
  assert (HRN : read_numerical_array buf dims f (product dims) (c + zlen nb + 1 + 4 + zlen sb)
    = (Ok (mk_ndarray (wire_dtype f) false dims data),
       c + zlen nb + 1 + 4 + zlen sb + zlen eb)).
  { unfold read_numerical_array. rewrite fmt_dtype_eq by auto.
    rewrite <- wire_size_eq in HE.
    destruct (raw_of_wire_elems _ _ _ Hf HE) as (raw & -> & HR1 & ->).
    unfold bind at 1, get_cursor. rewrite zlen_map in *.
    erewrite bind_eq.
    2:{ unfold lift. rewrite <- HP. rewrite frombuffer_occurs; [reflexivity| | | |]; auto.
        rewrite HLd in HO5. exact HO5. }
    unfold bind at 1, advance.
    erewrite bind_eq.
    2:{ unfold lift. rewrite reshape_nonneg_ok; [reflexivity| | |]; auto; lia. }
    unfold ret. f_equal. lia. }
  replace (match f with Fs => fail DmapDataError | _ => _ end)
    with (do array_value <- read_numerical_array buf dims f (product dims);
          ret (mk_darray name array_value (wire_code f) f (zlen dims) dims))
    by (destruct f; auto; congruence).
  erewrite bind_eq by exact HRN.
  unfold ret. f_equal. rewrite !zlen_app, HLd. change (zlen [wire_code f]) with 1. lia.
Qed.

Lemma fine_arrays_read blk xs bs : wire_list (fine_array blk) xs bs -> forall c,
  occurs buf c bs -> read_arrays buf blk (length xs) c = (Ok xs, c + zlen bs).
Proof.
  intros HW. induction HW as [|x xs b bs HR HW IH]; intros c HO; cbn [read_arrays length].
  - rewrite zlen_nil, Z.add_0_r. reflexivity.
  - apply occurs_app in HO as [HO1 HO2].
    erewrite bind_eq by (eapply fine_array_read; eauto).
    erewrite bind_eq by (apply IH; exact HO2).
    unfold ret. f_equal. rewrite zlen_app. lia.
Qed.

Lemma arrays_raise blk aa ab : Forall is_byte buf -> 0 < blk <= ssize_max ->
  wire_list (fine_array blk) aa ab -> forall n c R e,
  rest c (ab ++ R) -> (length aa < n)%nat -> array_fault blk R e ->
  raising (read_arrays buf blk n) c e.
Proof.
  intros HB HBK HW. induction HW as [|x xs b bs HR HW IH]; intros n c R e HC HL HF;
    (destruct n as [|n]; cbn [length] in HL; [lia|]); cbn [read_arrays].
  - apply raising_bind. eapply array_raises; eauto.
  - rewrite <- app_assoc in HC. apply rest_app in HC as [HO HC].
    eapply raising_step; [eapply fine_array_read; eauto|].
    apply raising_bind. apply (IH n _ R); auto. lia.
Qed.

Lemma block_raises c B e : Forall is_byte buf -> rest c B -> block_fault B e ->
  raising (read_record_fields buf) c e.
Proof.
  intros HB HR HF. unfold read_record_fields.
  assert (H0 : 0 <= c) by (destruct HR as [HO _]; now apply occurs_bounds in HO).
  pose proof (proj2 HR) as HRL.
  assert (HST : forall sz R, starts B sz R ->
    read_data_i buf (c + 4) = (Ok sz, c + 4 + 4) /\ rest (c + 4 + 4) R).
  { intros sz R (id & szb & E & Hid & HSZ). rewrite E in HR. apply rest_app in HR as [_ HR].
    assert (zlen id = 4) as HZ by (unfold zlen; lia). rewrite HZ in HR.
    apply rest_app in HR as [HO HR]. rewrite (wire_int_len _ _ _ _ HSZ) in HR.
    split; auto. eapply read_i_occ; eauto. }
  assert (HHD : forall sz ns na R (m : Z -> Z -> Z -> Z -> rd block), fine_header B sz ns na R ->
    (rest (c + 16) R -> raising (m c sz ns na) (c + 16) e) ->
    raising (do start_cursor_value <- get_cursor;
      do_ advance 4;
      do block_size <- read_data_i buf;
      do cursor <- get_cursor;
      let remaining_bytes := end_bytes buf - cursor + 2 * 4 in
      do_ bytes_check block_size remaining_bytes;
      do_ zero_negative_check block_size;
      do num_scalars <- read_data_i buf;
      do num_arrays <- read_data_i buf;
      do_ zero_negative_check num_scalars;
      do_ zero_negative_check num_arrays;
      do_ bytes_check (num_scalars + num_arrays) block_size;
      m start_cursor_value block_size num_scalars num_arrays) c e).
  { intros sz ns na R m (nsb & nab & HS & HNS & HNA & HSZ & HC1 & HC2 & HC3) Hm.
    destruct (HST _ _ HS) as [HRI HR1].
    eapply raising_step; [reflexivity|]. eapply raising_step; [reflexivity|].
    eapply raising_step; [exact HRI|]. eapply raising_step; [reflexivity|]. cbv zeta.
    eapply raising_step; [apply bytes_check_pass; unfold end_bytes; lia|].
    eapply raising_step; [apply zn_check_pass; lia|].
    apply rest_app in HR1 as [HO1 HR1]. rewrite (wire_int_len _ _ _ _ HNS) in HR1.
    apply rest_app in HR1 as [HO2 HR1]. rewrite (wire_int_len _ _ _ _ HNA) in HR1.
    eapply raising_step; [eapply read_i_occ; eauto|].
    eapply raising_step; [eapply read_i_occ; eauto|].
    eapply raising_step; [apply zn_check_pass; lia|].
    eapply raising_step; [apply zn_check_pass; lia|].
    eapply raising_step; [apply bytes_check_pass; lia|].
    replace (c + 4 + 4 + Z.of_nat 4 + Z.of_nat 4) with (c + 16) in HR1 by lia.
    replace (c + 4 + 4 + 4 + 4) with (c + 16) by lia. now apply Hm. }
  assert (HSZM : forall sz ns na R, fine_header B sz ns na R -> 0 < sz <= ssize_max).
  { intros sz ns na R (nsb & nab & _ & _ & _ & HSZ & _).
    destruct HR as [HO _]. apply occurs_bounds in HO. lia. }
  destruct HF as [B HL|B sz R e HS HF|B sz R HS HSZ HL|B sz ns na nsb nab R e HS HSZ HNS HNA HF
    |B sz ns na ss sb R e HH HSS HSL HF|B sz ns na ss sb aa ab R e HH HSS HSL HAA HAL HF
    |B sz ns na ss sb aa ab R HH HSS HSL HAA HAL HF].
  - eapply raising_step; [reflexivity|]. eapply raising_step; [reflexivity|].
    apply raising_bind, i_raises. lia.
  - destruct (HST _ _ HS) as [HRI HR1].
    eapply raising_step; [reflexivity|]. eapply raising_step; [reflexivity|].
    eapply raising_step; [exact HRI|]. eapply raising_step; [reflexivity|]. cbv zeta.
    destruct HF as [HF|e HF].
    + apply raising_bind, large_raises. unfold end_bytes. lia.
    + eapply raising_step; [apply bytes_check_pass; unfold end_bytes; pose proof (zlen_nonneg B); destruct HF; lia|].
      now apply raising_bind, sign_raises.
  - destruct (HST _ _ HS) as [HRI HR1].
    eapply raising_step; [reflexivity|]. eapply raising_step; [reflexivity|].
    eapply raising_step; [exact HRI|]. eapply raising_step; [reflexivity|]. cbv zeta.
    eapply raising_step; [apply bytes_check_pass; unfold end_bytes; lia|].
    eapply raising_step; [apply zn_check_pass; lia|].
    pose proof (proj2 HR1) as HRL1.
    destruct (Z_lt_le_dec (zlen R) 4) as [H4|H4]; [apply raising_bind, i_raises; lia|].
    assert (HBR : Forall is_byte R) by (eapply occurs_Forall; [exact HB|exact (proj1 HR1)]).
    destruct (int_total true 4 R ltac:(lia) HBR H4) as (z & b & R' & -> & HW).
    apply rest_app in HR1 as [HO1 HR1]. rewrite zlen_app in *. rewrite (wire_int_len _ _ _ _ HW) in *.
    eapply raising_step; [eapply read_i_occ; eauto|].
    apply raising_bind, i_raises. lia.
  - destruct (HST _ _ HS) as [HRI HR1].
    eapply raising_step; [reflexivity|]. eapply raising_step; [reflexivity|].
    eapply raising_step; [exact HRI|]. eapply raising_step; [reflexivity|]. cbv zeta.
    eapply raising_step; [apply bytes_check_pass; unfold end_bytes; lia|].
    eapply raising_step; [apply zn_check_pass; lia|].
    apply rest_app in HR1 as [HO1 HR1]. rewrite (wire_int_len _ _ _ _ HNS) in HR1.
    apply rest_app in HR1 as [HO2 HR1].
    eapply raising_step; [eapply read_i_occ; eauto|].
    eapply raising_step; [eapply read_i_occ; eauto|].
    destruct HF as [e HF|e HP HF|HP1 HP2 HF].
    + now apply raising_bind, sign_raises.
    + eapply raising_step; [apply zn_check_pass; lia|]. now apply raising_bind, sign_raises.
    + eapply raising_step; [apply zn_check_pass; lia|].
      eapply raising_step; [apply zn_check_pass; lia|]. now apply raising_bind, large_raises.
  - apply (HHD sz ns na _ (fun start block_size num_scalars num_arrays =>
      do scalars <- read_scalars buf (Z.to_nat num_scalars);
      do arrays <- read_arrays buf block_size (Z.to_nat num_arrays);
      do cursor' <- get_cursor;
      if negb (cursor' - start =? block_size) then fail CursorError
      else ret (scalars, arrays)) HH).
    intros HR1. apply raising_bind. eapply scalars_raise; eauto. unfold zlen in HSL. lia.
  - apply (HHD sz ns na _ (fun start block_size num_scalars num_arrays =>
      do scalars <- read_scalars buf (Z.to_nat num_scalars);
      do arrays <- read_arrays buf block_size (Z.to_nat num_arrays);
      do cursor' <- get_cursor;
      if negb (cursor' - start =? block_size) then fail CursorError
      else ret (scalars, arrays)) HH).
    intros HR1. apply rest_app in HR1 as [HO1 HR1].
    eapply raising_step.
    { replace (Z.to_nat ns) with (length ss) by (unfold zlen in HSL; lia).
      eapply read_scalars_occ; eauto. }
    apply raising_bind. eapply arrays_raise; eauto. unfold zlen in HAL. lia.
  - apply (HHD sz ns na _ (fun start block_size num_scalars num_arrays =>
      do scalars <- read_scalars buf (Z.to_nat num_scalars);
      do arrays <- read_arrays buf block_size (Z.to_nat num_arrays);
      do cursor' <- get_cursor;
      if negb (cursor' - start =? block_size) then fail CursorError
      else ret (scalars, arrays)) HH).
    intros HR1. apply rest_app in HR1 as [HO1 HR1]. apply rest_app in HR1 as [HO2 HR1].
    eapply raising_step.
    { replace (Z.to_nat ns) with (length ss) by (unfold zlen in HSL; lia).
      eapply read_scalars_occ; eauto. }
    eapply raising_step.
    { replace (Z.to_nat na) with (length aa) by (unfold zlen in HAL; lia).
      eapply fine_arrays_read; eauto. }
    eapply raising_step; [reflexivity|].
    replace (c + 16 + zlen sb + zlen ab - c =? sz) with false by lia. eexists. reflexivity.
Qed.

End Raising.

(** ** Files *)

Lemma loop_raises buf bl A B e :
  zlen buf <= ssize_max -> Forall is_byte buf -> wire_file bl A -> block_fault B e ->
  forall fuel c recs n, rest buf c (A ++ B) -> (length bl < fuel)%nat ->
  exists c', read_records_loop fuel (mk_reader buf c recs n) =
    (Raise e, mk_reader buf c' (recs ++ map record_of_fields bl) (n + zlen bl)).
Proof.
  intros HM HB HW HF. induction HW as [|b bl x xs [id Hb] HW IH]; intros fuel c recs n HR HL;
    (destruct fuel as [|fuel]; cbn [length] in HL; [lia|]); cbn [read_records_loop].
  - cbn [app map] in *. rewrite app_nil_r. unfold zlen; cbn [length]. rewrite Z.add_0_r.
    cbn [rdr_buf rdr_cursor rdr_records rdr_rec_num].
    destruct (block_raises buf HM _ _ _ HB HR HF) as [c' HC].
    assert (HP : 0 < zlen B).
    { assert (HS : forall sz R, starts B sz R -> 0 < zlen B).
      { intros sz R HS. rewrite (starts_len _ _ _ HS). pose proof (zlen_nonneg R). lia. }
      assert (HH : forall sz ns na R, fine_header B sz ns na R -> 0 < zlen B).
      { intros sz ns na R (nsb & nab & H & _). eauto. }
      destruct HF; eauto. lia. }
    replace (c <? end_bytes buf) with true by (unfold end_bytes; destruct HR as [_ HR]; lia).
    exists c'. unfold read_record. now rewrite (bind_raise _ _ _ _ _ HC).
  - rewrite <- app_assoc in HR. apply rest_app in HR as [HO HR].
    pose proof (wire_block_len _ _ _ Hb) as HLb. pose proof (occurs_bounds _ _ _ HO) as HOB.
    cbn [rdr_buf rdr_cursor rdr_records rdr_rec_num].
    replace (c <? end_bytes buf) with true by (unfold end_bytes; lia).
    unfold read_record. rewrite (bind_eq _ _ _ _ _ (read_block_occ buf c id b x HM HO Hb)).
    unfold ret. cbn [rdr_buf rdr_cursor rdr_records rdr_rec_num].
    destruct (IH fuel (c + zlen x) (recs ++ [record_of_fields b]) (n + 1) HR ltac:(lia)) as [c' HC].
    exists c'. rewrite HC. cbn [map]. rewrite <- app_assoc, zlen_cons. cbn [app].
    f_equal. f_equal. lia.
Qed.

Lemma file_raises bl A B e :
  is_bytearray (A ++ B) -> wire_file bl A -> block_fault B e ->
  exists c, read_records (mk_reader (A ++ B) 0 [] 0) =
    (Raise e, mk_reader (A ++ B) c (map record_of_fields bl) (zlen bl)).
Proof.
  intros [HB HM] HW HF. unfold read_records. cbn [rdr_buf].
  pose proof (wire_file_len _ _ HW) as HL. pose proof (zlen_nonneg bl). pose proof (zlen_nonneg B).
  destruct (loop_raises (A ++ B) bl A B e HM HB HW HF (S (length (A ++ B))) 0 [] 0) as [c HC].
  - split; [apply occurs_all|lia].
  - rewrite app_length. unfold zlen in HL. lia.
  - rewrite HC. exists c. cbn [app]. rewrite Z.add_0_l. reflexivity.
Qed.

Lemma file_fault_raises buf e : is_bytearray buf -> file_fault buf e -> dmap_read buf = Raise e.
Proof.
  intros HA HF. destruct HF as [|bl A B e HW HF]; [reflexivity|].
  unfold dmap_read, reader_new.
  destruct (file_raises bl A B e HA HW HF) as [c HC].
  destruct (zlen (A ++ B) =? 0) eqn:E0; cbn [rbind]; [|now rewrite HC].
  exfalso. apply Z.eqb_eq, zlen_0, app_eq_nil in E0 as [-> ->].
  vm_compute in HC. discriminate HC.
Qed.

Lemma block_fault_cut id b W B C :
  wire_block id b W -> W = B ++ C -> B <> [] -> C <> [] ->
  block_fault B (if zlen B <? 8 then CursorError else MismatchByteError).
Proof.
  intros HW HE HB HC.
  assert (0 < zlen B).
  { assert (zlen B <> 0) by (rewrite zlen_0; auto). pose proof (zlen_nonneg B). lia. }
  assert (0 < zlen C).
  { assert (zlen C <> 0) by (rewrite zlen_0; auto). pose proof (zlen_nonneg C). lia. }
  destruct (zlen B <? 8) eqn:E8; [apply bf_cut; lia|].
  destruct HW as [ss aa szb nsb nab sb ab HI HIB HSS HAA HSZ HNS HNA HS HA].
  pose proof (wire_int_len _ _ _ _ HSZ) as HLZ.
  set (T := nsb ++ nab ++ sb ++ ab) in *.
  assert (HLE : zlen (id ++ szb ++ T) = zlen B + zlen C) by (rewrite HE; apply zlen_app).
  destruct (cut_at B 8 ltac:(lia)) as (h & R & EB & Hh).
  assert (HH : h = id ++ szb).
  { rewrite EB, <- app_assoc, app_assoc in HE. symmetry in HE. apply app_eq_len in HE as [HE _]; auto.
    rewrite app_length. unfold zlen in HLZ. lia. }
  apply bf_size with (sz := zlen (id ++ szb ++ T)) (R := R).
  - exists id, szb. rewrite EB, HH, <- app_assoc. auto.
  - apply bz_large. lia.
Qed.

(** ** The integrity check *)

Section Walk.
Variable buf : bytes.
Hypothesis Hbytes : Forall is_byte buf.
Hypothesis Hmax : zlen buf <= ssize_max.

Lemma walk_total n : forall p, 0 <= p -> zlen buf - p <= Z.of_nat n -> p <= zlen buf ->
  (exists ns, walk buf p ns) \/ exists e, walk_fault buf p e.
Proof.
  induction n as [|n IH]; intros p H0 HL HP.
  { left. exists []. replace p with (zlen buf) by lia. constructor. }
  destruct (Z.eq_dec p (zlen buf)) as [->|HNE]; [left; exists []; constructor|].
  destruct (Z_lt_le_dec (zlen buf) (p + 8)) as [H8|H8]; [right; exists CursorError; apply kf_cut; lia|].
  destruct (occurs_slice buf (p + 4) 4) as [HO HSL]; try lia.
  destruct (int_total true 4 (slice buf (p + 4) 4) ltac:(lia)) as (z & b & R & E & HW); [|lia|].
  { eapply occurs_Forall; eauto. }
  rewrite E in HO. apply occurs_prefix in HO.
  destruct (Z_lt_le_dec (zlen buf - p) z) as [HZ1|HZ1];
    [right; exists MismatchByteError; eapply kf_size; eauto; now constructor|].
  destruct (Z_lt_le_dec z 0) as [HZ2|HZ2];
    [right; exists NegativeByteError; eapply kf_size; eauto; apply bz_sign; now constructor|].
  destruct (Z.eq_dec z 0) as [->|HZ3];
    [right; exists ZeroByteError; eapply kf_size; eauto; apply bz_sign; constructor|].
  destruct (IH (p + z)) as [[ns HK]|[e HK]]; try lia.
  - left. exists (z :: ns). econstructor; eauto. lia.
  - right. exists e. eapply kf_step; eauto. lia.
Qed.

Lemma walk_fault_raises p e : walk_fault buf p e -> forall fuel, 0 <= p ->
  zlen buf - p < Z.of_nat fuel -> raising (integrity_loop buf fuel p) p e.
Proof.
  intros H. induction H as [p HL|p n szb e HO HW HF|p n szb e HO HW HP H IH]; intros fuel H0 HFU.
  - destruct fuel as [|fuel]; [lia|]. cbn [integrity_loop].
    eapply raising_step; [reflexivity|]. unfold end_bytes.
    replace (p <? zlen buf) with true by lia.
    eapply raising_step; [reflexivity|]. apply raising_bind, i_raises. lia.
  - pose proof (occurs_bounds _ _ _ HO) as HB. pose proof (wire_int_len _ _ _ _ HW).
    destruct fuel as [|fuel]; [lia|]. cbn [integrity_loop].
    eapply raising_step; [reflexivity|]. unfold end_bytes.
    replace (p <? zlen buf) with true by lia.
    eapply raising_step; [reflexivity|].
    eapply raising_step; [eapply read_i_occ; eauto|].
    destruct HF as [HF|e HF].
    + eapply raising_step; [apply zn_check_pass; lia|]. cbv zeta.
      apply raising_bind, large_raises. lia.
    + now apply raising_bind, sign_raises.
  - pose proof (occurs_bounds _ _ _ HO) as HB. pose proof (wire_int_len _ _ _ _ HW).
    destruct fuel as [|fuel]; [lia|]. cbn [integrity_loop].
    eapply raising_step; [reflexivity|]. unfold end_bytes.
    replace (p <? zlen buf) with true by lia.
    eapply raising_step; [reflexivity|].
    eapply raising_step; [eapply read_i_occ; eauto|].
    eapply raising_step; [apply zn_check_pass; lia|]. cbv zeta.
    eapply raising_step; [apply bytes_check_pass; lia|].
    eapply raising_step; [reflexivity|].
    replace (p + 4 + 4 + (n - 2 * 4)) with (p + n) by lia. apply IH; lia.
Qed.

Lemma integrity_raises e : walk_fault buf 0 e ->
  raising (test_initial_data_integrity buf) 0 e.
Proof.
  intros H. unfold test_initial_data_integrity.
  eapply raising_step; [reflexivity|]. cbn [Z.eqb negb].
  apply raising_bind. apply walk_fault_raises; auto; [lia|]. unfold zlen. lia.
Qed.

End Walk.

Lemma walk_fault_shift bl A B e buf p :
  wire_file bl A -> rest buf p (A ++ B) -> walk_fault buf (p + zlen A) e -> walk_fault buf p e.
Proof.
  intros HW. revert p. induction HW as [|b bl x xs [id Hb] HW IH]; intros p HR HF.
  - rewrite zlen_nil, Z.add_0_r in HF. exact HF.
  - rewrite <- app_assoc in HR. apply rest_app in HR as [HO HR].
    pose proof (wire_block_len _ _ _ Hb) as HLb. pose proof (occurs_bounds _ _ _ HO) as HOB.
    destruct Hb as [ss aa szb nsb nab sb ab Hid HB HS0 HA0 W1 W2 W3 HSS HAA].
    set (L := zlen (id ++ szb ++ nsb ++ nab ++ sb ++ ab)) in *.
    assert (HZ : zlen id = 4) by (unfold zlen; lia).
    apply occurs_app in HO as [_ HO]. rewrite HZ in HO. apply occurs_prefix in HO.
    apply (kf_step buf p L szb); auto; [lia|].
    apply IH; auto. rewrite zlen_app in HF. fold L in HF.
    replace (p + L + zlen xs) with (p + (L + zlen xs)) by lia. exact HF.
Qed.

(** Faults of sizes are met by the walk as well. *)
Lemma walk_fault_block buf p B e :
  rest buf p B -> (0 < zlen B < 8 /\ e = CursorError) \/
                  (exists sz R, starts B sz R /\ size_fault (zlen B) sz e) ->
  walk_fault buf p e.
Proof.
  intros HR [[HL ->]|(sz & R & HS & HF)].
  - destruct HR as [HO HE]. apply kf_cut. lia.
  - destruct HS as (id & szb & -> & Hid & HSZ).
    pose proof (proj2 HR) as HE. apply rest_app in HR as [_ HR].
    assert (HZ : zlen id = 4) by (unfold zlen; lia). rewrite HZ in HR.
    apply rest_app in HR as [HO _]. apply (kf_size buf p sz szb); auto.
    now replace (zlen buf - p) with (zlen (id ++ szb ++ R)) by lia.
Qed.
