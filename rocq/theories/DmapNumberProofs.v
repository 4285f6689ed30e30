(** Proofs about integers given for float, double and text fields. *)
From Coq Require Import ZArith List Bool Lia.
From Verif Require Import Base Bytes BytesSpec BytesProofs FloatBits FloatSpec FloatBitsProofs FloatRoundProofs FloatInt FloatIntProofs
  DmapTypes DmapSpec DmapWriteSpec DmapWrite Conversions DmapFileProofs DmapWriteProofs DmapWriteFacts DmapReadProofs
  NumeralSpec NumeralProofs DmapWriteFaultSpec DmapWriteFaultProofs DmapNumberSpec.
Import ListNotations.
Open Scope Z_scope.

Lemma made_nearest z b : double_of_int z = Some b -> nearest_double z b.
Proof.
  intros D. destruct (double_nearest z b D) as (H1 & H2 & H3 & _ & H5). split; [|split; [|split]].
  - pose proof (double_huge z) as H. rewrite D in H. destruct (Z.lt_ge_cases (Z.abs z) (2 ^ 1024 - 2 ^ 970)) as [L|L]; [exact L|].
    apply H in L. discriminate L.
  - split; assumption.
  - exact H3.
  - intros c [C1 C2]. exact (H5 c C1 C2).
Qed.

Lemma nearest_made z b : nearest_double z b -> double_of_int z = Some b.
Proof.
  intros (L & [B1 B2] & S & N). destruct (double_of_int z) as [c|] eqn:D.
  - f_equal. destruct (double_nearest z c D) as (H1 & H2 & _). destruct (N c (conj H1 H2)) as [N1 N2]. symmetry.
    exact (double_unique z c b D B1 B2 S N1 N2).
  - apply double_huge in D. exfalso. exact (Zle_not_lt _ _ D L).
Qed.

Lemma le_num_8 b : 0 <= b < 2 ^ 64 -> le_num (le_enc 8 b) = b.
Proof. intros H. rewrite le_num_dec, le_dec_enc. apply Z.mod_small. exact H. Qed.
Lemma le_num_4 b : 0 <= b < 2 ^ 32 -> le_num (le_enc 4 b) = b.
Proof. intros H. rewrite le_num_dec, le_dec_enc. apply Z.mod_small. exact H. Qed.

Lemma int_double v z : int_of v = Some z -> scalar_data_bytes Fd v = pack_double z.
Proof. destruct v; cbn; intros [= ->]; reflexivity. Qed.
Lemma int_text v z : int_of v = Some z -> scalar_data_bytes Fs v = pack_decimal z.
Proof. destruct v; cbn; intros [= ->]; reflexivity. Qed.
Lemma int_single v z : int_of v = Some z -> v = VInt z \/ Z.abs z <= 2 ^ 53 -> scalar_data_bytes Ff v = pack_single z.
Proof.
  destruct v; cbn [int_of scalar_data_bytes]; intros [= ->] H; [reflexivity|].
  destruct H as [H|H]; [discriminate H|]. now replace (Z.abs z <=? 2 ^ 53) with true by lia.
Qed.

Lemma double_outcome v z : int_of v = Some z ->
  (no_double z -> scalar_data_bytes Fd v = Raise StructError) /\
  (forall b, nearest_double z b -> scalar_data_bytes Fd v = scalar_data_bytes Fd (VFloat b)) /\
  (~ no_double z -> exists bs, scalar_data_bytes Fd v = Ok bs /\ length bs = 8%nat /\ Forall is_byte bs /\
     nearest_double z (le_num bs) /\ (Z.abs z <= 2 ^ 53 -> f64_val (le_num bs) = z * 2 ^ 1074)).
Proof.
  intros I. rewrite (int_double v z I). unfold pack_double. splits.
  - intros H. apply double_huge in H. now rewrite H.
  - intros b H. now rewrite (nearest_made z b H).
  - intros H. destruct (double_of_int z) as [b|] eqn:D; [|exfalso; apply H; now apply double_huge].
    destruct (double_nearest z b D) as (H1 & _ & _ & H4 & _).
    exists (le_enc 8 b). rewrite (le_num_8 b H1). splits; auto using le_enc_length, le_enc_bytes. now apply made_nearest.
Qed.

(** The values of the largest integers in question, as multiples of the units. *)
Lemma small_single b z : 0 <= b < 2 ^ 64 -> f64_exp b <> 2047 -> (f64_sign b = 1 <-> z < 0) ->
  f64_val b = z * 2 ^ 1074 -> Z.abs z <= 2 ^ 53 -> nearest_single z (narrow b).
Proof.
  intros Hb Fb Sb V L. destruct (narrow_nearest b Hb Fb) as (N1 & N2 & _ & N4).
  destruct (narrow_range b Hb) as [R _].
  assert (E : f32_exp (narrow b) <> 255).
  { intros C. apply N2 in C. rewrite V, Z.abs_mul in C. rewrite (Z.abs_eq (2 ^ 1074)) in C by (apply Z.pow_nonneg; lia).
    assert (B : Z.abs z * 2 ^ 1074 <= 2 ^ 53 * 2 ^ 1074) by (apply Z.mul_le_mono_nonneg_r; [apply Z.pow_nonneg|]; lia).
    assert (D : 2 ^ 53 * 2 ^ 1074 < (2 ^ 25 - 1) * 2 ^ 1177) by reflexivity.
    exact (Zlt_not_le _ _ (Z.le_lt_trans _ _ _ B D) C). }
  split; [split; assumption|]. split; [now rewrite N1|].
  intros d [D1 D2]. destruct (N4 E d D1 D2) as [M1 M2]. rewrite V in M1, M2.
  assert (U : 2 ^ 1074 = 2 ^ 149 * 2 ^ 925) by reflexivity.
  assert (P : 0 < 2 ^ 925) by (apply Z.pow_pos_nonneg; lia).
  assert (X : forall x, Z.abs (z * 2 ^ 1074 - x * 2 ^ 925) = Z.abs (z * 2 ^ 149 - x) * 2 ^ 925).
  { intros x. rewrite U. rewrite <- (Z.abs_eq (2 ^ 925)) at 3 by lia. rewrite <- Z.abs_mul. f_equal. ring. }
  rewrite !X in M1, M2. split.
  - apply Z.mul_le_mono_pos_r with (2 ^ 925); assumption.
  - intros Q. apply M2. now rewrite Q.
Qed.

Lemma single_exact z c : nearest_single z c -> (exists d, finite32 d /\ f32_val d = z * 2 ^ 149) -> f32_val c = z * 2 ^ 149.
Proof. intros (_ & _ & N) (d & D & V). destruct (N d D) as [N1 _]. rewrite V in N1. lia. Qed.

(** Integers of at most 24 bits are singles. *)
Lemma single_of z : Z.abs z <= 2 ^ 24 -> exists d, finite32 d /\ f32_val d = z * 2 ^ 149.
Proof.
  intros L. destruct (Z.eq_dec z 0) as [->|Z0]; [exists 0; splits; [split; [lia|discriminate]|reflexivity]|].
  set (n := Z.abs z) in *. assert (Hn : 0 < n) by lia.
  set (s := if z <? 0 then 1 else 0). assert (Hs : s = 0 \/ s = 1) by (unfold s; destruct (z <? 0); auto).
  assert (zz : z = (if s =? 0 then 1 else -1) * n) by (unfold s, n; destruct (Z.ltb_spec z 0); cbn [Z.eqb]; lia).
  destruct (Z.eq_dec n (2 ^ 24)) as [E|E].
  - destruct (f32_fields s 151 0 Hs ltac:(lia) ltac:(lia)) as (F1 & F2 & F3).
    exists (s * 2 ^ 31 + 151 * 2 ^ 23 + 0). splits; [split; [lia|rewrite F2; discriminate]|].
    unfold f32_val. rewrite F1, F2, F3, zz, E. destruct Hs as [-> | ->]; reflexivity.
  - pose proof (Z.log2_spec n Hn) as K. set (k := Z.log2 n) in *. assert (K0 : 0 <= k) by apply Z.log2_nonneg.
    assert (K1 : k <= 23) by (destruct (Z.le_gt_cases k 23); auto; assert (2 ^ 24 <= 2 ^ k) by (apply Z.pow_le_mono_r; lia); lia).
    assert (P : 2 ^ k * 2 ^ (23 - k) = 2 ^ 23) by (rewrite <- pow_split by lia; f_equal; lia).
    assert (P2 : 0 < 2 ^ (23 - k)) by (apply Z.pow_pos_nonneg; lia).
    rewrite Z.pow_succ_r in K by lia.
    assert (M : 2 ^ 23 <= n * 2 ^ (23 - k) < 2 ^ 24) by (change (2 ^ 24) with (2 * 2 ^ 23); rewrite <- P; nia).
    set (m := n * 2 ^ (23 - k)) in *.
    destruct (f32_fields s (k + 127) (m - 2 ^ 23) Hs ltac:(lia) ltac:(lia)) as (F1 & F2 & F3).
    exists (s * 2 ^ 31 + (k + 127) * 2 ^ 23 + (m - 2 ^ 23)). splits; [split; [|rewrite F2; lia]|].
    + destruct Hs as [-> | ->]; lia.
    + unfold f32_val. rewrite F1, F2, F3, zz. replace (k + 127 =? 0) with false by lia.
      replace (m - 2 ^ 23 + 2 ^ 23) with m by lia. replace (Z.max (k + 127) 1 - 1) with (k + 126) by lia.
      rewrite <- !Z.mul_assoc. f_equal. unfold m. rewrite <- Z.mul_assoc, <- pow_split by lia. do 2 f_equal. lia.
Qed.

Lemma single_outcome v z : int_of v = Some z -> Z.abs z <= 2 ^ 53 ->
  exists bs, scalar_data_bytes Ff v = Ok bs /\ length bs = 4%nat /\ Forall is_byte bs /\
    nearest_single z (le_num bs) /\ (Z.abs z <= 2 ^ 24 -> f32_val (le_num bs) = z * 2 ^ 149).
Proof.
  intros I L. rewrite (int_single v z I (or_intror L)). unfold pack_single.
  destruct (double_of_int z) as [b|] eqn:D.
  - destruct (double_nearest z b D) as (H1 & H2 & H3 & H4 & _).
    pose proof (small_single b z H1 H2 H3 (H4 L) L) as N.
    exists (le_enc 4 (narrow b)). rewrite (narrow_narrow b H1), (le_num_4 _ (proj1 (narrow_range b H1))).
    splits; auto using le_enc_length, le_enc_bytes.
    intros S. exact (single_exact z _ N (single_of z S)).
  - exfalso. apply double_huge in D.
    assert (2 ^ 53 < 2 ^ 1024 - 2 ^ 970) by reflexivity. exact (Zlt_not_le _ _ (Z.le_lt_trans _ _ _ L H) D).
Qed.

Lemma single_large z :
  (no_double z -> scalar_data_bytes Ff (VInt z) = Raise OverflowError) /\
  (forall b, nearest_double z b -> scalar_data_bytes Ff (VInt z) = scalar_data_bytes Ff (VFloat b)).
Proof.
  cbn [scalar_data_bytes]. unfold pack_single. split.
  - intros H. apply double_huge in H. now rewrite H.
  - intros b H. now rewrite (nearest_made z b H).
Qed.

Lemma decimal_ok z : Z.abs z < 10 ^ 4300 -> pack_decimal z = pack_text (decimal z).
Proof.
  intros H. unfold pack_decimal.
  assert (L : zlen (decimal (Z.abs z)) <= 4300).
  { change (zlen (decimal (Z.abs z)) <= Z.of_nat 4300). unfold zlen. apply Nat2Z.inj_le.
    apply (natural_length (Z.abs z)); [apply decimal_natural; lia|lia|exact H]. }
  now replace (4300 <? zlen (decimal (Z.abs z))) with false by lia.
Qed.

Lemma numeral_plain z s : numeral z s -> plain_text s.
Proof. intros H. apply numeral_chars in H. eapply Forall_impl; [|exact H]. cbn. intros; lia. Qed.

Lemma text_outcome v z s : int_of v = Some z -> Z.abs z < 10 ^ 4300 -> numeral z s ->
  scalar_data_bytes Fs v = Ok (s ++ [0]) /\ scalar_data_bytes Fs v = scalar_data_bytes Fs (VStr s).
Proof.
  intros I L N. rewrite (int_text v z I), (decimal_ok z L).
  rewrite (numeral_unique z _ s (decimal_numeral z) N).
  destruct (pack_text_plain s (numeral_plain z s N)) as [P _]. split; [exact P|reflexivity].
Qed.

Lemma stands_bytes f v w : stands_for f v w -> scalar_data_bytes f v = scalar_data_bytes f w.
Proof.
  intros [v' z b I N|v' z b I K N|v' z s I L N|f' v' _].
  - exact (proj1 (proj2 (double_outcome v' z I)) b N).
  - rewrite (int_single v' z I K). exact (proj2 (single_large z) b N).
  - exact (proj2 (text_outcome v' z s I L N)).
  - reflexivity.
Qed.

Lemma fields_stand r r' : record_stands r r' -> fst (fields_to_bytes r) = fst (fields_to_bytes r').
Proof.
  induction 1 as [|[k it] [k' it'] r r' [_ H] HR IH]; [reflexivity|]. cbn [snd] in H.
  destruct H as [name v w t f S|a]; cbn [fields_to_bytes].
  - unfold dmap_scalar_to_bytes. cbn [sc_name sc_type sc_fmt sc_value]. rewrite (stands_bytes f v w S).
    destruct (rbind _ _) as [b|e]; [|reflexivity].
    destruct (fields_to_bytes r) as [x qx], (fields_to_bytes r') as [y qy]. cbn [fst] in IH. subst y.
    destruct x as [[[bs ns] na]|e]; reflexivity.
  - destruct (dmap_array_to_bytes a) as [[b|e] a']; [|reflexivity].
    destruct (fields_to_bytes r) as [x qx], (fields_to_bytes r') as [y qy]. cbn [fst] in IH. subst y.
    destruct x as [[[bs ns] na]|e]; reflexivity.
Qed.

Lemma record_stand r r' : record_stands r r' -> fst (dmap_record_to_bytes r) = fst (dmap_record_to_bytes r').
Proof.
  intros H. apply fields_stand in H. unfold dmap_record_to_bytes.
  destruct (fields_to_bytes r) as [x qx], (fields_to_bytes r') as [y qy]. cbn [fst] in H. subst y.
  destruct x as [[[bs ns] na]|e]; reflexivity.
Qed.

Lemma records_stand rs rs' : Forall2 record_stands rs rs' -> forall acc,
  fst (dmap_records_to_bytes acc rs) = fst (dmap_records_to_bytes acc rs').
Proof.
  induction 1 as [|r r' rs rs' H HR IH]; intros acc; [reflexivity|]. cbn [dmap_records_to_bytes].
  assert (HX : record_rest r = record_rest r') by (unfold record_rest; now rewrite (fields_stand _ _ H)). rewrite HX.
  apply record_stand in H. destruct (dmap_record_to_bytes r) as [x qx], (dmap_record_to_bytes r') as [y qy]. cbn [fst] in H. subst y.
  destruct x as [b|e]; [|reflexivity]. specialize (IH (acc ++ b)).
  destruct (dmap_records_to_bytes (acc ++ b) rs) as [[p q] s], (dmap_records_to_bytes (acc ++ b) rs') as [[p' q'] s'].
  exact IH.
Qed.

Lemma checked_stand rs rs' : Forall2 record_stands rs rs' -> check_dmap_dict rs = Ok rs /\ check_dmap_dict rs' = Ok rs'.
Proof.
  intros [|r r' l l' H _]; [auto|]. destruct H as [|[k it] [k' it'] r r' [_ H] _]; [auto|]. cbn [snd] in H. destruct H; auto.
Qed.

Lemma write_stand rs rs' : Forall2 record_stands rs rs' -> dmap_write rs = dmap_write rs'.
Proof.
  intros H. unfold dmap_write, writer_new. destruct (checked_stand rs rs' H) as [-> ->]. cbn [rbind].
  unfold write_dmap_stream. cbn [wr_records wr_filename wr_bytearr].
  pose proof (records_stand rs rs' H []) as E. destruct H as [|r r' l l' H HR]; [reflexivity|].
  cbn [empty_record_check wr_records wr_filename wr_bytearr].
  destruct (dmap_records_to_bytes [] (r :: l)) as [[p q] s], (dmap_records_to_bytes [] (r' :: l')) as [[p' q'] s'].
  cbn [fst] in *. injection E as -> ->. reflexivity.
Qed.
