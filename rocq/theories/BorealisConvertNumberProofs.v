(** Proofs about the numbers and dates of converted records. *)
From Coq Require Import String ZArith List Bool Lia ZifyBool.
From Verif Require Import Base FloatBits FloatSpec SDarnFormats BorealisTime BorealisTimeProofs FloatRoundProofs BorealisConvert BorealisConvertSpec
  BorealisConvertFieldSpec BorealisConvertSampleProofs.
From Verif Require DmapTypes.
Import ListNotations.
Open Scope list_scope.
Open Scope Z_scope.

(** ** Quotients *)

Lemma pow_pos k : 0 <= k -> 0 < 2 ^ k.
Proof. intros. apply Z.pow_pos_nonneg; lia. Qed.

Lemma cut_scale p a b c n : 0 < b -> 0 < c -> cut_quotient p a b n <-> cut_quotient p (a * c) (b * c) n.
Proof.
  intros HB HC. unfold cut_quotient. rewrite Z.div_mul_cancel_r by lia.
  replace (n * (b * c) - a * c) with ((n * b - a) * c) by ring.
  replace ((n * b - a) * c * 2 ^ p) with ((n * b - a) * 2 ^ p * c) by ring.
  rewrite <- Z.mul_le_mono_pos_r by lia. tauto.
Qed.

Lemma log2_bounds a : 0 < a -> 2 ^ Z.log2 a <= a < 2 * 2 ^ Z.log2 a.
Proof.
  intros H. pose proof (Z.log2_spec a H) as [H1 H2]. rewrite Z.pow_succ_r in H2 by apply Z.log2_nonneg. lia.
Qed.

(** The rounded quotient: [k] bits after the point. *)
Lemma quotient_facts p a b : 0 < p -> 0 < a -> 0 < b -> a < 2 ^ p * b ->
  exists k, 0 <= k /\ quotient p a b = (round_div (a * 2 ^ k) b, k) /\ 2 ^ (p - 1) * b <= a * 2 ^ k.
Proof.
  intros HP HA HB HQ. unfold quotient.
  set (la := Z.log2 a). set (lb := Z.log2 b).
  pose proof (log2_bounds a HA) as BA. pose proof (log2_bounds b HB) as BB. fold la in BA. fold lb in BB.
  assert (LA : 0 <= la) by apply Z.log2_nonneg. assert (LB : 0 <= lb) by apply Z.log2_nonneg.
  set (k0 := p - (la - lb)).
  assert (HK0 : 0 <= k0).
  { destruct (Z.le_gt_cases 0 k0) as [|C]; [assumption|exfalso]. subst k0.
    assert (la >= p + lb + 1) by lia.
    assert (2 ^ (p + lb + 1) <= 2 ^ la) by (apply Z.pow_le_mono_r; lia).
    replace (p + lb + 1) with (p + (lb + 1)) in H0 by ring. rewrite Z.pow_add_r, (Z.pow_add_r 2 lb) in H0 by lia. 
    pose proof (pow_pos p ltac:(lia)). nia. }
  cbv zeta. replace (0 <=? k0) with true by (symmetry; apply Z.leb_le; exact HK0). cbn [fst snd].
  assert (E : a * 2 ^ k0 >= 2 ^ (p - 1) * b).
  { assert (P1 : 2 ^ la * 2 ^ k0 = 2 ^ p * 2 ^ lb) by (rewrite <- !Z.pow_add_r by lia; f_equal; subst k0; ring).
    assert (P2 : 2 ^ p = 2 * 2 ^ (p - 1)) by (rewrite <- Z.pow_succ_r by lia; f_equal; lia).
    pose proof (pow_pos k0 HK0). pose proof (pow_pos (p - 1) ltac:(lia)). pose proof (pow_pos lb LB). nia. }
  destruct (a * 2 ^ k0 <? 2 ^ p * b) eqn:T.
  - exists k0. replace (0 <=? k0) with true by (symmetry; apply Z.leb_le; exact HK0). cbn [fst snd]. split; [exact HK0|]. split; [reflexivity|lia].
  - assert (HK1 : 0 <= k0 - 1).
    { destruct (Z.eq_dec k0 0) as [Z0|]; [|lia]. rewrite Z0 in T. change (2 ^ 0) with 1 in T. lia. }
    exists (k0 - 1). replace (0 <=? k0 - 1) with true by (symmetry; apply Z.leb_le; exact HK1). cbn [fst snd]. split; [exact HK1|]. split; [reflexivity|].
    assert (P2 : 2 ^ p = 2 * 2 ^ (p - 1)) by (rewrite <- Z.pow_succ_r by lia; f_equal; lia).
    assert (P3 : 2 ^ k0 = 2 * 2 ^ (k0 - 1)) by (rewrite <- Z.pow_succ_r by lia; f_equal; lia). nia.
Qed.

(** The integer part of a number rounded to [k] bits after the point. *)
Lemma cut_rounded p a b k N : 0 < p -> 0 < a -> 0 < b -> 0 <= k -> 2 ^ (p - 1) * b <= a * 2 ^ k ->
  - b <= 2 * (a * 2 ^ k - N * b) <= b -> cut_quotient p a b (N / 2 ^ k).
Proof.
  intros HP HA HB HK HL HN. unfold cut_quotient. pose proof (pow_pos k HK) as PK.
  pose proof (Z.div_mod a b ltac:(lia)) as D. pose proof (Z.mod_pos_bound a b HB) as M. set (q := a / b) in *. set (r := a mod b) in *. clearbody q r.
  assert (P2 : 2 ^ p = 2 * 2 ^ (p - 1)) by (rewrite <- Z.pow_succ_r by lia; f_equal; lia).
  pose proof (pow_pos (p - 1) ltac:(lia)) as PP. set (K := 2 ^ k) in *. set (P := 2 ^ (p - 1)) in *. clearbody K P. rewrite P2.
  assert (L1 : q * K <= N).
  { destruct (Z.le_gt_cases (q * K) N) as [|C]; [assumption|exfalso]. assert (N + 1 <= q * K) by lia.
    assert ((N + 1) * b <= q * K * b) by (apply Z.mul_le_mono_nonneg_r; lia). assert (a * K = q * K * b + r * K) by (subst a; ring). nia. }
  assert (L2 : N <= (q + 1) * K).
  { destruct (Z.le_gt_cases N ((q + 1) * K)) as [|C]; [assumption|exfalso]. assert ((q + 1) * K + 1 <= N) by lia.
    assert (((q + 1) * K + 1) * b <= N * b) by (apply Z.mul_le_mono_nonneg_r; lia). assert (a * K = q * K * b + r * K) by (subst a; ring).
    assert (r * K <= b * K) by (apply Z.mul_le_mono_nonneg_r; lia). nia. }
  destruct (Z.eq_dec N ((q + 1) * K)) as [E|E].
  - right. rewrite E, Z.div_mul by lia. split; [reflexivity|]. subst N.
    assert (X : 2 * (((q + 1) * b - a) * K) <= b) by lia. set (x := (q + 1) * b - a) in *.
    assert (X2 : 2 * (x * K) * P <= b * P) by (apply Z.mul_le_mono_nonneg_r; lia).
    assert (x * (2 * P) * K <= a * K) by lia. apply Z.mul_le_mono_pos_r with K; assumption.
  - left. symmetry. apply Z.div_unique with (N - q * K); lia.
Qed.

Lemma whole_div n k : 0 <= k -> whole_part n k = n / 2 ^ k.
Proof.
  intros H. unfold whole_part. destruct (Z.leb_spec k 0); [|reflexivity]. assert (k = 0) as -> by lia.
  change (2 ^ - 0) with 1. change (2 ^ 0) with 1. now rewrite Z.mul_1_r, Z.div_1_r.
Qed.

Lemma quotient_cut p a b : 0 < p -> 0 < a -> 0 < b -> a < 2 ^ p * b ->
  let '(n, k) := quotient p a b in cut_quotient p a b (whole_part n k) /\ 0 <= n.
Proof.
  intros HP HA HB HQ. destruct (quotient_facts p a b HP HA HB HQ) as (k & HK & -> & HL).
  rewrite whole_div by exact HK. pose proof (round_div_near (a * 2 ^ k) b HB) as HN. cbv zeta in HN.
  split; [now apply cut_rounded|]. pose proof (pow_pos k HK). nia.
Qed.

(** [v1 / v2] of two numbers with [k1] and [k2] bits after the point. *)
Lemma ratio_cut p s1 k1 s2 k2 u : 0 < p -> 0 <= s1 -> 0 < s2 -> k1 <= u -> k2 <= u ->
  s1 * 2 ^ (u - k1) < 2 ^ p * (s2 * 2 ^ (u - k2)) ->
  let '(n, k) := ratio p s1 k1 s2 k2 in cut_quotient p (s1 * 2 ^ (u - k1)) (s2 * 2 ^ (u - k2)) (whole_part n k) /\ 0 <= n.
Proof.
  intros HP H1 H2 U1 U2 HQ. unfold ratio. destruct (Z.eqb_spec s1 0) as [->|N].
  - split; [|lia]. left. reflexivity.
  - set (a := s1 * 2 ^ Z.max 0 (k2 - k1)). set (b := s2 * 2 ^ Z.max 0 (k1 - k2)).
    set (c := 2 ^ (u - Z.max k1 k2)). assert (HC : 0 < c) by (apply pow_pos; lia).
    assert (EA : s1 * 2 ^ (u - k1) = a * c).
    { subst a c. rewrite <- Z.mul_assoc, <- Z.pow_add_r by lia. do 2 f_equal. lia. }
    assert (EB : s2 * 2 ^ (u - k2) = b * c).
    { subst b c. rewrite <- Z.mul_assoc, <- Z.pow_add_r by lia. do 2 f_equal. lia. }
    rewrite EA, EB in *. assert (HA : 0 < a) by (subst a; pose proof (pow_pos (Z.max 0 (k2 - k1)) ltac:(lia)); nia).
    assert (HB : 0 < b) by (subst b; pose proof (pow_pos (Z.max 0 (k1 - k2)) ltac:(lia)); nia).
    assert (HQ' : a < 2 ^ p * b) by nia.
    pose proof (quotient_cut p a b HP HA HB HQ') as Q. destruct (quotient p a b) as [n k]. destruct Q as [Q0 Q1]. split; [|exact Q1].
    apply cut_scale; assumption.
Qed.

(** ** Values of floats *)

Lemma sig32_nonneg b : 0 <= sig32 b.
Proof. unfold sig32. pose proof (f32_man_bound b). destruct (f32_exp b =? 0); lia. Qed.
Lemma pos32_max b : pos32 b <= 149.
Proof. unfold pos32. lia. Qed.
Lemma f32_val_sig b : f32_val b = signed (f32_sign b) (sig32 b * 2 ^ (149 - pos32 b)).
Proof.
  unfold f32_val, sig32, pos32, signed. replace (149 - (150 - Z.max (f32_exp b) 1)) with (Z.max (f32_exp b) 1 - 1) by ring.
  destruct (f32_sign b =? 0); ring.
Qed.
Lemma f64_man_bound b : 0 <= f64_man b < 2 ^ 52.
Proof. unfold f64_man. apply Z.mod_pos_bound. reflexivity. Qed.
Lemma sig64_nonneg b : 0 <= sig64 b < 2 ^ 53.
Proof. unfold sig64. pose proof (f64_man_bound b). destruct (f64_exp b =? 0); lia. Qed.
Lemma pos64_max b : pos64 b <= 1074.
Proof. unfold pos64. lia. Qed.
Lemma f64_val_sig b : f64_val b = signed (f64_sign b) (sig64 b * 2 ^ (1074 - pos64 b)).
Proof.
  unfold f64_val, sig64, pos64, signed. replace (1074 - (1075 - Z.max (f64_exp b) 1)) with (Z.max (f64_exp b) 1 - 1) by ring.
  destruct (f64_sign b =? 0); ring.
Qed.

(** Positive values have the sign 0. *)
Lemma f64_pos b : 0 < f64_val b -> f64_sign b =? 0 = true /\ f64_val b = sig64 b * 2 ^ (1074 - pos64 b) /\ 0 < sig64 b.
Proof.
  rewrite f64_val_sig. unfold signed. pose proof (sig64_nonneg b). pose proof (pow_pos (1074 - pos64 b) ltac:(pose proof (pos64_max b); lia)).
  destruct (f64_sign b =? 0); [|nia]. intros. repeat split; nia.
Qed.
Lemma f32_pos b : 0 < f32_val b -> f32_sign b =? 0 = true /\ f32_val b = sig32 b * 2 ^ (149 - pos32 b) /\ 0 < sig32 b.
Proof.
  rewrite f32_val_sig. unfold signed. pose proof (sig32_nonneg b). pose proof (pow_pos (149 - pos32 b) ltac:(pose proof (pos32_max b); lia)).
  destruct (f32_sign b =? 0); [|nia]. intros. repeat split; nia.
Qed.

Lemma cut_bound p a b n m : 0 < b -> cut_quotient p a b n -> a <= m * b -> n <= m + 1.
Proof. intros HB [-> | [-> _]] H; pose proof (Z.div_le_upper_bound a b m HB ltac:(lia)); lia. Qed.
Lemma cut_nonneg p a b n : 0 < b -> 0 <= a -> cut_quotient p a b n -> 0 <= n.
Proof. intros HB HA [-> | [-> _]]; pose proof (Z.div_pos a b HA HB); lia. Qed.
Lemma cast_small t : - 2 ^ 31 <= t < 2 ^ 31 -> cast_i32 false t = t.
Proof. intros H. unfold cast_i32. cbn [orb]. replace (t <? - 2 ^ 31) with false by lia. replace (2 ^ 31 <=? t) with false by lia. reflexivity. Qed.

(** ** smsep *)

Lemma sample_micros_cut b : special64 b = false -> 2 ^ 1074 <= 1000 * f64_val b ->
  exists n, cut_quotient 53 (1000000 * 2 ^ 1074) (f64_val b) n /\ sample_micros b = wrap16 n.
Proof.
  intros HF HV. assert (P : 0 < 2 ^ 1074) by (apply pow_pos; lia).
  destruct (f64_pos b) as (S & V & SG); [set (x := 2 ^ 1074) in *; clearbody x; lia|].
  unfold sample_micros. rewrite HF. replace (sig64 b =? 0) with false by lia.
  pose proof (ratio_cut 53 1000000 0 (sig64 b) (pos64 b) 1074 ltac:(lia) ltac:(lia) SG ltac:(lia) (pos64_max b)) as R.
  rewrite <- V in R. replace (1074 - 0) with 1074 in R by reflexivity.
  set (x := 2 ^ 1074) in *. set (v := f64_val b) in *. clearbody x v. change (2 ^ 53) with 9007199254740992 in R. specialize (R ltac:(lia)).
  destruct (ratio 53 1000000 0 (sig64 b) (pos64 b)) as [n k]. destruct R as [R _]. exists (whole_part n k). split; [exact R|].
  unfold signed. rewrite S. f_equal. apply cast_small. change (2 ^ 31) with 2147483648.
  assert (PV : 0 < v) by lia. pose proof (cut_bound 53 (1000000 * x) v _ 1000000000 PV R ltac:(lia)). pose proof (cut_nonneg 53 (1000000 * x) v _ PV ltac:(lia) R). lia.
Qed.

(** ** skpnum *)

Lemma skip_number_cut x y : special32 x = false -> special32 y = false -> f32_sign x = 0 -> 0 < f32_val y ->
  f32_val x < 2 ^ 24 * f32_val y -> cut_quotient 24 (f32_val x) (f32_val y) (skip_number x y) /\ 0 <= skip_number x y <= 2 ^ 24.
Proof.
  intros HX HY SX PY HQ. destruct (f32_pos y PY) as (SY & VY & GY). assert (VX : f32_val x = sig32 x * 2 ^ (149 - pos32 x)) by now rewrite f32_val_sig, SX.
  unfold skip_number. rewrite HX, HY. cbn [orb andb]. replace (sig32 y =? 0) with false by lia.
  pose proof (ratio_cut 24 (sig32 x) (pos32 x) (sig32 y) (pos32 y) 149 ltac:(lia) (sig32_nonneg x) GY (pos32_max x) (pos32_max y)) as R.
  rewrite <- VX, <- VY in R. specialize (R HQ). destruct (ratio 24 _ _ _ _) as [n k]. destruct R as [R _].
  apply Z.eqb_eq in SY. rewrite SX, SY. change (signed ((0 + 0) mod 2) (whole_part n k)) with (whole_part n k).
  assert (N0 : 0 <= f32_val x). { rewrite VX. pose proof (sig32_nonneg x). pose proof (pow_pos (149 - pos32 x) ltac:(pose proof (pos32_max x); lia)). nia. }
  pose proof (cut_nonneg _ _ _ _ PY N0 R). set (w := whole_part n k) in *.
  assert (f32_val x / f32_val y < 2 ^ 24) by (apply Z.div_lt_upper_bound; lia).
  assert (w <= 2 ^ 24) by (destruct R as [-> | [-> _]]; lia).
  rewrite cast_small; [split; [exact R|lia]|]. change (2 ^ 31) with 2147483648. change (2 ^ 24) with 16777216 in *. lia.
Qed.

(** ** lagfr, intt.sc, intt.us *)

Lemma cast_special b t : special32 b = false -> - 2 ^ 31 <= t < 2 ^ 31 -> cast_i32 (special32 b) t = t.
Proof. intros ->. apply cast_small. Qed.

(** The fraction and integer part of a float32. *)
Lemma f32_parts b : exists w fr k, 0 <= k /\ 0 <= fr < 2 ^ k /\ 0 <= w /\ Z.abs (f32_val b) = w * 2 ^ 149 + fr * 2 ^ (149 - k) /\ k <= 149 /\
  whole_part (sig32 b) (pos32 b) = w /\ fraction (sig32 b) (pos32 b) = fr /\ k = Z.max 0 (pos32 b).
Proof.
  pose proof (sig32_nonneg b) as S. pose proof (pos32_max b) as PM. set (s := sig32 b) in *. set (p := pos32 b) in *.
  assert (A : Z.abs (f32_val b) = s * 2 ^ (149 - p)).
  { rewrite f32_val_sig. fold s p. pose proof (pow_pos (149 - p) ltac:(lia)). unfold signed. destruct (f32_sign b =? 0); [|rewrite Z.abs_opp]; apply Z.abs_eq; nia. }
  exists (whole_part s p), (fraction s p), (Z.max 0 p). rewrite A. unfold whole_part, fraction. destruct (Z.leb_spec p 0).
  - rewrite Z.max_l by lia. split; [lia|]. split; [lia|]. split; [pose proof (pow_pos (- p) ltac:(lia)); nia|]. split.
    + rewrite Z.add_0_r, <- Z.mul_assoc, <- Z.pow_add_r by lia. do 2 f_equal. lia.
    + repeat split; lia.
  - rewrite Z.max_r by lia. pose proof (pow_pos p ltac:(lia)) as P. split; [lia|]. split; [apply Z.mod_pos_bound; lia|]. split; [apply Z.div_pos; lia|]. split.
    + replace (2 ^ 149) with (2 ^ p * 2 ^ (149 - p)) by (rewrite <- Z.pow_add_r by lia; f_equal; lia).
      rewrite (Z.div_mod s (2 ^ p)) at 1 by lia. ring.
    + repeat split; lia.
Qed.
Lemma f32_val_signed b : f32_val b = signed (f32_sign b) (Z.abs (f32_val b)).
Proof.
  rewrite f32_val_sig at 2. pose proof (sig32_nonneg b). pose proof (pow_pos (149 - pos32 b) ltac:(pose proof (pos32_max b); lia)).
  rewrite f32_val_sig. unfold signed. destruct (f32_sign b =? 0); nia.
Qed.

Lemma int_lagfr b : special32 b = false -> - 2 ^ 31 <= Z.quot (f32_val b) (2 ^ 149) < 2 ^ 31 ->
  int16_of_f32 b = wrap16 (Z.quot (f32_val b) (2 ^ 149)).
Proof. intros S H. unfold int16_of_f32. rewrite <- quot_whole. now rewrite cast_special. Qed.

Lemma int_seconds_floor b : special32 b = false -> - 2 ^ 31 <= f32_val b / 2 ^ 149 < 2 ^ 31 ->
  int_seconds b = wrap16 (f32_val b / 2 ^ 149).
Proof.
  intros S H. unfold int_seconds. assert (E : floor_of (f32_sign b) (sig32 b) (pos32 b) = f32_val b / 2 ^ 149).
  { destruct (f32_parts b) as (w & fr & k & K0 & FR & W0 & A & K1 & EW & EF & EK). unfold floor_of. rewrite EF, EW. clear S H EF EW EK.
    assert (PK : 2 ^ k * 2 ^ (149 - k) = 2 ^ 149) by (rewrite <- Z.pow_add_r by lia; f_equal; lia). pose proof (pow_pos (149 - k) ltac:(lia)) as P1.
    pose proof (pow_pos k K0) as P2. set (U := 2 ^ 149) in *. set (R := 2 ^ (149 - k)) in *. set (K := 2 ^ k) in *. clearbody U R K.
    assert (VV : f32_val b = signed (f32_sign b) (w * U + fr * R)) by (rewrite <- A; apply f32_val_signed).
    rewrite VV. unfold signed. clear VV A.
    assert (LT : 0 <= fr * R < U) by nia.
    destruct (f32_sign b =? 0).
    - apply Z.div_unique with (fr * R); lia.
    - destruct (Z.eqb_spec fr 0) as [Z0|NZ].
      + rewrite Z0. apply Z.div_unique with 0; [lia|]. ring.
      + apply Z.div_unique with (U - fr * R); [nia|]. ring. }
  rewrite E. now rewrite cast_special.
Qed.

Lemma int_micros_quot b : special32 b = false ->
  int_micros b = Z.quot (Z.rem (f32_val b) (2 ^ 149) * 1000000) (2 ^ 149) /\ - 1000000 < int_micros b < 1000000.
Proof.
  intros S. unfold int_micros. destruct (f32_parts b) as (w & fr & k & K0 & FR & W0 & A & K1 & EW & EF & EK). rewrite EF.
  assert (PK : 2 ^ k * 2 ^ (149 - k) = 2 ^ 149) by (rewrite <- Z.pow_add_r by lia; f_equal; lia). pose proof (pow_pos (149 - k) ltac:(lia)) as P1.
  pose proof (pow_pos k K0) as P2.
  assert (WP : whole_part (fr * 1000000) (pos32 b) = fr * 1000000 / 2 ^ k).
  { unfold whole_part. destruct (Z.leb_spec (pos32 b) 0).
    - assert (k = 0) by lia. subst k. rewrite H0 in *. change (2 ^ 0) with 1 in *. assert (fr = 0) by lia. subst fr. rewrite H1. reflexivity.
    - now replace (pos32 b) with k by lia. }
  rewrite WP. assert (B : 0 <= fr * 1000000 / 2 ^ k < 1000000) by (split; [apply Z.div_pos; lia|apply Z.div_lt_upper_bound; lia]).
  set (U := 2 ^ 149) in *. set (R := 2 ^ (149 - k)) in *. set (K := 2 ^ k) in *.
  assert (LT : 0 <= fr * R < U) by nia. assert (UP : 0 < U) by nia.
  assert (D : fr * R * 1000000 / U = fr * 1000000 / K).
  { replace (fr * R * 1000000) with (fr * 1000000 * R) by ring. rewrite <- PK. apply Z.div_mul_cancel_r; lia. }
  rewrite cast_special; [|assumption|change (2 ^ 31) with 2147483648; unfold signed; destruct (f32_sign b =? 0); lia].
  rewrite (f32_val_signed b), A. clearbody U R K. unfold signed. destruct (f32_sign b =? 0).
  - split; [|lia]. rewrite Z.rem_mod_nonneg by nia. rewrite (Z.add_comm (w * U)), Z_mod_plus_full, Z.mod_small by lia.
    rewrite Z.quot_div_nonneg by nia. now rewrite D.
  - split; [|lia]. rewrite Z.rem_opp_l by lia. rewrite Z.rem_mod_nonneg by nia. rewrite (Z.add_comm (w * U)), Z_mod_plus_full, Z.mod_small by lia.
    rewrite Z.mul_opp_l, Z.quot_opp_l by lia. rewrite Z.quot_div_nonneg by nia. now rewrite D.
Qed.

(** ** frang, rsep *)

Lemma nearest_scale a b c n : 0 < b -> 0 < c -> nearest_integer a b n -> nearest_integer (a * c) (b * c) n.
Proof.
  intros HB HC [H1 H2]. unfold nearest_integer. replace (a * c - n * (b * c)) with ((a - n * b) * c) by ring.
  rewrite Z.abs_mul, (Z.abs_eq c) by lia. split; [nia|]. intros H. apply H2. nia.
Qed.
Lemma nearest_opp a b n : nearest_integer a b n -> nearest_integer (- a) b (- n).
Proof.
  intros [H1 H2]. unfold nearest_integer. replace (- a - - n * b) with (- (a - n * b)) by ring. rewrite Z.abs_opp, Z.even_opp. auto.
Qed.
Lemma round_f32_nearest b n : round_f32 b = Ok n -> special32 b = false /\ nearest_integer (f32_val b) (2 ^ 149) n.
Proof.
  unfold round_f32. destruct (special32 b) eqn:S; [destruct (f32_man b =? 0); discriminate|]. cbv zeta.
  destruct (_ || _); [discriminate|]. intros H. injection H as H. split; [reflexivity|].
  pose proof (pos32_max b) as PM. pose proof (sig32_nonneg b) as SG.
  set (m := if pos32 b <=? 0 then _ else _) in *.
  assert (N : nearest_integer (sig32 b * 2 ^ (149 - pos32 b)) (2 ^ 149) m).
  { subst m. destruct (Z.leb_spec (pos32 b) 0).
    - replace (2 ^ (149 - pos32 b)) with (2 ^ (- pos32 b) * 2 ^ 149) by (rewrite <- Z.pow_add_r by lia; f_equal; lia).
      unfold nearest_integer. rewrite Z.mul_assoc, Z.sub_diag. cbn [Z.abs]. rewrite Z.mul_0_r. pose proof (pow_pos 149 ltac:(lia)). split; lia.
    - replace (2 ^ 149) with (2 ^ pos32 b * 2 ^ (149 - pos32 b)) by (rewrite <- Z.pow_add_r by lia; f_equal; lia).
      apply nearest_scale; [apply pow_pos; lia..|]. apply round_div_spec. apply pow_pos; lia. }
  rewrite f32_val_sig. subst n. unfold signed. destruct (f32_sign b =? 0); [exact N|now apply nearest_opp].
Qed.

(** ** tsc, tus *)

Lemma thousand_seconds_cut b : special64 b = false -> f64_sign b = 0 -> f64_val b < 2 ^ 40 * 2 ^ 1074 ->
  cut_quotient 53 (f64_val b) (1000 * 2 ^ 1074) (thousand_seconds b) /\ 0 <= thousand_seconds b < 2 ^ 31.
Proof.
  intros HF S HV. assert (V : f64_val b = sig64 b * 2 ^ (1074 - pos64 b)) by now rewrite f64_val_sig, S.
  unfold thousand_seconds. rewrite HF, S.
  pose proof (ratio_cut 53 (sig64 b) (pos64 b) 1000 0 1074 ltac:(lia) (proj1 (sig64_nonneg b)) ltac:(lia) (pos64_max b) ltac:(lia)) as R.
  rewrite <- V in R. replace (1074 - 0) with 1074 in R by reflexivity.
  assert (P : 0 < 2 ^ 1074) by (apply pow_pos; lia).
  assert (N0 : 0 <= f64_val b). { rewrite V. pose proof (sig64_nonneg b). pose proof (pow_pos (1074 - pos64 b) ltac:(pose proof (pos64_max b); lia)). nia. }
  set (x := 2 ^ 1074) in *. set (v := f64_val b) in *. clearbody x v. change (2 ^ 53) with 9007199254740992 in R. change (2 ^ 40) with 1099511627776 in HV.
  specialize (R ltac:(lia)). destruct (ratio 53 (sig64 b) (pos64 b) 1000 0) as [n k]. destruct R as [R _].
  change (floor_of 0 n k) with (whole_part n k). change (2 ^ 31) with 2147483648. assert (PX : 0 < 1000 * x) by lia.
  pose proof (cut_bound 53 v (1000 * x) _ 1099511628 PX R ltac:(lia)). pose proof (cut_nonneg 53 v (1000 * x) _ PX N0 R).
  rewrite cast_small by (change (2 ^ 31) with 2147483648; lia). split; [exact R|lia].
Qed.

Lemma round53_cut a k : 0 <= k -> 0 <= a < 2 ^ 53 * 2 ^ k -> cut_quotient 53 a (2 ^ k) (round53 a / 2 ^ k).
Proof.
  intros HK HA. pose proof (pow_pos k HK) as PK. unfold round53. destruct (Z.leb_spec (Z.log2 a - 52) 0) as [L|L]; [now left|].
  set (e := Z.log2 a - 52) in *. assert (A0 : 0 < a). { destruct (Z.eq_dec a 0) as [->|]; [cbn in e; subst e; lia|lia]. }
  pose proof (log2_bounds a A0) as [B1 B2].
  assert (EK : e <= k).
  { assert (Z.log2 a < 53 + k); [|lia]. apply Z.log2_lt_pow2; [lia|]. rewrite Z.pow_add_r by lia. lia. }
  pose proof (pow_pos e ltac:(lia)) as PE. set (N := round_div a (2 ^ e)).
  assert (D : 2 ^ k = 2 ^ (k - e) * 2 ^ e) by (rewrite <- Z.pow_add_r by lia; f_equal; lia).
  pose proof (pow_pos (k - e) ltac:(lia)) as PD.
  replace (N * 2 ^ e / 2 ^ k) with (N / 2 ^ (k - e)) by (rewrite D; symmetry; apply Z.div_mul_cancel_r; lia).
  apply cut_rounded; [lia..| |].
  - change (53 - 1) with 52. assert (E52 : 2 ^ Z.log2 a = 2 ^ 52 * 2 ^ e) by (rewrite <- Z.pow_add_r by lia; f_equal; subst e; lia). rewrite E52 in B1.
    rewrite D. set (P52 := 2 ^ 52) in *. set (D' := 2 ^ (k - e)) in *. set (E' := 2 ^ e) in *. clearbody P52 D' E'. nia.
  - pose proof (round_div_near a (2 ^ e) PE) as RN. cbv zeta in RN. fold N in RN. rewrite D.
    set (D' := 2 ^ (k - e)) in *. set (E' := 2 ^ e) in *. clearbody D' E' N. nia.
Qed.

Lemma thousand_rest_cut b : special64 b = false -> f64_sign b = 0 ->
  cut_quotient 53 ((f64_val b mod (1000 * 2 ^ 1074)) * 1000) (2 ^ 1074) (thousand_rest b) /\ 0 <= thousand_rest b <= 1000000.
Proof.
  intros HF S. assert (V : f64_val b = sig64 b * 2 ^ (1074 - pos64 b)) by now rewrite f64_val_sig, S.
  unfold thousand_rest. rewrite HF, S. cbv zeta. change (signed 0) with (fun z : Z => z). cbv beta.
  pose proof (sig64_nonneg b) as SG. pose proof (pos64_max b) as PM. set (s := sig64 b) in *. set (p := pos64 b) in *.
  set (n := if p <=? 0 then _ else _). set (k := Z.max 0 p).
  assert (HK : 0 <= k) by lia. pose proof (pow_pos k HK) as PK. pose proof (pow_pos (1074 - k) ltac:(lia)) as PR.
  assert (DU : 2 ^ 1074 = 2 ^ k * 2 ^ (1074 - k)) by (rewrite <- Z.pow_add_r by lia; f_equal; lia).
  assert (NB : 0 <= n < 1000 * 2 ^ k).
  { subst n k. destruct (Z.leb_spec p 0).
    - rewrite Z.max_l by lia. change (2 ^ 0) with 1. apply Z.mod_pos_bound. lia.
    - rewrite Z.max_r in * by lia. apply Z.mod_pos_bound. lia. }
  assert (NE : f64_val b mod (1000 * 2 ^ 1074) = n * 2 ^ (1074 - k)).
  { rewrite V, DU. subst n k. destruct (Z.leb_spec p 0).
    - rewrite Z.max_l by lia. change (2 ^ 0) with 1. rewrite Z.mul_1_l. change (1074 - 0) with 1074.
      replace (2 ^ (1074 - p)) with (2 ^ (- p) * 2 ^ 1074) by (rewrite <- Z.pow_add_r by lia; f_equal; lia).
      rewrite Z.mul_assoc. rewrite Z.mul_mod_distr_r by lia. reflexivity.
    - rewrite Z.max_r in * by lia. rewrite (Z.mul_assoc 1000). rewrite Z.mul_mod_distr_r by lia. reflexivity. }
  rewrite NE. rewrite whole_div by exact HK. replace (n * 2 ^ (1074 - k) * 1000) with (n * 1000 * 2 ^ (1074 - k)) by ring. rewrite DU.
  assert (C : cut_quotient 53 (n * 1000) (2 ^ k) (round53 (n * 1000) / 2 ^ k)).
  { apply round53_cut; [exact HK|]. change (2 ^ 53) with 9007199254740992. lia. }
  set (r := round53 (n * 1000) / 2 ^ k) in *.
  assert (B : 0 <= r <= 1000000).
  { split; [apply (cut_nonneg 53 (n * 1000) (2 ^ k)); [lia..|exact C]|].
    assert (n * 1000 / 2 ^ k < 1000000) by (apply Z.div_lt_upper_bound; lia). destruct C as [-> | [-> _]]; lia. }
  rewrite cast_small by (change (2 ^ 31) with 2147483648; lia). split; [|exact B]. apply cut_scale; assumption.
Qed.

(** ** The first timestamp *)

Lemma micros_near b m : micros b = Ok m -> micros_of b m.
Proof.
  intros H. unfold micros in H. destruct (f64_exp b =? 2047); [destruct (f64_man b =? 0); discriminate|]. cbv zeta in H.
  change (if f64_exp b =? 0 then f64_man b else f64_man b + 2 ^ 52) with (sig64 b) in H. change (1075 - Z.max (f64_exp b) 1) with (pos64 b) in H.
  destruct (2 ^ 55 <=? _); [discriminate|]. destruct (_ || _); [discriminate|]. injection H as H.
  pose proof (sig64_nonneg b) as SG. pose proof (pos64_max b) as PM. unfold micros_of. rewrite f64_val_sig. set (s := sig64 b) in *. set (p := pos64 b) in *.
  set (a := _ * 1000000 + _) in H.
  assert (N : 2 * Z.abs (a * 2 ^ 1074 - s * 2 ^ (1074 - p) * 1000000) <= 2 ^ 1074 + 2 ^ 1041).
  { subst a. clear H. destruct (Z.leb_spec p 0).
    - replace (2 ^ (1074 - p)) with (2 ^ (- p) * 2 ^ 1074) by (rewrite <- Z.pow_add_r by lia; f_equal; lia).
      replace ((s * 2 ^ (- p) * 1000000 + 0) * 2 ^ 1074 - s * (2 ^ (- p) * 2 ^ 1074) * 1000000) with 0 by ring. cbn [Z.abs]. 
      pose proof (pow_pos 1074 ltac:(lia)). pose proof (pow_pos 1041 ltac:(lia)). lia.
    - pose proof (pow_pos p ltac:(lia)) as PP. pose proof (pow_pos (1074 - p) ltac:(lia)) as PR.
      pose proof (Z.div_mod s (2 ^ p) ltac:(lia)) as D. pose proof (Z.mod_pos_bound s (2 ^ p) PP) as MB.
      set (w := s / 2 ^ p) in *. set (fr := s mod 2 ^ p) in *. clearbody w fr.
      set (x := fr * 1000000). set (R := round53 x).
      (* the product is rounded by at most 2^-33 of the unit *)
      assert (RX : 2 * Z.abs (R - x) * 2 ^ 33 <= 2 ^ p).
      { subst R. unfold round53. destruct (Z.leb_spec (Z.log2 x - 52) 0); [rewrite Z.sub_diag; cbn [Z.abs]; lia|].
        assert (X0 : 0 < x). { destruct (Z.eq_dec x 0) as [E|]; [rewrite E in H0; cbn in H0; lia|lia]. }
        set (e := Z.log2 x - 52) in *.
        pose proof (pow_pos e ltac:(lia)) as PE. pose proof (round_div_near x (2 ^ e) PE) as RN. cbv zeta in RN.
        assert (EP : e + 33 <= p).
        { assert (Z.log2 x < p + 20); [|lia]. apply Z.log2_lt_pow2; [lia|]. rewrite Z.pow_add_r by lia. change (2 ^ 20) with 1048576. subst x. nia. }
        assert (E33 : 2 ^ (e + 33) <= 2 ^ p) by (apply Z.pow_le_mono_r; lia). rewrite Z.pow_add_r in E33 by lia.
        assert (2 * Z.abs (round_div x (2 ^ e) * 2 ^ e - x) <= 2 ^ e) by lia.
        set (E' := 2 ^ e) in *. set (P33 := 2 ^ 33) in *. assert (0 < P33) by reflexivity. clearbody E' P33. nia. }
      pose proof (round_div_near R (2 ^ p) PP) as RN. cbv zeta in RN. set (u := round_div R (2 ^ p)) in *. clearbody u R.
      assert (DU : 2 ^ 1074 = 2 ^ p * 2 ^ (1074 - p)) by (rewrite <- Z.pow_add_r by lia; f_equal; lia).
      assert (D41 : 2 ^ 1041 * 2 ^ 33 = 2 ^ 1074) by (rewrite <- Z.pow_add_r by lia; reflexivity).
      assert (EQ : (w * 1000000 + u) * 2 ^ 1074 - s * 2 ^ (1074 - p) * 1000000 = (u * 2 ^ p - x) * 2 ^ (1074 - p)) by (rewrite DU, D; subst x; ring).
      rewrite EQ, Z.abs_mul, (Z.abs_eq (2 ^ (1074 - p))) by lia. 
      assert (T : 2 * Z.abs (u * 2 ^ p - x) <= 2 ^ p + 2 * Z.abs (R - x)) by lia.
      set (A := Z.abs (u * 2 ^ p - x)) in *. set (B := Z.abs (R - x)) in *. assert (0 <= B) by apply Z.abs_nonneg. clearbody A B.
      set (Q := 2 ^ (1074 - p)) in *. set (P := 2 ^ p) in *. set (M := 2 ^ 1041) in *. clearbody Q P M. rewrite DU in D41 |- *.
      assert (2 * B * Q <= M). { apply Z.mul_le_mono_pos_r with (2 ^ 33); [reflexivity|]. rewrite D41. change (2 ^ 33) with 8589934592 in *. nia. }
      nia. }
  subst m. unfold signed. destruct (f64_sign b =? 0).
  - rewrite Z.mul_1_l. exact N.
  - replace (-1 * a * 2 ^ 1074 - - (s * 2 ^ (1074 - p)) * 1000000) with (- (a * 2 ^ 1074 - s * 2 ^ (1074 - p) * 1000000)) by ring.
    rewrite Z.abs_opp. exact N.
Qed.
Lemma micros_nearest b m : 0 <= b -> f64_sign b = 0 -> f64_exp b = 1053 -> micros b = Ok m -> nearest_integer (f64_val b * 1000000) (2 ^ 1074) m.
Proof.
  intros B S X EM. rewrite (micros_era b S X B) in EM. assert (H : m = round_div ((f64_man b + 2 ^ 52) * 1000000) (2 ^ 22)) by congruence. rewrite H.
  assert (V : f64_val b = (f64_man b + 2 ^ 52) * 2 ^ 1052) by (unfold f64_val; rewrite S, X; change (1053 =? 0) with false; change (0 =? 0) with true; change (Z.max 1053 1 - 1) with 1052; cbv iota; ring).
  rewrite V. replace ((f64_man b + 2 ^ 52) * 2 ^ 1052 * 1000000) with ((f64_man b + 2 ^ 52) * 1000000 * 2 ^ 1052) by ring.
  replace (2 ^ 1074) with (2 ^ 22 * 2 ^ 1052) by (rewrite <- Z.pow_add_r by lia; reflexivity).
  apply nearest_scale; [reflexivity|apply pow_pos; lia|]. apply round_div_spec. reflexivity.
Qed.
