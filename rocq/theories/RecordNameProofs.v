(** Proofs for C108. *)
From Coq Require Import String ZArith List Bool Lia ZifyBool Sorting.Sorted.
From Verif Require Import Base SDarnFormats SDarnChecks FloatBits FloatSpec NumeralSpec NumeralProofs BorealisTime BorealisTimeProofs BorealisTypes BorealisSpec BorealisArrays BorealisShapes BorealisToArrayProofs BorealisRestructProofs BorealisFileSpec BorealisFileProofs BorealisConvertTailProofs RecordNameSpec.
Import ListNotations.
Open Scope list_scope.
Open Scope Z_scope.

(** ** Rounding *)

Lemma rd_mono a a' b : 0 < b -> a <= a' -> round_div a b <= round_div a' b.
Proof.
  intros Hb H. pose proof (round_div_near a b Hb) as N. pose proof (round_div_near a' b Hb) as N'. cbv zeta in N, N'.
  destruct (Z.le_gt_cases (round_div a b) (round_div a' b)) as [L|G]; [exact L|exfalso].
  (* both half way: a' = a, the same rounding *)
  assert (E : round_div a b = round_div a' b + 1) by nia.
  assert (a' = a) by nia. subst a'. lia.
Qed.

Lemma rd_scale a b p : 0 < b -> 0 < p -> round_div (a * p) (b * p) = round_div a b.
Proof.
  intros Hb Hp. unfold round_div. rewrite Z.div_mul_cancel_r, Zmult_mod_distr_r by lia.
  set (r := a mod b). replace (2 * (r * p) <? b * p) with (2 * r <? b) by (destruct (2 * r <? b) eqn:E; symmetry; [apply Z.ltb_lt|apply Z.ltb_ge]; nia).
  replace (b * p <? 2 * (r * p)) with (b <? 2 * r) by (destruct (b <? 2 * r) eqn:E; symmetry; [apply Z.ltb_lt|apply Z.ltb_ge]; nia).
  reflexivity.
Qed.

Lemma rd_exact a b : 0 < b -> round_div (a * b) b = a.
Proof. intros H. apply round_div_unique; [exact H|]. lia. Qed.

Lemma r53_near n : 0 <= n -> Z.abs (round53 n - n) * 2 ^ 53 <= n.
Proof.
  intros H. unfold round53. destruct (Z.log2 n - 52 <=? 0) eqn:E; [rewrite Z.sub_diag; cbn [Z.abs]; lia|].
  set (sh := Z.log2 n - 52) in *. assert (P : 0 < n) by (destruct (Z.eq_dec n 0) as [->|]; [discriminate E|lia]).
  pose proof (Z.log2_spec n P) as [L _]. replace (Z.log2 n) with (sh + 52) in L by lia. rewrite Z.pow_add_r in L by lia.
  pose proof (Z.pow_pos_nonneg 2 sh ltac:(lia) ltac:(lia)) as S. pose proof (round_div_near n (2 ^ sh) S) as N. cbv zeta in N.
  change (2 ^ 53) with (2 * 2 ^ 52). set (p := 2 ^ sh) in *. set (x := round_div n p) in *. clearbody p x.
  change (2 ^ 52) with 4503599627370496 in *. lia.
Qed.

Lemma r53_scale n j : 0 <= n -> 0 <= j -> round53 (n * 2 ^ j) = round53 n * 2 ^ j.
Proof.
  intros Hn Hj. destruct (Z.eq_dec n 0) as [->|N]; [reflexivity|].
  unfold round53. rewrite Z.log2_mul_pow2 by lia. set (l := Z.log2 n).
  assert (P : forall i, 0 <= i -> 0 < 2 ^ i) by (intros; apply Z.pow_pos_nonneg; lia).
  destruct (l - 52 <=? 0) eqn:E.
  - destruct (j + l - 52 <=? 0) eqn:E'; [reflexivity|].
    replace (n * 2 ^ j) with ((n * 2 ^ (52 - l)) * 2 ^ (j + l - 52)).
    + rewrite rd_exact by (apply P; lia). reflexivity.
    + rewrite <- Z.mul_assoc, <- Z.pow_add_r by lia. do 2 f_equal. lia.
  - replace (j + l - 52 <=? 0) with false by lia. replace (j + l - 52) with ((l - 52) + j) by lia.
    rewrite Z.pow_add_r, rd_scale by (try apply P; lia). ring.
Qed.

Lemma r53_mono n n' : 0 <= n <= n' -> round53 n <= round53 n'.
Proof.
  intros H. destruct (Z.eq_dec n 0) as [->|N].
  { change (round53 0) with 0. pose proof (r53_near n' ltac:(lia)). change (2 ^ 53) with 9007199254740992 in *. lia. }
  pose proof (Z.log2_le_mono n n' ltac:(lia)) as L. unfold round53 at 1.
  assert (P : forall i, 0 <= i -> 0 < 2 ^ i) by (intros; apply Z.pow_pos_nonneg; lia).
  destruct (Z.log2 n - 52 <=? 0) eqn:E.
  - unfold round53. destruct (Z.log2 n' - 52 <=? 0) eqn:E'; [lia|].
    pose proof (Z.log2_spec n ltac:(lia)) as [_ U]. pose proof (Z.log2_spec n' ltac:(lia)) as [U' _].
    assert (2 ^ Z.succ (Z.log2 n) <= 2 ^ Z.log2 n') by (apply Z.pow_le_mono_r; lia).
    assert (Q : 2 ^ 52 <= round_div n' (2 ^ (Z.log2 n' - 52))).
    { rewrite <- (rd_exact (2 ^ 52) (2 ^ (Z.log2 n' - 52))) by (apply P; lia). apply rd_mono; [apply P; lia|].
      rewrite <- Z.pow_add_r by lia. now replace (52 + (Z.log2 n' - 52)) with (Z.log2 n') by lia. }
    assert (2 ^ Z.log2 n' <= round_div n' (2 ^ (Z.log2 n' - 52)) * 2 ^ (Z.log2 n' - 52)); [|lia].
    replace (Z.log2 n') with (52 + (Z.log2 n' - 52)) at 1 by lia. rewrite Z.pow_add_r by lia.
    apply Z.mul_le_mono_nonneg_r; [pose proof (P (Z.log2 n' - 52) ltac:(lia)); lia|exact Q].
  - unfold round53. replace (Z.log2 n' - 52 <=? 0) with false by lia.
    destruct (Z.eq_dec (Z.log2 n) (Z.log2 n')) as [<-|D].
    + apply Z.mul_le_mono_nonneg_r; [pose proof (P (Z.log2 n - 52) ltac:(lia)); lia|]. apply rd_mono; [apply P|]; lia.
    + pose proof (Z.log2_spec n ltac:(lia)) as [_ U]. pose proof (Z.log2_spec n' ltac:(lia)) as [U' _].
      assert (Q : round_div n (2 ^ (Z.log2 n - 52)) <= 2 ^ 53).
      { rewrite <- (rd_exact (2 ^ 53) (2 ^ (Z.log2 n - 52))) by (apply P; lia). apply rd_mono; [apply P; lia|].
        rewrite <- Z.pow_add_r by lia. replace (53 + (Z.log2 n - 52)) with (Z.succ (Z.log2 n)) by lia. lia. }
      assert (Q' : 2 ^ 52 <= round_div n' (2 ^ (Z.log2 n' - 52))).
      { rewrite <- (rd_exact (2 ^ 52) (2 ^ (Z.log2 n' - 52))) by (apply P; lia). apply rd_mono; [apply P; lia|].
        rewrite <- Z.pow_add_r by lia. now replace (52 + (Z.log2 n' - 52)) with (Z.log2 n') by lia. }
      apply Z.le_trans with (2 ^ 53 * 2 ^ (Z.log2 n - 52)).
      * apply Z.mul_le_mono_nonneg_r; [pose proof (P (Z.log2 n - 52) ltac:(lia)); lia|exact Q].
      * apply Z.le_trans with (2 ^ 52 * 2 ^ (Z.log2 n' - 52)).
        -- rewrite <- !Z.pow_add_r by lia. apply Z.pow_le_mono_r; lia.
        -- apply Z.mul_le_mono_nonneg_r; [pose proof (P (Z.log2 n' - 52) ltac:(lia)); lia|exact Q'].
Qed.

(** ** Microseconds of a value in units of [1/U] seconds *)

Definition micro (U V : Z) : Z := V / U * 1000000 + round_div (round53 (V mod U * 1000000)) U.

Lemma micro_near U V : 0 < U -> 0 <= V -> 100 * Z.abs (micro U V * U - 1000000 * V) <= 51 * U.
Proof.
  intros HU HV. unfold micro. pose proof (Z.div_mod V U ltac:(lia)) as D. pose proof (Z.mod_pos_bound V U HU) as M.
  set (w := V / U) in *. set (f := V mod U) in *. clearbody w f.
  pose proof (r53_near (f * 1000000) ltac:(lia)) as R. set (x := round53 (f * 1000000)) in *. clearbody x.
  pose proof (round_div_near x U HU) as N. cbv zeta in N. set (u := round_div x U) in *. clearbody u.
  change (2 ^ 53) with 9007199254740992 in R.
  replace ((w * 1000000 + u) * U - 1000000 * V) with (u * U - 1000000 * f) by (rewrite D; ring). lia.
Qed.

Lemma micro_mono U V V' : 0 <= U -> 0 <= V <= V' -> micro (2 ^ U) V <= micro (2 ^ U) V'.
Proof.
  intros HU HV. pose proof (r53_scale 1000000 U ltac:(lia) HU) as EU. change (round53 1000000) with 1000000 in EU.
  pose proof (Z.pow_pos_nonneg 2 U ltac:(lia) HU) as HP. clear HU. set (W := 2 ^ U) in *. clearbody W. clear U. rename W into U, HP into HU.
  unfold micro. pose proof (Z.mod_pos_bound V U HU) as M. pose proof (Z.mod_pos_bound V' U HU) as M'.
  pose proof (Z.div_le_mono V V' U HU ltac:(lia)) as L. destruct (Z.eq_dec (V / U) (V' / U)) as [E|N].
  - rewrite E. apply Z.add_le_mono_l. apply rd_mono; [exact HU|]. apply r53_mono.
    pose proof (Z.div_mod V U ltac:(lia)) as D. pose proof (Z.div_mod V' U ltac:(lia)) as D'. rewrite E in D. lia.
  - assert (A : round_div (round53 (V mod U * 1000000)) U <= 1000000).
    { apply Z.le_trans with (round_div (1000000 * U) U); [|rewrite rd_exact by exact HU; lia]. apply rd_mono; [exact HU|]. rewrite <- EU. apply r53_mono. lia. }
    assert (B : 0 <= round_div (round53 (V' mod U * 1000000)) U).
    { apply Z.le_trans with (round_div (0 * U) U); [rewrite rd_exact by exact HU; lia|]. apply rd_mono; [exact HU|]. pose proof (r53_mono 0 (V' mod U * 1000000) ltac:(lia)). change (round53 0) with 0 in *. lia. }
    lia.
Qed.

(** The model's microseconds are these. *)
Lemma micros_value b m : 0 <= b < 2 ^ 63 -> micros b = Ok m ->
  0 <= f64_val b /\ m = micro (2 ^ 1074) (f64_val b) /\ 0 <= m < 253402300800000000.
Proof.
  intros HB. unfold micros, f64_val.
  assert (HS : f64_sign b = 0) by (unfold f64_sign; apply Z.div_small; exact HB). rewrite HS. change (0 =? 0) with true. rewrite !Z.mul_1_l.
  assert (HM : 0 <= f64_man b < 2 ^ 52) by (unfold f64_man; apply Z.mod_pos_bound; lia).
  assert (HE : 0 <= f64_exp b < 2048) by (unfold f64_exp; apply (Z.mod_pos_bound _ (2 ^ 11)); reflexivity).
  set (e := f64_exp b) in *. set (sig := if e =? 0 then f64_man b else f64_man b + 2 ^ 52).
  assert (HG : 0 <= sig /\ (1 <= e -> 2 ^ 52 <= sig)).
  { subst sig. change (2 ^ 52) with 4503599627370496 in *. destruct (e =? 0) eqn:EE; lia. }
  clearbody e sig. clear HS HM HB. destruct HG as [HG HG'].
  destruct (e =? 2047); [destruct (f64_man b =? 0); discriminate|].
  destruct (1075 - Z.max e 1 <=? 0) eqn:K.
  - intros H. exfalso. cbv zeta in H.
    assert (1 <= 2 ^ (- (1075 - Z.max e 1))). { pose proof (Z.pow_pos_nonneg 2 (- (1075 - Z.max e 1)) ltac:(lia) ltac:(lia)). lia. }
    set (q := 2 ^ (- (1075 - Z.max e 1))) in *. clearbody q. specialize (HG' ltac:(lia)). change (2 ^ 52) with 4503599627370496 in HG'.
    assert (4503599627370496 <= sig * q) by nia. set (w := sig * q) in *. clearbody w.
    destruct (2 ^ 55 <=? w); [discriminate|]. rewrite Z.add_0_r in H.
    replace ((w * 1000000 <? -62135596800000000) || (253402300800000000 <=? w * 1000000)) with true in H by lia. discriminate.
  - cbv zeta. set (k := 1075 - Z.max e 1) in *. set (p := Z.max e 1 - 1).
    assert (EU : 2 ^ 1074 = 2 ^ k * 2 ^ p) by (rewrite <- Z.pow_add_r by lia; f_equal; lia).
    pose proof (Z.pow_pos_nonneg 2 k ltac:(lia) ltac:(lia)) as KP. pose proof (Z.pow_pos_nonneg 2 p ltac:(lia) ltac:(lia)) as PP.
    intros H. split; [nia|].
    assert (EM : sig / 2 ^ k * 1000000 + round_div (round53 (sig mod 2 ^ k * 1000000)) (2 ^ k) = micro (2 ^ 1074) (sig * 2 ^ p)).
    { unfold micro. rewrite EU, Z.div_mul_cancel_r, Zmult_mod_distr_r by lia. f_equal.
      replace (sig mod 2 ^ k * 2 ^ p * 1000000) with (sig mod 2 ^ k * 1000000 * 2 ^ p) by ring.
      rewrite r53_scale; [|pose proof (Z.mod_pos_bound sig (2 ^ k) KP); lia|lia]. symmetry. now apply rd_scale. }
    rewrite EM in H. destruct (2 ^ 55 <=? sig / 2 ^ k); [discriminate|].
    pose proof (micro_mono 1074 0 (sig * 2 ^ p) ltac:(lia) ltac:(nia)) as M0.
    assert (Z0 : micro (2 ^ 1074) 0 = 0) by (vm_compute; reflexivity). rewrite Z0 in M0.
    set (x := micro (2 ^ 1074) (sig * 2 ^ p)) in *. clearbody x.
    destruct ((x <? -62135596800000000) || (253402300800000000 <=? x)) eqn:R; [discriminate|]. injection H as <-. split; [reflexivity|lia].
Qed.

(** ** Milliseconds *)

Lemma seconds_shape m : 0 < m < 253402300800000000 -> exists n k, seconds m = (n, k) /\ 15 <= k /\
  n = round_div (m * 2 ^ k) 1000000 /\ 2 ^ 52 * 1000000 <= m * 2 ^ k < 2 ^ 53 * 1000000.
Proof.
  intros H. unfold seconds. change (Z.log2 1000000) with 19. cbv zeta.
  pose proof (Z.log2_spec m ltac:(lia)) as [L1 L2].
  assert (LL : 0 <= Z.log2 m <= 57). { split; [apply Z.log2_nonneg|]. apply Z.lt_succ_r, Z.log2_lt_pow2; [lia|]. change (2 ^ Z.succ 57) with 288230376151711744. lia. }
  set (l := Z.log2 m) in *. clearbody l.
  assert (P : forall i, 0 <= i -> 0 < 2 ^ i) by (intros; apply Z.pow_pos_nonneg; lia).
  assert (E1 : 2 ^ l * 2 ^ (53 - (l - 19)) = 2 ^ 72) by (rewrite <- Z.pow_add_r by lia; f_equal; lia).
  rewrite Z.pow_succ_r in L2 by lia.
  pose proof (P (53 - (l - 19)) ltac:(lia)) as PK.
  assert (B1 : 2 ^ 72 <= m * 2 ^ (53 - (l - 19)) < 2 * 2 ^ 72).
  { rewrite <- E1. set (a := 2 ^ l) in *. set (c := 2 ^ (53 - (l - 19))) in *. clearbody a c. nia. }
  change (2 ^ 72) with 4722366482869645213696 in B1. change (2 ^ 53) with 9007199254740992. change (2 ^ 52) with 4503599627370496.
  destruct (m * 2 ^ (53 - (l - 19)) <? 9007199254740992 * 1000000) eqn:E.
  - exists (round_div (m * 2 ^ (53 - (l - 19))) 1000000), (53 - (l - 19)). repeat split; [lia..|]. lia.
  - exists (round_div (m * 2 ^ (53 - (l - 19) - 1)) 1000000), (53 - (l - 19) - 1).
    assert (l <> 57) by (intros ->; change (2 ^ (53 - (57 - 19))) with 32768 in E; lia).
    assert (D : 2 * (m * 2 ^ (53 - (l - 19) - 1)) = m * 2 ^ (53 - (l - 19))).
    { replace (53 - (l - 19)) with (Z.succ (53 - (l - 19) - 1)) at 2 by lia. rewrite Z.pow_succ_r by lia. ring. }
    set (x := m * 2 ^ (53 - (l - 19) - 1)) in *. set (y := m * 2 ^ (53 - (l - 19))) in *. clearbody x y. repeat split; lia.
Qed.

Lemma millis_near m : 0 <= m < 253402300800000000 -> m - 1046 <= 1000 * millis m <= m + 46.
Proof.
  intros H. unfold millis. destruct (m =? 0) eqn:E0; [lia|]. rewrite Z.abs_eq, Z.sgn_pos by lia.
  destruct (seconds_shape m ltac:(lia)) as (n & k & -> & K & EN & B1 & B2). rewrite Z.mul_1_l.
  pose proof (round_div_near (m * 2 ^ k) 1000000 ltac:(lia)) as N. cbv zeta in N. rewrite <- EN in N. clear EN.
  change (2 ^ 53) with 9007199254740992 in *. change (2 ^ 52) with 4503599627370496 in *.
  pose proof (r53_near (n * 1000) ltac:(lia)) as R. set (x := round53 (n * 1000)) in *. clearbody x. change (2 ^ 53) with 9007199254740992 in R.
  assert (KP : 32768 <= 2 ^ k) by (change 32768 with (2 ^ 15); apply Z.pow_le_mono_r; lia).
  pose proof (Z.div_mod x (2 ^ k) ltac:(lia)) as D. pose proof (Z.mod_pos_bound x (2 ^ k) ltac:(lia)) as M.
  set (q := x / 2 ^ k) in *. set (r := x mod 2 ^ k) in *. set (p := 2 ^ k) in *. clearbody q r p.
  split; nia.
Qed.

Lemma millis_mono m m' : 0 <= m <= m' -> m' < 253402300800000000 -> millis m <= millis m'.
Proof.
  intros H H'. destruct (Z.eq_dec m 0) as [->|N].
  { change (millis 0) with 0. unfold millis. destruct (m' =? 0) eqn:E0; [lia|]. rewrite Z.abs_eq, Z.sgn_pos by lia.
    destruct (seconds_shape m' ltac:(lia)) as (n & k & -> & K & EN & B1 & B2). rewrite Z.mul_1_l.
    apply Z.div_pos; [|apply Z.pow_pos_nonneg; lia]. pose proof (round_div_near (m' * 2 ^ k) 1000000 ltac:(lia)) as Q. cbv zeta in Q. rewrite <- EN in Q.
    change (2 ^ 53) with 9007199254740992 in *. change (2 ^ 52) with 4503599627370496 in *.
    pose proof (r53_mono 0 (n * 1000) ltac:(lia)) as R. change (round53 0) with 0 in R. exact R. }
  unfold millis. replace (m =? 0) with false by lia. replace (m' =? 0) with false by lia.
  rewrite !Z.abs_eq, !Z.sgn_pos by lia.
  destruct (seconds_shape m ltac:(lia)) as (n & k & -> & K & EN & B1 & B2).
  destruct (seconds_shape m' ltac:(lia)) as (n' & k' & -> & K' & EN' & B1' & B2'). rewrite !Z.mul_1_l.
  assert (P : forall i, 0 <= i -> 0 < 2 ^ i) by (intros; apply Z.pow_pos_nonneg; lia).
  assert (KK : k' <= k).
  { destruct (Z.le_gt_cases k' k) as [|G]; [assumption|exfalso].
    assert (2 ^ (k + 1) <= 2 ^ k') by (apply Z.pow_le_mono_r; lia). rewrite Z.pow_add_r in H0 by lia. change (2 ^ 1) with 2 in H0.
    pose proof (P k ltac:(lia)). change (2 ^ 53) with (2 * 2 ^ 52) in *. set (a := 2 ^ k) in *. set (b := 2 ^ k') in *. set (c := 2 ^ 52) in *. clearbody a b c.
    assert (m * (a * 2) <= m' * b) by nia. lia. }
  assert (NN : n <= n' * 2 ^ (k - k')).
  { rewrite EN, EN'. destruct (Z.eq_dec k k') as [<-|D].
    - rewrite Z.sub_diag, Z.mul_1_r. apply rd_mono; [lia|]. pose proof (P k ltac:(lia)). nia.
    - assert (Q : round_div (m * 2 ^ k) 1000000 <= 2 ^ 53) by (rewrite <- (rd_exact (2 ^ 53) 1000000) by lia; apply rd_mono; lia).
      assert (Q' : 2 ^ 52 <= round_div (m' * 2 ^ k') 1000000) by (rewrite <- (rd_exact (2 ^ 52) 1000000) by lia; apply rd_mono; lia).
      assert (2 <= 2 ^ (k - k')) by (change 2 with (2 ^ 1) at 1; apply Z.pow_le_mono_r; lia).
      change (2 ^ 53) with (2 * 2 ^ 52) in Q. pose proof (P 52 ltac:(lia)). set (c := 2 ^ 52) in *. set (j := 2 ^ (k - k')) in *.
      set (u := round_div (m * 2 ^ k) 1000000) in *. set (v := round_div (m' * 2 ^ k') 1000000) in *. clearbody c j u v. nia. }
  assert (N0 : 0 <= n). { rewrite EN. rewrite <- (rd_exact 0 1000000) by lia. apply rd_mono; [lia|]. pose proof (P k ltac:(lia)). nia. }
  assert (N0' : 0 <= n'). { rewrite EN'. rewrite <- (rd_exact 0 1000000) by lia. apply rd_mono; [lia|]. pose proof (P k' ltac:(lia)). nia. }
  replace (2 ^ k) with (2 ^ k' * 2 ^ (k - k')) by (rewrite <- Z.pow_add_r by lia; f_equal; lia).
  rewrite <- (Z.div_mul_cancel_r (round53 (n' * 1000)) (2 ^ k') (2 ^ (k - k'))) by (pose proof (P k' ltac:(lia)); pose proof (P (k - k') ltac:(lia)); lia).
  apply Z.div_le_mono; [apply Z.mul_pos_pos; apply P; lia|]. rewrite <- r53_scale by lia. apply r53_mono. lia.
Qed.

(** ** Names *)

Lemma name_shape b n : 0 <= b < 2 ^ 63 -> record_name b = Ok n -> exists m, micros b = Ok m /\ numeral (millis m) n.
Proof.
  intros HB H. unfold record_name in H. destruct (micros b) as [m|] eqn:E; [|discriminate]. cbn [rbind] in H. injection H as <-.
  exists m. split; [reflexivity|apply dec_numeral].
Qed.

Lemma name_near b n ms : 0 <= b < 2 ^ 63 -> record_name b = Ok n -> numeral ms n ->
  20000 * f64_val b - 21 * 2 ^ 1074 <= 20 * ms * 2 ^ 1074 <= 20000 * f64_val b + 2 ^ 1074.
Proof.
  intros HB H HN. destruct (name_shape b n HB H) as (m & E & Q). rewrite (numeral_number _ _ _ HN Q).
  destruct (micros_value b m HB E) as (V0 & EM & R). pose proof (micro_near (2 ^ 1074) (f64_val b) ltac:(apply Z.pow_pos_nonneg; lia) V0) as X.
  rewrite <- EM in X. pose proof (millis_near m R) as Y. pose proof (Z.pow_pos_nonneg 2 1074 ltac:(lia) ltac:(lia)) as P.
  set (U := 2 ^ 1074) in *. set (V := f64_val b) in *. set (x := millis m) in *. clearbody U V x. split; nia.
Qed.

Lemma name_order b b' n n' ms ms' : 0 <= b < 2 ^ 63 -> 0 <= b' < 2 ^ 63 -> f64_val b <= f64_val b' ->
  record_name b = Ok n -> record_name b' = Ok n' -> numeral ms n -> numeral ms' n' -> ms <= ms'.
Proof.
  intros HB HB' HV H H' HN HN'. destruct (name_shape b n HB H) as (m & E & Q). destruct (name_shape b' n' HB' H') as (m' & E' & Q').
  rewrite (numeral_number _ _ _ HN Q), (numeral_number _ _ _ HN' Q').
  destruct (micros_value b m HB E) as (V0 & EM & R). destruct (micros_value b' m' HB' E') as (V0' & EM' & R').
  apply millis_mono; [|lia]. split; [lia|]. rewrite EM, EM'. apply micro_mono; lia.
Qed.

(** Numerals of the same length are in the order of their values. *)
Lemma digits_order s : forall t, Forall digit s -> Forall digit t -> length s = length t -> digits_value s < digits_value t -> str_lt s t.
Proof.
  induction s as [|c s IH]; intros [|d t] HS HT L V; try discriminate L; [cbn in V; lia|].
  inversion_clear HS as [|? ? C0 HS']. inversion_clear HT as [|? ? D0 HT'].
  assert (EX : forall x l, digits_value (x :: l) = (x - 48) * 10 ^ Z.of_nat (length l) + digits_value l).
  { intros x l. change (digits_value (x :: l)) with (fold_left (fun a c => 10 * a + (c - 48)) l (10 * 0 + (x - 48))). rewrite fold_digits. f_equal; f_equal; lia. }
  rewrite !EX in V. injection L as L. rewrite L in V.
  pose proof (digits_bound s HS') as BS. pose proof (digits_bound t HT') as BT. rewrite L in BS.
  destruct (Z.lt_trichotomy c d) as [LT|[->|GT]].
  - now apply lt_head.
  - apply lt_tail. apply IH; auto. lia.
  - exfalso. set (p := 10 ^ Z.of_nat (length t)) in *. clearbody p. unfold digit in *. nia.
Qed.

Lemma numeral_13 z s : 10 ^ 12 <= z < 10 ^ 13 -> numeral z s -> Forall digit s /\ digits_value s = z /\ length s = 13%nat.
Proof.
  intros H [[_ N]|[C _]]; [|lia]. pose proof (natural_length z s 13 N ltac:(lia) ltac:(change (Z.of_nat 13) with 13; lia)) as L.
  destruct N as (D & V & _). split; [exact D|]. split; [exact V|]. pose proof (digits_bound s D) as B.
  destruct (Nat.eq_dec (length s) 13) as [|NE]; [assumption|exfalso].
  assert (10 ^ Z.of_nat (length s) <= 10 ^ 12) by (apply Z.pow_le_mono_r; lia). lia.
Qed.

Lemma names_text ms ms' n n' : 10 ^ 12 <= ms < 10 ^ 13 -> 10 ^ 12 <= ms' < 10 ^ 13 -> numeral ms n -> numeral ms' n' ->
  str_lt n n' <-> ms < ms'.
Proof.
  intros H H' N N'. destruct (numeral_13 _ _ H N) as (D & V & L). destruct (numeral_13 _ _ H' N') as (D' & V' & L').
  assert (G : forall a b, Forall digit a -> Forall digit b -> length a = length b -> digits_value a < digits_value b -> str_lt a b) by (intros; now apply digits_order).
  split.
  - intros S. destruct (Z.lt_trichotomy ms ms') as [|[E|LT]]; [assumption| |]; exfalso.
    + subst ms'. rewrite E in N. rewrite (numeral_unique _ _ _ N N') in S. now apply str_lt_irr in S.
    + assert (str_lt n' n) by (apply G; auto; lia). apply (str_lt_irr n). eapply str_lt_trans; eauto.
  - intros LT. apply G; auto; lia.
Qed.

(** ** All times up to the end of the year 9999 have a name *)

Lemma micros_total b : 0 <= b < 2 ^ 63 -> f64_val b <= 253402300799 * 2 ^ 1074 -> exists m, micros b = Ok m.
Proof.
  intros HB. unfold micros, f64_val.
  assert (HS : f64_sign b = 0) by (unfold f64_sign; apply Z.div_small; exact HB). rewrite HS. change (0 =? 0) with true. rewrite !Z.mul_1_l.
  assert (HM : 0 <= f64_man b < 2 ^ 52) by (unfold f64_man; apply Z.mod_pos_bound; lia).
  assert (HE : 0 <= f64_exp b < 2048) by (unfold f64_exp; apply (Z.mod_pos_bound _ (2 ^ 11)); reflexivity).
  set (e := f64_exp b) in *. set (sig := if e =? 0 then f64_man b else f64_man b + 2 ^ 52).
  assert (HG : 0 <= sig /\ (1 <= e -> 2 ^ 52 <= sig)).
  { subst sig. change (2 ^ 52) with 4503599627370496 in *. destruct (e =? 0) eqn:EE; lia. }
  clearbody e sig. clear HS HM HB. destruct HG as [HG HG']. intros HV. cbv zeta.
  assert (HK : e < 1075).
  { destruct (Z.lt_ge_cases e 1075) as [|G]; [assumption|exfalso]. specialize (HG' ltac:(lia)). change (2 ^ 52) with 4503599627370496 in HG'.
    assert (Q : 2 ^ 1074 <= 2 ^ (Z.max e 1 - 1)) by (apply Z.pow_le_mono_r; lia). pose proof (Z.pow_pos_nonneg 2 1074 ltac:(lia) ltac:(lia)) as P.
    set (u := 2 ^ 1074) in *. set (v := 2 ^ (Z.max e 1 - 1)) in *. clearbody u v. nia. }
  replace (e =? 2047) with false by lia. replace (1075 - Z.max e 1 <=? 0) with false by lia.
  set (k := 1075 - Z.max e 1) in *. set (p := Z.max e 1 - 1) in *.
  assert (EU : 2 ^ 1074 = 2 ^ k * 2 ^ p) by (rewrite <- Z.pow_add_r by lia; f_equal; lia).
  pose proof (Z.pow_pos_nonneg 2 k ltac:(lia) ltac:(lia)) as KP. pose proof (Z.pow_pos_nonneg 2 p ltac:(lia) ltac:(lia)) as PP.
  assert (EM : sig / 2 ^ k * 1000000 + round_div (round53 (sig mod 2 ^ k * 1000000)) (2 ^ k) = micro (2 ^ 1074) (sig * 2 ^ p)).
  { unfold micro. rewrite EU, Z.div_mul_cancel_r, Zmult_mod_distr_r by lia. f_equal.
    replace (sig mod 2 ^ k * 2 ^ p * 1000000) with (sig mod 2 ^ k * 1000000 * 2 ^ p) by ring.
    rewrite r53_scale; [|pose proof (Z.mod_pos_bound sig (2 ^ k) KP); lia|lia]. symmetry. now apply rd_scale. }
  rewrite EM. pose proof (micro_mono 1074 0 (sig * 2 ^ p) ltac:(lia) ltac:(nia)) as M0.
  assert (Z0 : micro (2 ^ 1074) 0 = 0) by (vm_compute; reflexivity). rewrite Z0 in M0.
  pose proof (micro_near (2 ^ 1074) (sig * 2 ^ p) ltac:(apply Z.pow_pos_nonneg; lia) ltac:(nia)) as X.
  set (x := micro (2 ^ 1074) (sig * 2 ^ p)) in *. clearbody x.
  assert (W : sig / 2 ^ k <= 253402300799).
  { apply Z.lt_succ_r. apply Z.div_lt_upper_bound; [exact KP|]. rewrite EU in HV. set (a := 2 ^ k) in *. set (c := 2 ^ p) in *. clearbody a c. nia. }
  change (2 ^ 55) with 36028797018963968. replace (36028797018963968 <=? sig / 2 ^ k) with false by lia.
  pose proof (Z.pow_pos_nonneg 2 1074 ltac:(lia) ltac:(lia)) as P. set (u := 2 ^ 1074) in *. clearbody u. set (v := sig * 2 ^ p) in *. clearbody v.
  assert (x < 253402300800000000) by nia.
  replace ((x <? -62135596800000000) || (253402300800000000 <=? x))%bool with false by lia. now exists x.
Qed.

Lemma name_total b : 0 <= b < 2 ^ 63 -> f64_val b <= 253402300799 * 2 ^ 1074 -> exists n, record_name b = Ok n.
Proof. intros H H'. destruct (micros_total b H H') as [m E]. unfold record_name. rewrite E. eexists. reflexivity. Qed.

(** ** Lists of times *)

Lemma name_numeral b n : 0 <= b < 2 ^ 63 -> record_name b = Ok n -> exists ms, numeral ms n.
Proof. intros H H'. destruct (name_shape b n H H') as (m & _ & N). now exists (millis m). Qed.

Lemma names_apart b b' n n' ms ms' : not_negative b -> not_negative b' -> well_after b b' ->
  record_name b = Ok n -> record_name b' = Ok n' -> numeral ms n -> numeral ms' n' -> ms < ms'.
Proof.
  intros HB HB' HA H H' N N'. pose proof (name_near b n ms HB H N) as X. pose proof (name_near b' n' ms' HB' H' N') as X'.
  unfold well_after, second in HA. pose proof (Z.pow_pos_nonneg 2 1074 ltac:(lia) ltac:(lia)) as P. set (U := 2 ^ 1074) in *. clearbody U.
  set (v := f64_val b) in *. set (v' := f64_val b') in *. clearbody v v'. nia.
Qed.

Lemma era_bound b n ms : in_era b -> record_name b = Ok n -> numeral ms n -> 10 ^ 12 <= ms < 10 ^ 13.
Proof.
  intros [HB HE] H N. pose proof (name_near b n ms HB H N) as X. unfold second in HE. pose proof (Z.pow_pos_nonneg 2 1074 ltac:(lia) ltac:(lia)) as P.
  set (U := 2 ^ 1074) in *. clearbody U. set (v := f64_val b) in *. clearbody v.
  change (10 ^ 12) with 1000000000000. change (10 ^ 13) with 10000000000000. nia.
Qed.

Lemma names_sorted b b' n n' : in_era b -> in_era b' -> well_after b b' -> record_name b = Ok n -> record_name b' = Ok n' -> str_lt n n'.
Proof.
  intros E E' A H H'. destruct (name_numeral b n (proj1 E) H) as [ms N]. destruct (name_numeral b' n' (proj1 E') H') as [ms' N'].
  apply (names_text ms ms'); eauto using era_bound. eapply names_apart; eauto; [apply E|apply E'].
Qed.

Lemma list_sorted bs nms : Forall2 (fun b n => record_name b = Ok n) bs nms -> Forall in_era bs -> StronglySorted well_after bs ->
  StronglySorted str_lt nms.
Proof.
  induction 1 as [|b n bs nms H H2 IH]; intros HE HS; [constructor|].
  apply Forall_inv in HE as HE1. apply Forall_inv_tail in HE. inversion_clear HS as [|? ? HS' HF]. constructor; [now apply IH|].
  clear IH HS'. induction H2 as [|b' n' bs nms H' H2 IH]; [constructor|].
  apply Forall_cons; [eapply names_sorted; [| | |exact H|exact H']; [exact HE1|now apply Forall_inv in HE|now apply Forall_inv in HF]|].
  apply IH; [exact (Forall_inv_tail HE)|exact (Forall_inv_tail HF)].
Qed.

Lemma sorted_nodup l : StronglySorted str_lt l -> NoDup l.
Proof.
  induction 1 as [|x l H IH HF]; constructor; [|exact IH]. intros I. rewrite Forall_forall in HF. now apply (str_lt_irr x), HF.
Qed.

Lemma nth_forall2 {A B} (R : A -> B -> Prop) l : forall l', length l = length l' ->
  (forall i x y, nth_error l i = Some x -> nth_error l' i = Some y -> R x y) -> Forall2 R l l'.
Proof.
  induction l as [|x l IH]; intros [|y l'] L H; try discriminate L; constructor.
  - exact (H 0%nat x y eq_refl eq_refl).
  - apply IH; [now injection L|]. intros i a b. exact (H (S i) a b).
Qed.

Lemma site_all F a rs ty n w data bs : array_to_site record_name F a = Ok rs ->
  dict_get a (str "sqn_timestamps") = Some (BArr ty [n; w] data) -> length data = (n * w)%nat ->
  length bs = n -> (forall i b, nth_error bs i = Some b -> nth_error data (i * w) = Some (CZ b)) ->
  Forall in_era bs -> StronglySorted well_after bs ->
  length rs = n /\ StronglySorted str_lt (keys rs) /\ Forall2 (fun b k => record_name b = Ok k) bs (keys rs).
Proof.
  intros H1 H2 H3 HL HB HE HS. destruct (site_names record_name F a rs ty n w data H1 H2 H3) as (nms & L & K & N).
  assert (F2 : Forall2 (fun b k => record_name b = Ok k) bs nms).
  { apply nth_forall2; [congruence|]. intros i b k E1 E2. destruct (N i k E2) as (b' & E3 & E4). rewrite (HB i b E1) in E3. now injection E3 as ->. }
  pose proof (list_sorted bs nms F2 HE HS) as SS. rewrite first_names_nodup in K by (now apply sorted_nodup).
  rewrite K. split; [|split; assumption]. rewrite <- L, <- K. unfold keys. now rewrite map_length.
Qed.
