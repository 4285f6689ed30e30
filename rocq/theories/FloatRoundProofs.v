(** Narrowing a double to a single rounds to the nearest single. *)
From Coq Require Import ZArith List Bool Lia ZifyBool ZifyNat.
From Verif Require Import FloatBits FloatSpec FloatBitsProofs.
Open Scope Z_scope.
Ltac Zify.zify_post_hook ::= Z.div_mod_to_equations.

Definition mag32 (c : Z) : Z :=
  (if f32_exp c =? 0 then f32_man c else f32_man c + 2 ^ 23) * 2 ^ (Z.max (f32_exp c) 1 - 1).

Lemma f32_val_mag c : f32_val c = (if f32_sign c =? 0 then 1 else -1) * mag32 c.
Proof. unfold f32_val, mag32. ring. Qed.

(** The nearest multiple of [2^sh]. *)
Lemma round_shift_nearest n sh k : 0 <= sh ->
  let s := 2 ^ sh in let r := round_shift n sh in
  Z.abs (n - r * s) <= Z.abs (n - k * s) /\
  (Z.abs (n - r * s) = Z.abs (n - k * s) -> k <> r -> Z.even r = true).
Proof.
  intros Hs s r. assert (HS : 0 < s) by (apply Z.pow_pos_nonneg; lia).
  pose proof (Z.div_mod n s ltac:(lia)) as HD. pose proof (Z.mod_pos_bound n s HS) as HM.
  subst r. unfold round_shift. fold s. set (q := n / s) in *. set (m := n mod s) in *. clearbody q m s.
  assert (HK : k <= q \/ q + 1 <= k) by lia.
  assert (H1 : k <= q -> n - k * s >= m) by nia.
  assert (H2 : q + 1 <= k -> k * s - n >= s - m) by nia.
  assert (H1' : k < q -> n - k * s >= m + s) by nia.
  assert (H2' : q + 1 < k -> k * s - n >= 2 * s - m) by nia.
  destruct (2 * m <? s) eqn:E1; [|destruct (s <? 2 * m) eqn:E2].
  - replace (n - q * s) with m by lia. split; [lia|]. intros; exfalso. lia.
  - replace (n - (q + 1) * s) with (m - s) by lia. split; [lia|]. intros; exfalso.
    assert (k <> q) by (intros ->; replace (n - q * s) with m in * by lia; lia). lia.
  - assert (s = 2 * m) by lia.
    pose proof (Z.mod_pos_bound q 2 ltac:(lia)) as HQ.
    assert (Z.even (q + q mod 2) = true).
    { rewrite Zmod_odd. rewrite <- Z.negb_odd. destruct (Z.odd q) eqn:EO.
      - rewrite Z.odd_add, EO. reflexivity.
      - rewrite Z.add_0_r, EO. reflexivity. }
    split; auto.
    assert (q mod 2 = 0 \/ q mod 2 = 1) as [-> | ->] by lia.
    + replace (n - (q + 0) * s) with m by lia. lia.
    + replace (n - (q + 1) * s) with (m - s) by lia. lia.
Qed.

Lemma pow_split a b : 0 <= a -> 0 <= b -> 2 ^ (a + b) = 2 ^ a * 2 ^ b.
Proof. intros. apply Z.pow_add_r; auto. Qed.

Definition sig64 b := if f64_exp b =? 0 then f64_man b else f64_man b + 2 ^ 52.
Definition ex64 b := Z.max (f64_exp b) 1.
Definition gap b := Z.max (ex64 b - 897) 0.
Definition shift b := Z.max 29 (926 - ex64 b).

Lemma f64_val_mag b : f64_val b = (if f64_sign b =? 0 then 1 else -1) * (sig64 b * 2 ^ (ex64 b - 1)).
Proof. unfold f64_val, sig64, ex64. ring. Qed.

Lemma sig64_range b : 0 <= b < 2 ^ 64 ->
  0 <= sig64 b < 2 ^ 53 /\ (f64_exp b <> 0 -> 2 ^ 52 <= sig64 b) /\ 1 <= ex64 b.
Proof. intros H. destruct (f64_split b H) as (_ & He & Hm & _). unfold sig64, ex64. destruct (f64_exp b =? 0) eqn:E; repeat split; lia. Qed.

Lemma shift_gap b : 2 ^ (ex64 b - 1) * 2 ^ shift b = 2 ^ 925 * 2 ^ gap b.
Proof.
  assert (1 <= ex64 b) by (unfold ex64; lia). unfold shift, gap.
  rewrite <- !pow_split by lia. f_equal. lia.
Qed.

(** The rounded significand. *)
Lemma rounded_range b : 0 <= b < 2 ^ 64 -> f64_exp b <> 2047 ->
  let r := round_shift (sig64 b) (shift b) in
  0 <= r <= 2 ^ 24 /\ (897 <= ex64 b -> 2 ^ 23 <= r /\ 2 ^ 52 <= sig64 b /\ shift b = 29) /\
  (ex64 b < 897 -> r <= 2 ^ 23 /\ gap b = 0).
Proof.
  intros Hb HF r. destruct (sig64_range b Hb) as (H1 & H2 & H3).
  assert (Hsh : 29 <= shift b) by (unfold shift; lia).
  assert (HS : 2 ^ shift b = 2 ^ 29 * 2 ^ (shift b - 29)) by (rewrite <- pow_split by lia; f_equal; lia).
  assert (HT : 1 <= 2 ^ (shift b - 29)) by (pose proof (Z.pow_pos_nonneg 2 (shift b - 29)); lia).
  pose proof (round_shift_nearest (sig64 b) (shift b)) as HN. cbv zeta in HN. fold r in HN.
  set (s := 2 ^ shift b) in *. set (T := 2 ^ (shift b - 29)) in *.
  assert (HS0 : 0 < s) by nia.
  assert (R0 : 0 <= r). { destruct (HN 0 ltac:(lia)) as [A _]. nia. }
  assert (R1 : r <= 2 ^ 24). { destruct (HN (2 ^ 24) ltac:(lia)) as [A _]. nia. }
  split; [auto|]. split.
  - intros HE. assert (shift b = 29) by (unfold shift; lia).
    assert (f64_exp b <> 0) by (unfold ex64 in HE; lia). split; [|auto].
    assert (s = 2 ^ 29) by (unfold s; f_equal; auto).
    destruct (HN (2 ^ 23) ltac:(lia)) as [A _]. nia.
  - intros HE. split; [|unfold gap; lia].
    assert (2 <= T). { assert (30 <= shift b) by (unfold shift; lia). unfold T.
      replace (shift b - 29) with (1 + (shift b - 30)) by lia. rewrite pow_split by lia.
      pose proof (Z.pow_pos_nonneg 2 (shift b - 30)). lia. }
    destruct (HN (2 ^ 23) ltac:(lia)) as [A _]. nia.
Qed.

(** The bits of the result and what they mean. *)
Lemma narrow_finite b : 0 <= b < 2 ^ 64 -> f64_exp b <> 2047 ->
  let r := round_shift (sig64 b) (shift b) in let c := narrow b in
  f32_sign c = f64_sign b /\
  ((gap b * 2 ^ 23 + r < 255 * 2 ^ 23 /\ f32_exp c <> 255 /\ mag32 c = r * 2 ^ gap b /\
    Z.even (f32_man c) = Z.even r) \/
   (255 * 2 ^ 23 <= gap b * 2 ^ 23 + r /\ f32_exp c = 255 /\ f32_man c = 0)).
Proof.
  intros Hb HF r c. destruct (rounded_range b Hb HF) as (R0 & R1 & R2). fold r in R0, R1, R2.
  destruct (f64_split b Hb) as (Hs & He & Hm & _).
  assert (HC : c = f64_sign b * 2 ^ 31 + Z.min (gap b * 2 ^ 23 + r) (255 * 2 ^ 23)).
  { unfold c, narrow. replace (f64_exp b =? 2047) with false by lia. reflexivity. }
  clearbody c. assert (HG : 0 <= gap b) by (unfold gap; lia).
  assert (HGr : (gap b = 0 /\ r < 2 ^ 23) \/ 2 ^ 23 <= r).
  { destruct (Z.lt_ge_cases (ex64 b) 897) as [E|E]; [|right; now apply R1].
    destruct (R2 E). destruct (Z.eq_dec r (2 ^ 23)); [right; lia|left; lia]. }
  clearbody r. clear R1 R2 HF Hb Hm He.
  destruct (Z.lt_ge_cases (gap b * 2 ^ 23 + r) (255 * 2 ^ 23)) as [HL|HL].
  - rewrite Z.min_l in HC by lia.
    destruct HGr as [[G0 Gr]|Gr].
    + rewrite G0 in *. rewrite Z.mul_0_l, Z.add_0_l in HC.
      destruct (f32_fields (f64_sign b) 0 r Hs ltac:(lia) ltac:(lia)) as (F1 & F2 & F3).
      replace (f64_sign b * 2 ^ 31 + 0 * 2 ^ 23 + r) with c in * by lia.
      split; auto. left. unfold mag32. rewrite F2, F3. cbn [Z.eqb Z.max Z.sub]. repeat split; try lia.
    + destruct (Z.eq_dec r (2 ^ 24)) as [Er|Er].
      * destruct (f32_fields (f64_sign b) (gap b + 2) 0 Hs ltac:(lia) ltac:(lia)) as (F1 & F2 & F3).
        replace (f64_sign b * 2 ^ 31 + (gap b + 2) * 2 ^ 23 + 0) with c in * by lia.
        split; auto. left. unfold mag32. rewrite F2, F3.
        replace (gap b + 2 =? 0) with false by lia. replace (Z.max (gap b + 2) 1 - 1) with (1 + gap b) by lia.
        rewrite pow_split, Er by lia. repeat split; try lia.
      * destruct (f32_fields (f64_sign b) (gap b + 1) (r - 2 ^ 23) Hs ltac:(lia) ltac:(lia)) as (F1 & F2 & F3).
        replace (f64_sign b * 2 ^ 31 + (gap b + 1) * 2 ^ 23 + (r - 2 ^ 23)) with c in * by lia.
        split; auto. left. unfold mag32. rewrite F2, F3.
        replace (gap b + 1 =? 0) with false by lia. replace (Z.max (gap b + 1) 1 - 1) with (gap b) by lia.
        repeat split; try lia. rewrite Z.even_sub. change (Z.even (2 ^ 23)) with true. now destruct (Z.even r).
  - rewrite Z.min_r in HC by lia.
    destruct (f32_fields (f64_sign b) 255 0 Hs ltac:(lia) ltac:(lia)) as (F1 & F2 & F3).
    replace (f64_sign b * 2 ^ 31 + 255 * 2 ^ 23 + 0) with c in * by lia. auto.
Qed.

(** Every finite single is a multiple of the gap, or lies below [2^23] gaps. *)
Lemma mag32_grid c g : 0 <= c < 2 ^ 32 -> 0 <= g ->
  (exists k, mag32 c = k * 2 ^ g) \/ mag32 c < 2 ^ 23 * 2 ^ g.
Proof.
  intros Hc Hg. destruct (f32_split c Hc) as (_ & He & Hm & _). unfold mag32.
  set (x := Z.max (f32_exp c) 1 - 1). set (m := if f32_exp c =? 0 then _ else _).
  assert (Hx : 0 <= x) by lia. assert (0 <= m < 2 ^ 24) by (unfold m; destruct (_ =? 0); lia).
  destruct (Z.le_gt_cases g x) as [HLx|HLx].
  - left. exists (m * 2 ^ (x - g)). rewrite <- Z.mul_assoc, <- pow_split by lia. do 2 f_equal. lia.
  - right. replace g with (1 + (g - 1 - x) + x) by lia. rewrite !pow_split by lia.
    assert (0 < 2 ^ x) by (apply Z.pow_pos_nonneg; lia).
    assert (1 <= 2 ^ (g - 1 - x)) by (pose proof (Z.pow_pos_nonneg 2 (g - 1 - x)); lia).
    apply Z.lt_le_trans with (2 ^ 24 * 2 ^ x); [apply Z.mul_lt_mono_pos_r; lia|].
    replace (2 ^ 23 * (2 ^ 1 * 2 ^ (g - 1 - x) * 2 ^ x)) with (2 ^ 24 * 2 ^ (g - 1 - x) * 2 ^ x) by ring.
    apply Z.mul_le_mono_nonneg_r; lia.
Qed.

Lemma mag32_nonneg c : 0 <= c < 2 ^ 32 -> 0 <= mag32 c.
Proof.
  intros Hc. destruct (f32_split c Hc) as (_ & He & Hm & _). unfold mag32.
  apply Z.mul_nonneg_nonneg; [destruct (_ =? 0); lia|]. apply Z.pow_nonneg. lia.
Qed.

(** Magnitudes: the result is nearest, and even in a tie. *)
Lemma nearest_mag b c' : 0 <= b < 2 ^ 64 -> f64_exp b <> 2047 -> 0 <= c' < 2 ^ 32 ->
  let V := sig64 b * 2 ^ (ex64 b - 1) in let r := round_shift (sig64 b) (shift b) in
  let U := 2 ^ 925 in let w := r * 2 ^ gap b in
  Z.abs (V - w * U) <= Z.abs (V - mag32 c' * U) /\
  (Z.abs (V - w * U) = Z.abs (V - mag32 c' * U) -> mag32 c' <> w -> Z.even r = true).
Proof.
  intros Hb HF Hc V r U w.
  destruct (rounded_range b Hb HF) as (R0 & R1 & R2). fold r in R0, R1, R2.
  pose proof (shift_gap b) as HSG. fold U in HSG.
  assert (HU : 0 < U) by (apply Z.pow_pos_nonneg; lia).
  assert (HP : 0 < 2 ^ gap b) by (apply Z.pow_pos_nonneg; unfold gap; lia).
  assert (HS : 0 < 2 ^ shift b) by (apply Z.pow_pos_nonneg; unfold shift; lia).
  pose proof (mag32_grid c' (gap b) Hc ltac:(unfold gap; lia)) as HG.
  pose proof (round_shift_nearest (sig64 b) (shift b)) as HN. cbv zeta in HN. fold r in HN.
  specialize (fun k => HN k ltac:(unfold shift; lia)).
  set (P := 2 ^ gap b) in *. set (S := 2 ^ shift b) in *. set (g := sig64 b) in *. set (M := mag32 c') in *.
  set (W := 2 ^ (ex64 b - 1)) in *.
  assert (HS29 : 897 <= ex64 b -> S = 2 ^ 29) by (intros E; unfold S; now rewrite (proj2 (proj2 (R1 E)))).
  assert (HP1 : ex64 b < 897 -> P = 1) by (intros E; unfold P; now rewrite (proj2 (R2 E))).
  assert (HE : forall x, Z.abs (V - x * U) * S = U * Z.abs (g * P - x * S)).
  { intros x. rewrite <- (Z.abs_eq S) at 1 by lia. rewrite <- (Z.abs_eq U) at 2 by lia. rewrite <- !Z.abs_mul. f_equal.
    unfold V. transitivity (g * (W * S) - x * U * S); [ring|]. rewrite HSG. ring. }
  assert (HK : forall k, g * P - k * P * S = P * (g - k * S)) by (intros; ring).
  assert (Hmain : Z.abs (g * P - w * S) <= Z.abs (g * P - M * S) /\
    (Z.abs (g * P - w * S) = Z.abs (g * P - M * S) -> M <> w -> Z.even r = true)).
  { unfold w. rewrite HK, Z.abs_mul, (Z.abs_eq P) by lia.
    destruct HG as [(k & Hk)|HG].
    - rewrite Hk, HK, Z.abs_mul, (Z.abs_eq P) by lia. destruct (HN k) as [N1 N2]. split.
      + apply Z.mul_le_mono_nonneg_l; lia.
      + intros HQ HW. apply N2; [|congruence]. apply Z.mul_reg_l in HQ; auto. lia.
    - destruct (Z.lt_ge_cases (ex64 b) 897) as [E|E].
      + rewrite (HP1 E) in *. destruct (HN M) as [N1 N2]. rewrite !Z.mul_1_l, !Z.mul_1_r in *. split; [exact N1|].
        intros HQ HW. apply N2; auto.
      + destruct (R1 E) as (A1 & A2 & _). specialize (HS29 E). destruct (HN (2 ^ 23)) as [N1 _].
        assert (2 ^ 23 * S <= g) by lia.
        assert (P * Z.abs (g - r * S) <= P * (g - 2 ^ 23 * S)) by (apply Z.mul_le_mono_nonneg_l; lia).
        assert (P * (g - 2 ^ 23 * S) = g * P - 2 ^ 23 * P * S) by ring.
        assert (M * S < 2 ^ 23 * P * S) by (apply Z.mul_lt_mono_pos_r; auto).
        split; [lia|]. intros; exfalso; lia. }
  destruct Hmain as [M1 M2]. split.
  - apply Z.mul_le_mono_pos_r with S; auto. rewrite !HE. apply Z.mul_le_mono_nonneg_l; lia.
  - intros HQ. apply M2. apply Z.mul_reg_l with U; [lia|]. rewrite <- !HE. now rewrite HQ.
Qed.

Lemma narrow_nearest b : 0 <= b < 2 ^ 64 -> f64_exp b <> 2047 ->
  let c := narrow b in
  f32_sign c = f64_sign b /\
  (f32_exp c = 255 <-> (2 ^ 25 - 1) * 2 ^ 1177 <= Z.abs (f64_val b)) /\
  (f32_exp c = 255 -> f32_man c = 0) /\
  (f32_exp c <> 255 -> forall c', 0 <= c' < 2 ^ 32 -> f32_exp c' <> 255 ->
     Z.abs (f64_val b - f32_val c * 2 ^ 925) <= Z.abs (f64_val b - f32_val c' * 2 ^ 925) /\
     (Z.abs (f64_val b - f32_val c * 2 ^ 925) = Z.abs (f64_val b - f32_val c' * 2 ^ 925) ->
      f32_val c <> f32_val c' -> Z.even (f32_man c) = true)).
Proof.
  intros Hb HF c. destruct (narrow_finite b Hb HF) as [HS HC]. fold c in HS, HC.
  destruct (rounded_range b Hb HF) as (R0 & R1 & R2).
  destruct (sig64_range b Hb) as (G1 & _ & _).
  pose proof (shift_gap b) as HSG.
  pose proof (round_shift_nearest (sig64 b) (shift b)) as HN. cbv zeta in HN.
  specialize (fun k => HN k ltac:(unfold shift; lia)).
  set (r := round_shift (sig64 b) (shift b)) in *.
  set (V := sig64 b * 2 ^ (ex64 b - 1)).
  assert (HV0 : 0 <= V) by (apply Z.mul_nonneg_nonneg; [lia|apply Z.pow_nonneg; lia]).
  assert (HVA : Z.abs (f64_val b) = V).
  { rewrite f64_val_mag. fold V. destruct (f64_sign b =? 0); lia. }
  split; [exact HS|]. split; [|split].
  - rewrite HVA.
    assert (HX : 255 * 2 ^ 23 <= gap b * 2 ^ 23 + r <-> (2 ^ 25 - 1) * 2 ^ 1177 <= V).
    { assert (HP : 0 < 2 ^ gap b) by (apply Z.pow_pos_nonneg; unfold gap; lia).
      assert (HU : 0 < 2 ^ 925) by (apply Z.pow_pos_nonneg; lia).
      assert (HT : (2 ^ 25 - 1) * 2 ^ 1177 = (2 ^ 25 - 1) * 2 ^ 252 * 2 ^ 925).
      { rewrite <- Z.mul_assoc, <- pow_split by lia. reflexivity. }
      destruct (Z.lt_ge_cases (ex64 b) 897) as [E|E].
      - destruct (R2 E) as [A1 A2]. rewrite A2 in *. split; [lia|]. intros HH. exfalso.
        assert (V < 2 ^ 53 * 2 ^ 896).
        { unfold V. apply Z.lt_le_trans with (2 ^ 53 * 2 ^ (ex64 b - 1)).
          - apply Z.mul_lt_mono_pos_r; [apply Z.pow_pos_nonneg; unfold ex64; lia|lia].
          - apply Z.mul_le_mono_nonneg_l; [lia|]. apply Z.pow_le_mono_r; lia. }
        assert (2 ^ 53 * 2 ^ 896 <= (2 ^ 25 - 1) * 2 ^ 1177) by (vm_compute; discriminate). lia.
      - destruct (R1 E) as (A1 & A2 & A3).
        assert (HVs : V = sig64 b * 2 ^ gap b * 2 ^ 896).
        { unfold V. rewrite <- Z.mul_assoc, <- pow_split by (unfold gap; lia). do 2 f_equal. unfold gap. lia. }
        rewrite A3 in HN.
        destruct (Z.lt_trichotomy (gap b) 253) as [L|[L|L]].
        + split; [lia|]. intros HH. exfalso.
          assert (2 ^ gap b <= 2 ^ 252) by (apply Z.pow_le_mono_r; lia).
          assert (V < 2 ^ 53 * 2 ^ 252 * 2 ^ 896).
          { rewrite HVs. apply Z.mul_lt_mono_pos_r; [apply Z.pow_pos_nonneg; lia|].
            apply Z.lt_le_trans with (2 ^ 53 * 2 ^ gap b); [apply Z.mul_lt_mono_pos_r; lia|].
            apply Z.mul_le_mono_nonneg_l; lia. }
          assert (2 ^ 53 * 2 ^ 252 * 2 ^ 896 <= (2 ^ 25 - 1) * 2 ^ 1177) by (vm_compute; discriminate). lia.
        + rewrite L in *.
          assert (HQ : (2 ^ 25 - 1) * 2 ^ 1177 = (2 ^ 25 - 1) * 2 ^ 28 * 2 ^ 253 * 2 ^ 896) by (vm_compute; reflexivity).
          rewrite HQ, HVs.
          assert (HK : (2 ^ 25 - 1) * 2 ^ 28 * 2 ^ 253 * 2 ^ 896 <= sig64 b * 2 ^ 253 * 2 ^ 896 <->
                       (2 ^ 25 - 1) * 2 ^ 28 <= sig64 b).
          { rewrite <- Z.mul_le_mono_pos_r by (apply Z.pow_pos_nonneg; lia).
            rewrite <- Z.mul_le_mono_pos_r by (apply Z.pow_pos_nonneg; lia). tauto. }
          rewrite HK. clear - HN R0 G1 A2 A3. destruct (HN (2 ^ 24)) as [N1 N1']. destruct (HN (2 ^ 24 - 1)) as [N2 N2'].
          change (2 ^ 25 - 1) with 33554431. change (2 ^ 28) with 268435456. change (2 ^ 29) with 536870912 in *.
          change (2 ^ 24) with 16777216 in *. change (2 ^ 23) with 8388608 in *. change (2 ^ 52) with 4503599627370496 in *.
          change (2 ^ 53) with 9007199254740992 in *.
          split; intros H.
          * assert (r = 16777216) by lia. lia.
          * assert (r = 16777216 \/ r = 16777215 \/ r <= 16777214) as [Hr|[Hr|Hr]] by lia; [lia| |lia].
            exfalso. assert (sig64 b = 33554431 * 268435456) by lia.
            assert (HEv : Z.even r = true) by (destruct (HN 16777216) as [_ N]; apply N; lia).
            rewrite Hr in HEv. discriminate.
        + split; [|lia]. intros _.
          assert (2 ^ 254 <= 2 ^ gap b) by (apply Z.pow_le_mono_r; lia).
          apply Z.le_trans with (2 ^ 52 * 2 ^ 254 * 2 ^ 896); [vm_compute; discriminate|].
          rewrite HVs. apply Z.mul_le_mono_nonneg_r; [apply Z.pow_nonneg; lia|].
          apply Z.mul_le_mono_nonneg; lia. }
    rewrite <- HX. destruct HC as [(H1 & H2 & _)|(H1 & H2 & _)]; split; intros; try lia; congruence.
  - intros H. destruct HC as [(H1 & H2 & _)|(H1 & H2 & H3)]; [congruence|auto].
  - intros HE c' Hc' HF'. destruct HC as [(H1 & H2 & H3 & H4)|(H1 & H2 & H3)]; [|congruence].
    rewrite H4. clear HSG HN R1 R2 R0 HVA H1 G1. destruct (nearest_mag b c' Hb HF Hc') as [N1 N2]. fold r V in N1, N2. rewrite <- H3 in N1, N2.
    pose proof (mag32_nonneg c' Hc') as HM. rewrite !f32_val_mag, f64_val_mag, HS. fold V.
    set (U := 2 ^ 925) in *. assert (HU : 0 < U) by (apply Z.pow_pos_nonneg; lia). clearbody U.
    set (a := mag32 c) in *. set (m := mag32 c') in *. clearbody a m.
    assert (HVd : V = sig64 b * 2 ^ (ex64 b - 1)) by reflexivity. clearbody V.
    assert (HmU : 0 <= m * U) by (apply Z.mul_nonneg_nonneg; lia).
    assert (Ha : Z.abs ((if f64_sign b =? 0 then 1 else -1) * V - (if f64_sign b =? 0 then 1 else -1) * a * U) = Z.abs (V - a * U)).
    { destruct (f64_sign b =? 0); lia. }
    rewrite Ha.
    assert (Hm : (Z.abs ((if f64_sign b =? 0 then 1 else -1) * V - (if f32_sign c' =? 0 then 1 else -1) * m * U) = Z.abs (V - m * U)
                  /\ (if f64_sign b =? 0 then 1 else -1) * m = (if f32_sign c' =? 0 then 1 else -1) * m) \/
                 Z.abs ((if f64_sign b =? 0 then 1 else -1) * V - (if f32_sign c' =? 0 then 1 else -1) * m * U) = V + m * U).
    { destruct (f64_sign b =? 0), (f32_sign c' =? 0); [left|right|right|left]; try split; lia. }
    destruct Hm as [[-> Hs]| ->].
    + split; auto. intros HQ HD. apply N2; auto. intros ->. apply HD. exact Hs.
    + split; [lia|]. intros HQ HD.
      assert (HZ : m * U = 0 \/ V = 0) by lia.
      destruct HZ as [HZ|HZ].
      * assert (m = 0) by (apply Z.mul_eq_0 in HZ; lia). subst m.
        apply N2; [lia|]. intros <-. apply HD. destruct (f64_sign b =? 0), (f32_sign c' =? 0); reflexivity.
      * rewrite HZ in *. assert (N3 := nearest_mag b (f64_sign b * 2 ^ 31) Hb HF).
        assert (HEQ : Z.abs (0 - a * U) = Z.abs (0 - m * U)) by lia.
        apply N2; auto. intros ->. 
        destruct (sig64_range b Hb) as (_ & _ & HX1).
        assert (Hsig : sig64 b = 0).
        { symmetry in HVd. apply Z.mul_eq_0 in HVd as [HVd|HVd]; auto. exfalso.
          pose proof (Z.pow_pos_nonneg 2 (ex64 b - 1)). lia. }
        assert (Hr0 : r = 0).
        { unfold r, round_shift. rewrite Hsig. rewrite Z.div_0_l, Z.mod_0_l by (apply Z.pow_nonzero; unfold shift; lia).
          replace (2 * 0 <? 2 ^ shift b) with true; auto. symmetry. apply Z.ltb_lt. pose proof (Z.pow_pos_nonneg 2 (shift b)).
          unfold shift in *. lia. }
        rewrite Hr0 in H3. cbn [Z.mul] in H3. subst a. apply HD. destruct (f64_sign b =? 0), (f32_sign c' =? 0); reflexivity.
Qed.
