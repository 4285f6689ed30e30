(** Proofs about the errors of the scaling of correlations, and of powers. *)
From Coq Require Import ZArith List Bool Lia QArith Qabs Lqa Qfield.
From Verif Require Import Base FloatBits FloatSpec FloatBitsProofs BorealisTime BorealisTimeProofs BorealisConvert
  BorealisConvertNumberProofs BorealisScale BorealisScaleSpec BorealisScaleProofs BorealisScaleErrorProofs.
Import ListNotations.
Open Scope Z_scope.

(** ** Double precision *)

Lemma pattern64 s e r : s = 0 \/ s = 1 -> 0 <= e -> e = 0 /\ 0 <= r \/ 2 ^ 52 <= r -> r <= 2 ^ 53 ->
  e * 2 ^ 52 + r < 2047 * 2 ^ 52 ->
  let b := s * 2 ^ 63 + (e * 2 ^ 52 + r) in
  finite64 b /\ f64_val b = signed s (r * 2 ^ e).
Proof.
  intros Hs He Hr Hr' HL b. unfold finite64.
  assert (V : forall e' m, 0 <= e' < 2047 -> 0 <= m < 2 ^ 52 -> b = s * 2 ^ 63 + e' * 2 ^ 52 + m ->
    (if e' =? 0 then m else m + 2 ^ 52) * 2 ^ (Z.max e' 1 - 1) = r * 2 ^ e ->
    (0 <= b < 2 ^ 64 /\ f64_exp b <> 2047) /\ f64_val b = signed s (r * 2 ^ e)).
  { intros e' m E M B V. destruct (f64_fields s e' m Hs ltac:(lia) M) as (F1 & F2 & F3). rewrite <- B in F1, F2, F3.
    rewrite F2. split; [split; [clearbody b; lia|lia]|].
    unfold f64_val. rewrite F1, F2, F3. unfold signed. rewrite <- V. destruct (s =? 0); ring. }
  destruct (Z.lt_ge_cases r (2 ^ 52)) as [L|L]; [|destruct (Z.eq_dec r (2 ^ 53)) as [->|N]].
  - assert (e = 0) by lia. subst e. apply (V 0 r); [lia|lia|unfold b; lia|]. reflexivity.
  - apply (V (e + 2) 0); [lia|lia|unfold b; lia|]. replace (e + 2 =? 0) with false by lia.
    replace (Z.max (e + 2) 1 - 1) with (1 + e) by lia. rewrite Z.pow_add_r by lia. lia.
  - apply (V (e + 1) (r - 2 ^ 52)); [lia|lia|unfold b; lia|]. replace (e + 1 =? 0) with false by lia.
    replace (Z.max (e + 1) 1 - 1) with e by lia. f_equal. lia.
Qed.

Lemma make64_val s n d : s = 0 \/ s = 1 -> 0 <= n -> 0 < d -> n < 2 ^ 1500 * d ->
  let b := make64 s n d in
  finite64 b /\
  exists m, f64_val b = signed s m /\ (2 * Z.abs (m * d - n) <= d \/ 2 ^ 53 * Z.abs (m * d - n) <= n).
Proof.
  intros Hs Hn Hd HB b. destruct (rounding 52 n d eq_refl Hn Hd) as (He & HR & HU & HA & HL & HQ).
  unfold b, make64. set (e := Z.max 0 (Z.log2 (n / d) - 52)) in *. set (r := round_div n (d * 2 ^ e)) in *.
  pose proof (pow_pos e He) as PE.
  assert (E : e <= 1500).
  { destruct HQ as [-> | [HQ | HQ]].
    - unfold e. rewrite Z.div_0_l by lia. cbn. lia.
    - lia.
    - destruct (Z.lt_ge_cases 1500 e); [|lia]. exfalso.
      assert (n / d < 2 ^ 1500) by (apply Z.div_lt_upper_bound; [exact Hd|]; now rewrite (Z.mul_comm d)).
      assert (2 ^ 1500 <= 2 ^ (e + 52)) by (apply Z.pow_le_mono_r; lia). lia. }
  change (2 ^ (52 + 1)) with (2 ^ 53) in HU.
  rewrite Z.min_l by lia. destruct (pattern64 s e r Hs He HR HU ltac:(lia)) as (F & V).
  split; [exact F|]. exists (r * 2 ^ e). split; [exact V|].
  destruct HL as [Z|HL]; [left; rewrite Z in *; rewrite Z.pow_0_r, Z.mul_1_r in *; lia|right].
  set (A := Z.abs (r * 2 ^ e * d - n)) in *. change (2 ^ 53) with (2 * 2 ^ 52) in *.
  assert (2 * A * 2 ^ 52 <= d * 2 ^ e * 2 ^ 52) by (apply Z.mul_le_mono_nonneg_r; [discriminate|exact HA]). lia.
Qed.

Open Scope Q_scope.

Lemma real64_mag y : finite64 y -> exists m, (0 <= m)%Z /\ m = (sig64 y * 2 ^ (1074 - pos64 y))%Z /\ f64_val y = signed (f64_sign y) m /\
  real64 y == sgn (f64_sign y) * (inject_Z m / inject_Z (2 ^ 1074)) /\ (f64_sign y = 0 \/ f64_sign y = 1)%Z.
Proof.
  intros [HB HF]. pose proof (f64_val_sig y) as V. pose proof (sig64_nonneg y). pose proof (pos64_max y).
  pose proof (pow_pos (1074 - pos64 y) ltac:(lia)) as P.
  exists (sig64 y * 2 ^ (1074 - pos64 y))%Z. set (m := (sig64 y * 2 ^ (1074 - pos64 y))%Z) in *.
  split; [unfold m; apply Z.mul_nonneg_nonneg; lia|]. split; [reflexivity|]. split; [exact V|]. split.
  - unfold real64. rewrite V, signed_q. unfold Qdiv. ring.
  - now destruct (f64_split y HB).
Qed.

(** A quotient in double precision. *)
Lemma int_over_real z y : finite64 y -> pow2 (-61) <= Qabs (real64 y) -> (Z.abs z <= 2 ^ 46)%Z ->
  finite64 (int_over z y) /\
  Qabs (real64 (int_over z y) - inject_Z z / real64 y) <= (1 # 2 ^ 53) * Qabs (inject_Z z / real64 y) + (1 # 2 ^ 1000).
Proof.
  intros F L K. destruct (real64_mag y F) as (m & M0 & ME & V & R & S).
  assert (MB : (2 ^ 1013 <= m)%Z).
  { rewrite R, sgn_abs in L. unfold Qdiv in L. rewrite Qabs_Qmult, abs_inject, (Qabs_pos (/ _)) in L by discriminate.
    rewrite Z.abs_eq in L by exact M0.
    apply Qmult_le_compat_r with (z := inject_Z (2 ^ 1074)) in L; [|discriminate].
    assert (N : ~ inject_Z (2 ^ 1074) == 0) by discriminate.
    rewrite <- Qmult_assoc, (Qmult_comm (/ _)), Qmult_inv_r, Qmult_1_r in L by exact N.
    assert (E : pow2 (-61) * inject_Z (2 ^ 1074) == inject_Z (2 ^ 1013)) by (vm_compute; reflexivity).
    rewrite E, <- Zle_Qle in L. exact L. }
  assert (MP : (0 < m)%Z) by (eapply Z.lt_le_trans; [|exact MB]; reflexivity).
  unfold int_over. destruct F as [FB FF]. unfold special64. replace (f64_exp y =? 2047)%Z with false by lia.
  assert (sig64 y =? 0 = false)%Z as ->.
  { apply Z.eqb_neq. intros E. rewrite E in ME. rewrite ME in MP. now apply Z.lt_irrefl in MP. }
  rewrite <- ME. set (s := (((if (z <? 0)%Z then 1 else 0) + f64_sign y) mod 2)%Z).
  assert (HS : (s = 0 \/ s = 1)%Z) by (unfold s; destruct (z <? 0)%Z; destruct S as [-> | ->]; cbn; auto).
  set (n := (Z.abs z * 2 ^ 1074 * 2 ^ 1074)%Z).
  assert (HN : (0 <= n)%Z) by (unfold n; apply Z.mul_nonneg_nonneg; [apply Z.mul_nonneg_nonneg; [lia|discriminate]|discriminate]).
  assert (HB : (n < 2 ^ 1500 * m)%Z).
  { apply Z.lt_le_trans with (2 ^ 1500 * 2 ^ 1013)%Z; [|apply Z.mul_le_mono_nonneg_l; [discriminate|exact MB]].
    apply Z.le_lt_trans with (2 ^ 46 * 2 ^ 1074 * 2 ^ 1074)%Z; [|reflexivity].
    unfold n. apply Z.mul_le_mono_nonneg_r; [discriminate|]. apply Z.mul_le_mono_nonneg_r; [discriminate|exact K]. }
  destruct (make64_val s n m HS HN MP HB) as (FR & q & VQ & HA). split; [exact FR|].
  unfold real64 at 1. rewrite VQ, signed_q.
  assert (P74 : 0 < inject_Z (2 ^ 1074)) by reflexivity. 
  assert (N74 : ~ inject_Z (2 ^ 1074) == 0) by discriminate.
  pose proof (inject_pos m MP) as MQ. assert (NM : ~ inject_Z m == 0) by (intros E; rewrite E in MQ; now apply Qlt_irrefl in MQ).
  assert (EV : inject_Z z / real64 y == sgn s * (inject_Z n / (inject_Z m * inject_Z (2 ^ 1074)))).
  { rewrite R. unfold n. rewrite !inject_Z_mult.
    assert (EZ : inject_Z z == sgn (if (z <? 0)%Z then 1 else 0) * inject_Z (Z.abs z)).
    { destruct (Z.ltb_spec z 0).
      - rewrite Z.abs_neq by lia. rewrite inject_Z_opp. change (sgn 1) with (-1). ring.
      - rewrite Z.abs_eq by lia. change (sgn 0) with 1. ring. }
    rewrite EZ. unfold s. set (T := inject_Z (2 ^ 1074)) in *. clearbody T.
    destruct (z <? 0)%Z; destruct S as [-> | ->];
      [change (sgn ((1 + 0) mod 2)) with (-1)|change (sgn ((1 + 1) mod 2)) with 1
      |change (sgn ((0 + 0) mod 2)) with 1|change (sgn ((0 + 1) mod 2)) with (-1)];
      change (sgn 0) with 1; change (sgn 1) with (-1);
    field; auto. }
  rewrite EV, sgn_abs.
  set (T := inject_Z (2 ^ 1074)) in *.
  setoid_replace (sgn s * inject_Z q / T - sgn s * (inject_Z n / (inject_Z m * T))) with (sgn s * (inject_Z (q * m - n) / (inject_Z m * T))).
  2:{ unfold Z.sub. rewrite inject_Z_plus, inject_Z_mult, inject_Z_opp. field. auto. }
  rewrite sgn_abs. unfold Qdiv.
  assert (DP : 0 < inject_Z m * T) by (apply Qmult_lt_0_compat; assumption).
  assert (I : 0 < / (inject_Z m * T)) by (now apply Qinv_lt_0_compat).
  pose proof (inject_nonneg n HN) as NN.
  rewrite !Qabs_Qmult, abs_inject, (Qabs_pos (/ _)), (Qabs_pos (inject_Z n)) by (try exact NN; now apply Qlt_le_weak).
  destruct HA as [HA|HA].
  - assert (A : inject_Z (Z.abs (q * m - n)) <= (1 # 2) * inject_Z m).
    { rewrite Zle_Qle, inject_Z_mult in HA. change (inject_Z 2) with 2 in HA. lra. }
    pose proof (Qmult_le_compat_r _ _ _ A (Qlt_le_weak _ _ I)) as B.
    assert (E : (1 # 2) * inject_Z m * / (inject_Z m * T) == (1 # 2) * / T) by (field; auto).
    rewrite E in B. assert (C : (1 # 2) * / T <= 1 # 2 ^ 1000) by (unfold T; clear; vm_compute; discriminate).
    assert (D : 0 <= (1 # 2 ^ 53) * (inject_Z n * / (inject_Z m * T))).
    { apply Qmult_le_0_compat; [discriminate|]. apply Qmult_le_0_compat; [exact NN|now apply Qlt_le_weak]. }
    eapply Qle_trans; [exact B|]. eapply Qle_trans; [exact C|]. rewrite <- (Qplus_0_l (1 # 2 ^ 1000)) at 1. apply Qplus_le_compat; [exact D|apply Qle_refl].
  - assert (A : inject_Z (Z.abs (q * m - n)) <= (1 # 2 ^ 53) * inject_Z n).
    { rewrite Zle_Qle, inject_Z_mult in HA. change (inject_Z (2 ^ 53)) with (9007199254740992 # 1) in HA.
      change (1 # 2 ^ 53) with (1 # 9007199254740992). lra. }
    pose proof (Qmult_le_compat_r _ _ _ A (Qlt_le_weak _ _ I)) as B.
    eapply Qle_trans; [exact B|]. rewrite <- Qmult_assoc, <- (Qplus_0_r ((1 # 2 ^ 53) * _)) at 1. apply Qplus_le_compat; [apply Qle_refl|discriminate].
Qed.

(** ** Correlations *)

Ltac nums64 :=
  change (pow2 (-52)) with (1 # 4503599627370496) in *; change (1 # 2 ^ 53) with (1 # 9007199254740992) in *;
  change (pow2 60) with (1152921504606846976 # 1) in *; change (pow2 (-60)) with (1 # 1152921504606846976) in *;
  change (pow2 (-61)) with (1 # 2305843009213693952) in *.

Lemma quot_near W D x : pow2 (-60) <= W -> Qabs (D - W) <= pow2 (-52) * W ->
  pow2 (-61) <= Qabs D /\ ~ D == 0 /\ ~ W == 0 /\ Qabs (x / D - x / W) <= (1 # 2251799813685248) * Qabs (x / W).
Proof.
  intros L E. assert (WP : 0 < W) by (eapply Qlt_le_trans; [|exact L]; reflexivity).
  pose proof (abs_near W D) as B. setoid_replace (W - D) with (- (D - W)) in B by ring. rewrite Qabs_opp in B.
  rewrite (Qabs_pos W) in B by lra.
  assert (H : (1 - pow2 (-52)) * W <= Qabs D) by lra.
  assert (HD : pow2 (-61) <= Qabs D) by (nums64; lra).
  assert (DN : ~ D == 0) by (apply abs_pos_neq; eapply Qlt_le_trans; [|exact HD]; reflexivity).
  assert (WN : ~ W == 0) by (intros Z; rewrite Z in WP; now apply Qlt_irrefl in WP).
  split; [exact HD|]. split; [exact DN|]. split; [exact WN|].
  setoid_replace (x / D - x / W) with (x / W * ((W - D) / D)) by (field; auto). rewrite Qabs_Qmult, (Qmult_comm (Qabs (x / W))).
  apply Qmult_le_compat_r; [|apply Qabs_nonneg].
  unfold Qdiv. rewrite Qabs_Qmult. setoid_replace (W - D) with (- (D - W)) by ring. rewrite Qabs_opp.
  assert (I : Qabs (/ D) * Qabs D == 1) by (rewrite <- Qabs_Qmult; setoid_replace (/ D * D) with 1 by (field; exact DN); reflexivity).
  assert (A : Qabs (D - W) <= (1 # 2251799813685248) * Qabs D) by (nums64; lra).
  pose proof (Qmult_le_compat_r _ _ (Qabs (/ D)) A (Qabs_nonneg _)) as M.
  rewrite <- Qmult_assoc, (Qmult_comm (Qabs D)), I, Qmult_1_r in M. exact M.
Qed.

Lemma two_errors x y z a b h : Qabs (x - y) <= a * Qabs y + h -> Qabs (y - z) <= b * Qabs z -> 0 <= a ->
  Qabs (x - z) <= (a + b + a * b) * Qabs z + h.
Proof.
  intros E1 E2 A. assert (T : Qabs (x - z) <= Qabs (x - y) + Qabs (y - z)).
  { setoid_replace (x - z) with ((x - y) + (y - z)) by ring. apply Qabs_triangle. }
  pose proof (abs_near y z) as Y. assert (a * Qabs y <= a * ((1 + b) * Qabs z)).
  { rewrite !(Qmult_comm a). apply Qmult_le_compat_r; [|exact A]. lra. }
  lra.
Qed.

(** The factor of the correlations. *)
Lemma factor_error square norm k : squares square -> usual_norm norm -> (k <> 0)%Z -> (Z.abs k <= 2 ^ 16)%Z ->
  let W := real64 norm * real64 norm in
  let c := narrow (int_over (32767 ^ 2 * k) (square norm)) in
  let V := inject_Z (32767 ^ 2 * k) / W in
  ~ W == 0 /\ finite32 c /\ Qabs (real32 c - V) <= (u + (1 # 1125899906842624)) * Qabs V.
Proof.
  intros SQ UN K0 K W c V. destruct (SQ norm UN) as [FS ES]. destruct UN as [FN [L H]]. fold W in ES.
  assert (WA : W == Qabs (real64 norm) * Qabs (real64 norm)).
  { unfold W. rewrite <- Qabs_Qmult. symmetry. apply Qabs_pos. apply (Qle_trans _ (Qabs (real64 norm) * Qabs (real64 norm))).
    - apply Qmult_le_0_compat; apply Qabs_nonneg.
    - destruct (Qlt_le_dec (real64 norm) 0) as [N|P]; [rewrite Qabs_neg by lra; lra|rewrite Qabs_pos by exact P; lra]. }
  assert (WL : pow2 (-60) <= W).
  { rewrite WA. apply Qle_trans with (pow2 (-30) * Qabs (real64 norm)); [|apply Qmult_le_compat_r; [exact L|apply Qabs_nonneg]].
    rewrite Qmult_comm. apply Qle_trans with (pow2 (-30) * pow2 (-30)); [discriminate|]. apply Qmult_le_compat_r; [exact L|discriminate]. }
  assert (WH : W <= pow2 60).
  { rewrite WA. apply Qle_trans with (pow2 30 * Qabs (real64 norm)); [apply Qmult_le_compat_r; [exact H|apply Qabs_nonneg]|].
    rewrite Qmult_comm. apply Qle_trans with (pow2 30 * pow2 30); [|discriminate]. apply Qmult_le_compat_r; [exact H|discriminate]. }
  clear WA. set (D := real64 (square norm)) in *. set (x := inject_Z (32767 ^ 2 * k)) in *.
  destruct (quot_near W D x WL ES) as (DL & DN & WN & QN). fold V in QN. split; [exact WN|].
  assert (KB : (Z.abs (32767 ^ 2 * k) <= 2 ^ 46)%Z) by (rewrite Z.abs_mul; change (Z.abs (32767 ^ 2)) with 1073676289%Z; lia).
  destruct (int_over_real (32767 ^ 2 * k) (square norm) FS DL KB) as [FQ EQ]. fold D in EQ. fold x in EQ.
  set (q := real64 (int_over (32767 ^ 2 * k) (square norm))) in *.
  pose proof (two_errors q (x / D) V _ _ _ EQ QN ltac:(discriminate)) as E1.
  assert (VW : Qabs V * W == Qabs x).
  { rewrite <- (Qabs_pos W) at 1 by (eapply Qle_trans; [|exact WL]; discriminate). rewrite <- Qabs_Qmult. apply Qabs_wd. unfold V. field. exact WN. }
  assert (XL : 1 <= Qabs x) by (unfold x; rewrite abs_inject; change 1 with (inject_Z 1); rewrite <- Zle_Qle; lia).
  assert (XH : Qabs x <= inject_Z (2 ^ 46)) by (unfold x; rewrite abs_inject, <- Zle_Qle; exact KB).
  pose proof (Qabs_nonneg V) as V0.
  assert (VL : pow2 (-60) <= Qabs V).
  { destruct (Qlt_le_dec (Qabs V) (pow2 (-60))) as [B|]; [|assumption]. exfalso.
    assert (W0 : 0 < W) by (eapply Qlt_le_trans; [|exact WL]; reflexivity).
    assert (C : Qabs V * W < pow2 (-60) * W) by (now apply Qmult_lt_compat_r).
    rewrite VW in C. nums64. lra. }
  assert (VH : Qabs V <= inject_Z (2 ^ 46) * pow2 60).
  { assert (C : Qabs V * pow2 (-60) <= Qabs V * W) by (rewrite !(Qmult_comm (Qabs V)); apply Qmult_le_compat_r; [exact WL|exact V0]).
    rewrite VW in C. change (inject_Z (2 ^ 46)) with (70368744177664 # 1) in *. nums64. lra. }
  assert (E2 : Qabs (q - V) <= (1 # 1500000000000000) * Qabs V + 0).
  { assert (T : (1 # 2 ^ 1000) <= (1 # 1000000000000000000) * Qabs V).
    { apply Qle_trans with ((1 # 1000000000000000000) * pow2 (-60)); [discriminate|]. rewrite !(Qmult_comm (1 # 1000000000000000000)).
      apply Qmult_le_compat_r; [exact VL|discriminate]. }
    set (tt := 1 # 2 ^ 1000) in *. clearbody tt. set (v := Qabs V) in *. clearbody v. clear -E1 T V0. nums64. lra. }
  assert (QT : Qabs q < top).
  { pose proof (grows _ _ _ _ _ E2 ltac:(split; discriminate) ltac:(discriminate) VH) as G. eapply Qle_lt_trans; [exact G|reflexivity]. }
  destruct (narrow_real _ FQ QT) as [FC RC]. fold q in RC. fold c in FC, RC. split; [exact FC|]. unfold rounded in RC.
  assert (E3 : Qabs (q - V) <= (1 # 1500000000000000) * Qabs V) by lra.
  pose proof (two_errors _ _ _ _ _ _ RC E3 ltac:(discriminate)) as E4.
  set (v := Qabs V) in *. clearbody v. clear -E4 VL. nums. nums64. lra.
Qed.

Lemma lag_part W V c x z : ~ W == 0 -> Qabs (c - V) <= (u + (1 # 1125899906842624)) * Qabs V -> rounded z (x * c) ->
  Qabs (z - x * V) <= (2 * u + (1 # 1000000000000)) * Qabs (x * V) + t.
Proof.
  intros WN E R. assert (E' : Qabs (c - V) <= (u + (1 # 1125899906842624)) * Qabs V + 0) by lra.
  assert (R' : rounded z (c * x)) by (unfold rounded in *; now rewrite (Qmult_comm c)).
  pose proof (step (u + (1 # 1125899906842624)) 0 _ _ _ _ ltac:(discriminate) ltac:(discriminate) E' R') as S.
  rewrite (Qmult_comm V x) in S. pose proof (Qabs_nonneg (x * V)). set (v := Qabs (x * V)) in *. clearbody v. clear -S H. nums. lra.
Qed.

Lemma lag_error square norm k a b : squares square -> usual_norm norm -> usual_lag norm k a -> usual_lag norm k b ->
  (k <> 0)%Z -> (Z.abs k <= 2 ^ 16)%Z ->
  let z := scaled_acf square norm k (a, b) in
  (finite32 (fst z) /\ close_to 22 (real32 (fst z)) (lag_value norm k a)) /\
  (finite32 (snd z) /\ close_to 22 (real32 (snd z)) (lag_value norm k b)).
Proof.
  intros SQ UN [FA UA] [FB UB] K0 K z. destruct (factor_error square norm k SQ UN K0 K) as (WN & FC & EC).
  set (W := real64 norm * real64 norm) in *. set (V := inject_Z (32767 ^ 2 * k) / W) in *.
  unfold z, scaled_acf. set (c := narrow (int_over (32767 ^ 2 * k) (square norm))) in *. clearbody c.
  assert (EX : forall x, real32 x * V == lag_value norm k x).
  { intros x. unfold lag_value, V. fold W. rewrite inject_Z_mult. change (inject_Z (32767 ^ 2)) with (32767 * 32767). field. exact WN. }
  assert (TB : forall x, Qabs (lag_value norm k x) <= pow2 50 -> Qabs (real32 x * real32 c) < top).
  { intros x B. rewrite <- EX in B. assert (P : Qabs (real32 x * real32 c - real32 x * V) <= 1 * Qabs (real32 x * V) + 0).
    { setoid_replace (real32 x * real32 c - real32 x * V) with ((real32 c - V) * real32 x) by ring. rewrite Qmult_1_l, Qplus_0_r, (Qmult_comm _ V), !Qabs_Qmult.
      apply Qmult_le_compat_r; [|apply Qabs_nonneg]. pose proof (Qabs_nonneg V). nums. lra. }
    pose proof (grows _ _ _ _ _ P ltac:(split; discriminate) ltac:(discriminate) B) as G.
    eapply Qle_lt_trans; [exact G|reflexivity]. }
  destruct (times_real a b c FA FB FC (TB a UA) (TB b UB)) as [[F1 R1] [F2 R2]].
  assert (FIN : forall r x, Qabs (r - real32 x * V) <= (2 * u + (1 # 1000000000000)) * Qabs (real32 x * V) + t -> close_to 22 r (lag_value norm k x)).
  { intros r x S. unfold close_to. rewrite <- (EX x). change (pow2 (Z.opp 22)) with (1 # 4194304).
    change (pow2 (-100)) with (1 # 1267650600228229401496703205376).
    pose proof (Qabs_nonneg (real32 x * V)). set (v := Qabs (real32 x * V)) in *. clearbody v. clear -S H. nums. lra. }
  split; (split; [assumption|]); apply FIN; now apply (lag_part W V (real32 c)).
Qed.

(** A square that rounds to the nearest is close enough. *)
Lemma squares_nearest : squares (fun b => make64 0 (f64_val b * f64_val b) (2 ^ 1074)).
Proof.
  intros b [F [L H]]. set (v := f64_val b) in *.
  assert (VB : (Z.abs v <= 2 ^ 1104)%Z).
  { unfold real64, Qdiv in H. rewrite Qabs_Qmult, abs_inject, (Qabs_pos (/ _)) in H by discriminate.
    apply Qmult_le_compat_r with (z := inject_Z (2 ^ 1074)) in H; [|discriminate].
    assert (N : ~ inject_Z (2 ^ 1074) == 0) by discriminate.
    rewrite <- Qmult_assoc, (Qmult_comm (/ _)), Qmult_inv_r, Qmult_1_r in H by exact N.
    change (pow2 30) with (inject_Z (2 ^ 30)) in H. rewrite <- inject_Z_mult, <- Zle_Qle in H. exact H. }
  assert (VL : (2 ^ 1044 <= Z.abs v)%Z).
  { unfold real64, Qdiv in L. rewrite Qabs_Qmult, abs_inject, (Qabs_pos (/ _)) in L by discriminate.
    apply Qmult_le_compat_r with (z := inject_Z (2 ^ 1074)) in L; [|discriminate].
    assert (N : ~ inject_Z (2 ^ 1074) == 0) by discriminate.
    rewrite <- Qmult_assoc, (Qmult_comm (/ _)), Qmult_inv_r, Qmult_1_r in L by exact N.
    assert (E : pow2 (-30) * inject_Z (2 ^ 1074) == inject_Z (2 ^ 1044)) by (vm_compute; reflexivity).
    rewrite E, <- Zle_Qle in L. exact L. }
  assert (VV : (v * v = Z.abs v * Z.abs v)%Z) by (rewrite <- Z.abs_mul; symmetry; apply Z.abs_eq, Z.square_nonneg).
  assert (N0 : (0 <= v * v)%Z) by apply Z.square_nonneg.
  assert (NB : (v * v < 2 ^ 1500 * 2 ^ 1074)%Z).
  { rewrite VV. apply Z.le_lt_trans with (2 ^ 1104 * 2 ^ 1104)%Z; [|reflexivity]. apply Z.mul_le_mono_nonneg; (exact VB || apply Z.abs_nonneg). }
  assert (NL : (2 ^ 53 * 2 ^ 1074 <= v * v)%Z).
  { rewrite VV. apply Z.le_trans with (2 ^ 1044 * 2 ^ 1044)%Z; [discriminate|]. apply Z.mul_le_mono_nonneg; (exact VL || discriminate). }
  destruct (make64_val 0 (v * v) (2 ^ 1074) ltac:(now left) N0 eq_refl NB) as (FM & m & VM & A). split; [exact FM|].
  unfold real64. rewrite VM. fold v. change (signed 0 m) with m. set (T := (2 ^ 1074)%Z) in *.
  assert (TN : ~ inject_Z T == 0) by discriminate. assert (I : 0 <= / (inject_Z T * inject_Z T)) by discriminate.
  setoid_replace (inject_Z m / inject_Z T - inject_Z v / inject_Z T * (inject_Z v / inject_Z T)) with (inject_Z (m * T - v * v) * / (inject_Z T * inject_Z T)).
  2:{ unfold Z.sub. rewrite inject_Z_plus, inject_Z_opp, !inject_Z_mult. field. exact TN. }
  setoid_replace (pow2 (-52) * (inject_Z v / inject_Z T * (inject_Z v / inject_Z T))) with (pow2 (-52) * inject_Z (v * v) * / (inject_Z T * inject_Z T)).
  2:{ rewrite inject_Z_mult. field. exact TN. }
  rewrite Qabs_Qmult, abs_inject, (Qabs_pos (/ _) I). apply Qmult_le_compat_r; [|exact I].
  assert (B : (2 ^ 52 * Z.abs (m * T - v * v) <= v * v)%Z).
  { assert (TP : (0 < T)%Z) by reflexivity. set (a := Z.abs (m * T - v * v)) in *. assert (0 <= a)%Z by apply Z.abs_nonneg.
    set (n := (v * v)%Z) in *. clearbody a n T. change (2 ^ 53)%Z with (2 * 2 ^ 52)%Z in *. lia. }
  rewrite Zle_Qle, inject_Z_mult in B. change (inject_Z (2 ^ 52)) with (4503599627370496 # 1) in B.
  change (pow2 (-52)) with (1 # 4503599627370496). clear -B. lra.
Qed.
