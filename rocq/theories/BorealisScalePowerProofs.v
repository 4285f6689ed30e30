(** Proofs about the errors of powers. *)
From Coq Require Import ZArith List Bool Lia QArith Qabs Lqa Qfield.
From Verif Require Import Base FloatBits FloatSpec FloatBitsProofs BorealisTime BorealisTimeProofs BorealisConvert
  BorealisConvertNumberProofs BorealisScale BorealisScaleSpec BorealisScaleProofs BorealisScaleErrorProofs.
Import ListNotations.
Open Scope Z_scope.

(** ** Square roots *)

Lemma sqrt_val n : 2 ^ 149 <= n < 2 ^ 426 ->
  let e := Z.max 0 (Z.log2 (Z.sqrt n) - 23) in
  let r := Z.sqrt n / 2 ^ e in
  let h := (2 * r + 1) * 2 ^ e in
  let b := e * 2 ^ 23 + (if 4 * n <? h * h then r else if h * h <? 4 * n then r + 1 else r + r mod 2) in
  finite32 b /\ exists m, f32_val b = m /\ 0 <= m /\ 2 ^ 22 * Z.abs (m * m - n) <= m * m.
Proof.
  intros [NL NH] e r h b.
  pose proof (Z.sqrt_spec n ltac:(lia)) as [SL SH]. set (q := Z.sqrt n) in *.
  assert (Q0 : 0 <= q) by apply Z.sqrt_nonneg.
  assert (QL : 2 ^ 74 <= q).
  { destruct (Z.lt_ge_cases q (2 ^ 74)) as [L|]; [|assumption]. exfalso.
    assert (Z.succ q * Z.succ q <= 2 ^ 74 * 2 ^ 74) by (apply Z.mul_le_mono_nonneg; lia).
    change (2 ^ 74 * 2 ^ 74) with (2 ^ 148) in H. lia. }
  assert (QH : q < 2 ^ 213).
  { destruct (Z.lt_ge_cases q (2 ^ 213)) as [|L]; [assumption|]. exfalso.
    assert (2 ^ 213 * 2 ^ 213 <= q * q) by (apply Z.mul_le_mono_nonneg; lia).
    change (2 ^ 213 * 2 ^ 213) with (2 ^ 426) in H. lia. }
  destruct (Z.log2_spec q ltac:(lia)) as [LL LH].
  assert (L74 : 74 <= Z.log2 q) by (apply Z.log2_le_pow2; lia).
  assert (L213 : Z.log2 q < 213) by (apply Z.log2_lt_pow2; lia).
  assert (EE : e = Z.log2 q - 23) by (unfold e; lia). assert (He : 0 <= e) by lia.
  pose proof (pow_pos e He) as PE. clearbody q. set (P := 2 ^ e) in *.
  assert (PL : 2 ^ Z.log2 q = P * 2 ^ 23) by (unfold P; rewrite <- Z.pow_add_r by lia; f_equal; lia).
  assert (PH : 2 ^ Z.succ (Z.log2 q) = P * 2 ^ 24) by (unfold P; rewrite <- Z.pow_add_r by lia; f_equal; lia).
  rewrite PL in LL. rewrite PH in LH.
  pose proof (Z.div_mod q P ltac:(lia)) as DM. pose proof (Z.mod_pos_bound q P PE) as MB. fold r in DM.
  assert (RL : 2 ^ 23 <= r) by (apply Z.div_le_lower_bound; lia).
  assert (RH : r < 2 ^ 24) by (apply Z.div_lt_upper_bound; lia).
  clearbody r.
  set (r' := if 4 * n <? h * h then r else if h * h <? 4 * n then r + 1 else r + r mod 2) in *.
  assert (R' : 2 ^ 23 <= r' <= 2 ^ 24).
  { unfold r'. destruct (4 * n <? h * h); [lia|]. destruct (h * h <? 4 * n); [lia|]. pose proof (Z.mod_pos_bound r 2 eq_refl). lia. }
  assert (B : e * 2 ^ 23 + r' < 255 * 2 ^ 23) by lia.
  destruct (pattern32 0 e r' ltac:(now left) He ltac:(right; lia) ltac:(lia) B) as (F & _ & V).
  cbv zeta in F, V. rewrite Z.mul_0_l, Z.add_0_l in F, V. fold b in F, V. split; [exact F|].
  exists (r' * P). split; [exact V|]. split; [apply Z.mul_nonneg_nonneg; lia|].
  assert (N1 : (r * P) * (r * P) <= n) by (assert (r * P * (r * P) <= q * q) by (apply Z.mul_le_mono_nonneg; nia); lia).
  assert (N2 : n < ((r + 1) * P) * ((r + 1) * P)).
  { assert (Z.succ q * Z.succ q <= (r + 1) * P * ((r + 1) * P)) by (apply Z.mul_le_mono_nonneg; nia). lia. }
  assert (A : 4 * Z.abs (r' * P * (r' * P) - n) <= 4 * (r' * P) * P + P * P).
  { unfold r', h. clear -N1 N2 PE RL RH.
    assert (E1 : (2 * r + 1) * P * ((2 * r + 1) * P) = 4 * (r * P * (r * P)) + 4 * (r * P) * P + P * P) by ring.
    assert (E2 : (r + 1) * P * ((r + 1) * P) = r * P * (r * P) + 2 * (r * P) * P + P * P) by ring.
    assert (E3 : (r + 1) * P * P = r * P * P + P * P) by ring.
    rewrite E1. rewrite E2 in N2. set (a := r * P * (r * P)) in *. set (c := r * P * P) in *.
    replace (4 * (r * P) * P) with (4 * c) in * by (unfold c; ring). replace (2 * (r * P) * P) with (2 * c) in * by (unfold c; ring).
    assert (0 <= c) by (unfold c; nia). assert (0 < P * P) by nia. set (pp := P * P) in *.
    destruct (Z.ltb_spec (4 * n) (4 * a + 4 * c + pp)); [|destruct (Z.ltb_spec (4 * a + 4 * c + pp) (4 * n))].
    - fold a. replace (4 * (r * P) * P) with (4 * c) by (unfold c; ring). clearbody a c pp. lia.
    - rewrite E2. replace (4 * ((r + 1) * P) * P) with (4 * c + 4 * pp) by (unfold c, pp; ring).
      replace (2 * (r * P) * P) with (2 * c) by (unfold c; ring). fold pp a. clearbody a c pp. lia.
    - assert (r mod 2 = 0 \/ r mod 2 = 1) as [-> | ->] by (pose proof (Z.mod_pos_bound r 2 eq_refl); lia).
      + rewrite Z.add_0_r. fold a. replace (4 * (r * P) * P) with (4 * c) by (unfold c; ring). clearbody a c pp. lia.
      + rewrite E2. replace (4 * ((r + 1) * P) * P) with (4 * c + 4 * pp) by (unfold c, pp; ring).
        replace (2 * (r * P) * P) with (2 * c) by (unfold c; ring). fold pp a. clearbody a c pp. lia. }
  set (m := r' * P) in *. assert (M : 2 ^ 23 * P <= m) by (unfold m; apply Z.mul_le_mono_nonneg_r; lia). clearbody m. clear - A M PE.
  assert (2 ^ 23 * P * P <= m * P) by (apply Z.mul_le_mono_nonneg_r; lia).
  assert (2 ^ 23 * P * m <= m * m) by (apply Z.mul_le_mono_nonneg_r; lia).
  set (A' := Z.abs (m * m - n)) in *. clearbody A'. lia.
Qed.

Open Scope Q_scope.

Lemma sqrt32_real x : finite32 x -> 0 <= real32 x ->
  finite32 (sqrt32 x) /\ 0 <= real32 (sqrt32 x) /\
  Qabs (real32 (sqrt32 x) * real32 (sqrt32 x) - real32 x) <= (1 # 4194304) * (real32 (sqrt32 x) * real32 (sqrt32 x)).
Proof.
  intros F P. unfold sqrt32. destruct (finite_flags x F) as [-> ->]. rewrite (zero_units x F).
  destruct (Z.eqb_spec (units x) 0) as [Z|NZ].
  - assert (E : real32 x == 0) by (rewrite real_units, Z; unfold Qdiv; ring).
    split; [exact F|]. split; [exact P|]. rewrite E. discriminate.
  - pose proof (units_range x F) as [U0 U1].
    assert (UP : 0 < inject_Z (units x)) by (apply inject_pos; lia).
    assert (S : f32_sign x = 0%Z).
    { destruct (sign_bit x F) as [S|S]; [exact S|]. exfalso. rewrite real_units, S in P. change (sgn 1) with (-1) in P.
      assert (0 < inject_Z (units x) / inject_Z (2 ^ 149)); [|lra].
      apply Qmult_lt_0_compat; [exact UP|reflexivity]. }
    rewrite S. cbn [Z.eqb]. set (n := (units x * 2 ^ 149)%Z).
    assert (N : (2 ^ 149 <= n < 2 ^ 426)%Z).
    { change (2 ^ 426)%Z with (2 ^ 277 * 2 ^ 149)%Z. unfold n. assert (P149 : (0 < 2 ^ 149)%Z) by reflexivity.
      set (q := (2 ^ 149)%Z) in *. clearbody q. split; [|apply Z.mul_lt_mono_pos_r; assumption].
      rewrite <- (Z.mul_1_l q) at 1. apply Z.mul_le_mono_nonneg_r; lia. }
    destruct (sqrt_val n N) as (FB & m & V & M0 & A). cbv zeta in FB, V.
    split; [exact FB|]. unfold real32 at 1 2 3 5 6. rewrite V.
    assert (PN : ~ inject_Z (2 ^ 149) == 0) by discriminate.
    split; [apply Qmult_le_0_compat; [now apply inject_nonneg|discriminate]|].
    rewrite real_units, S. change (sgn 0) with 1.
    assert (EN : inject_Z (units x) == inject_Z n / inject_Z (2 ^ 149)) by (unfold n; rewrite inject_Z_mult; field; exact PN).
    rewrite EN. set (T := inject_Z (2 ^ 149)) in *.
    setoid_replace (inject_Z m / T * (inject_Z m / T) - 1 * (inject_Z n / T / T)) with (inject_Z (m * m - n) * / (T * T)).
    2:{ unfold Z.sub. rewrite inject_Z_plus, inject_Z_opp, inject_Z_mult. field. exact PN. }
    setoid_replace ((1 # 4194304) * (inject_Z m / T * (inject_Z m / T))) with ((1 # 4194304) * inject_Z (m * m) * / (T * T)).
    2:{ rewrite inject_Z_mult. field. exact PN. }
    assert (I : 0 <= / (T * T)) by discriminate.
    rewrite Qabs_Qmult, abs_inject, (Qabs_pos (/ _) I). apply Qmult_le_compat_r; [|exact I].
    rewrite Zle_Qle, inject_Z_mult in A. change (inject_Z (2 ^ 22)) with (4194304 # 1) in A. lra.
Qed.

Lemma add32_real x y : finite32 x -> finite32 y -> Qabs (real32 x + real32 y) < top ->
  finite32 (add32 x y) /\ rounded (real32 (add32 x y)) (real32 x + real32 y) /\
  (0 <= real32 x + real32 y -> 0 <= real32 (add32 x y)).
Proof.
  intros FX FY HT. unfold add32. destruct (finite_flags x FX) as [-> ->]. destruct (finite_flags y FY) as [-> ->]. cbn [orb].
  rewrite <- (units_val x), <- (units_val y). set (s := (f32_val x + f32_val y)%Z).
  assert (E : real32 x + real32 y == inject_Z s / inject_Z (2 ^ 149)) by (unfold real32, s; rewrite inject_Z_plus; field; discriminate).
  destruct (Z.eqb_spec s 0) as [Z|NZ].
  - assert (ZB : zero_bits (if ((f32_sign x =? 1) && (f32_sign y =? 1))%Z then 2 ^ 31 else 0)%Z) by (destruct ((f32_sign x =? 1) && (f32_sign y =? 1))%Z; [now right|now left]).
    destruct (zero_facts _ ZB) as (F & _ & R & _). split; [exact F|]. unfold rounded. rewrite E, R, Z. split; [discriminate|intros _; apply Qle_refl].
  - set (g := if (s <? 0)%Z then 1%Z else 0%Z). assert (G : (g = 0 \/ g = 1)%Z) by (unfold g; destruct (s <? 0)%Z; auto).
    assert (SB : (Z.abs s < 2 ^ 276 * 1)%Z).
    { rewrite Z.mul_1_r. rewrite E in HT. unfold Qdiv in HT. rewrite Qabs_Qmult, abs_inject, (Qabs_pos (/ _)) in HT by discriminate.
      apply Qmult_lt_compat_r with (z := inject_Z (2 ^ 149)) in HT; [|reflexivity].
      assert (N : ~ inject_Z (2 ^ 149) == 0) by discriminate.
      rewrite <- Qmult_assoc, (Qmult_comm (/ _)), Qmult_inv_r, Qmult_1_r in HT by exact N.
      unfold top in HT. rewrite <- inject_Z_mult, <- Zlt_Qlt in HT.
      eapply Z.lt_le_trans; [exact HT|discriminate]. }
    destruct (make32_real g (Z.abs s) 1 G ltac:(lia) eq_refl SB) as [F R]. split; [exact F|].
    assert (E2 : real32 x + real32 y == sgn g * (inject_Z (Z.abs s) / (inject_Z 1 * inject_Z (2 ^ 149)))).
    { rewrite E. change (inject_Z 1) with 1. unfold g. destruct (Z.ltb_spec s 0).
      - rewrite Z.abs_neq by lia. rewrite inject_Z_opp. change (sgn 1) with (-1). field. discriminate.
      - rewrite Z.abs_eq by lia. change (sgn 0) with 1. field. discriminate. }
    split; [unfold rounded in *; now rewrite E2|]. intros H. rewrite E in H.
    assert (SP : (0 <= s)%Z).
    { destruct (Z.lt_ge_cases s 0) as [L|L]; [|lia]. exfalso.
      assert (inject_Z s / inject_Z (2 ^ 149) < 0); [|lra].
      setoid_replace 0 with (0 * / inject_Z (2 ^ 149)) by ring. apply Qmult_lt_compat_r; [reflexivity|].
      change 0 with (inject_Z 0). now rewrite <- Zlt_Qlt. }
    destruct (make32_val g (Z.abs s) 1 G ltac:(lia) eq_refl SB) as (_ & _ & m & V & M0 & _).
    unfold real32. rewrite V. unfold g. replace (s <? 0)%Z with false by lia. unfold signed. cbn [Z.eqb].
    apply Qmult_le_0_compat; [now apply inject_nonneg|discriminate].
Qed.

Lemma square_nonneg x : 0 <= x * x.
Proof. destruct (Qlt_le_dec x 0); nra. Qed.

Lemma not_below b : - t <= real32 b -> 0 <= real32 b.
Proof.
  intros H. unfold real32 in *. assert (Z : (0 <= f32_val b)%Z).
  { destruct (Z.lt_ge_cases (f32_val b) 0) as [L|L]; [|lia]. exfalso.
    assert (A : inject_Z (f32_val b) / inject_Z (2 ^ 149) <= inject_Z (-1) / inject_Z (2 ^ 149)).
    { apply Qmult_le_compat_r; [|discriminate]. rewrite <- Zle_Qle. lia. }
    pose proof (Qle_trans _ _ _ H A) as C. revert C. apply Qlt_not_le. reflexivity. }
  apply Qmult_le_0_compat; [now apply inject_nonneg|discriminate].
Qed.

(** The power of two parts. *)
Lemma magnitude_real x y : finite32 x -> finite32 y -> Qabs (real32 x) <= pow2 60 -> Qabs (real32 y) <= pow2 60 ->
  let p := magnitude (x, y) in
  let w := real32 x * real32 x + real32 y * real32 y in
  finite32 p /\ 0 <= real32 p /\ Qabs (real32 p * real32 p - w) <= (1 # 2600000) * w + 8 * t.
Proof.
  intros FX FY BX BY p w.
  pose proof (mult_bound _ _ _ _ BX BX) as MX. pose proof (mult_bound _ _ _ _ BY BY) as MY.
  change (pow2 60 * pow2 60) with (inject_Z (2 ^ 120)) in MX, MY.
  destruct (mul32_real x x FX FX) as [F1 R1]; [eapply Qle_lt_trans; [exact MX|reflexivity]|].
  destruct (mul32_real y y FY FY) as [F2 R2]; [eapply Qle_lt_trans; [exact MY|reflexivity]|].
  pose proof (square_nonneg (real32 x)) as PX. pose proof (square_nonneg (real32 y)) as PY.
  unfold p, magnitude. cbn [fst snd]. set (X := mul32 x x) in *. set (Y := mul32 y y) in *. unfold w.
  set (vx := real32 x * real32 x) in *. set (vy := real32 y * real32 y) in *. clearbody X Y vx vy. clear w p.
  unfold rounded in R1, R2. rewrite !(Qabs_pos vx) in * by exact PX. rewrite !(Qabs_pos vy) in * by exact PY.
  change (inject_Z (2 ^ 120)) with (1329227995784915872903807060280344576 # 1) in *.
  apply Qabs_Qle_condition in R1 as [R1 R1']. apply Qabs_Qle_condition in R2 as [R2 R2'].
  assert (LT : Qabs (real32 X + real32 Y) < top) by (nums; apply Qabs_case; intros _; lra).
  destruct (add32_real X Y F1 F2 LT) as (FS & RS & NS). unfold rounded in RS.
  set (S := add32 X Y) in *. clearbody S.
  pose proof (not_below X ltac:(nums; lra)) as X0. pose proof (not_below Y ltac:(nums; lra)) as Y0.
  assert (POS : 0 <= real32 X + real32 Y) by lra.
  specialize (NS POS). destruct (sqrt32_real S FS NS) as (FP & PP & RP). split; [exact FP|]. split; [exact PP|].
  set (pp := real32 (sqrt32 S) * real32 (sqrt32 S)) in *. clearbody pp.
  rewrite (Qabs_pos (real32 X + real32 Y)) in RS by exact POS.
  apply Qabs_Qle_condition in RS as [RS RS']. apply Qabs_Qle_condition in RP as [RP RP'].
  apply Qabs_Qle_condition. clear -R1 R1' R2 R2' RS RS' RP RP' PX PY. nums. split; lra.
Qed.

Lemma square_error r v : close_to 22 r v -> Qabs (r * r - v * v) <= (1 # 2097000) * (v * v) + (1 # 2 ^ 98).
Proof.
  unfold close_to. change (pow2 (Z.opp 22)) with (1 # 4194304). intros H.
  assert (E : Qabs (r * r - v * v) <= Qabs (r - v) * (2 * Qabs v + Qabs (r - v))).
  { setoid_replace (r * r - v * v) with ((r - v) * (2 * v + (r - v))) by ring. rewrite Qabs_Qmult, !(Qmult_comm (Qabs (r - v))).
    apply Qmult_le_compat_r; [|apply Qabs_nonneg]. eapply Qle_trans; [apply Qabs_triangle|]. rewrite Qabs_Qmult. apply Qle_refl. }
  assert (VV : v * v == Qabs v * Qabs v) by (destruct (Qlt_le_dec v 0); [rewrite Qabs_neg by lra|rewrite Qabs_pos by assumption]; ring).
  rewrite VV. rewrite VV in E. pose proof (Qabs_nonneg v) as V0. pose proof (Qabs_nonneg (r - v)) as D0.
  set (d := Qabs (r - v)) in *. set (a := Qabs v) in *. eapply Qle_trans; [exact E|].
  assert (A1 : a <= a * a + 1) by (destruct (Qlt_le_dec a 1); nra).
  set (h := pow2 (-100)) in *. assert (H0 : 0 <= h) by discriminate.
  set (e := 1 # 4194304) in *.
  assert (B : d * (2 * a + d) <= (e * a + h) * (2 * a + (e * a + h))).
  { apply Qle_trans with ((e * a + h) * (2 * a + d)); [apply Qmult_le_compat_r; [exact H|lra]|].
    rewrite !(Qmult_comm (e * a + h)). apply Qmult_le_compat_r; [lra|]. unfold e. lra. }
  eapply Qle_trans; [exact B|].
  assert (C : h * a <= h * (a * a + 1)) by (rewrite !(Qmult_comm h); now apply Qmult_le_compat_r).
  pose proof (Qmult_le_0_compat _ _ V0 V0) as AA.
  setoid_replace ((e * a + h) * (2 * a + (e * a + h))) with ((2 * e + e * e) * (a * a) + (2 + 2 * e) * (h * a) + h * h) by ring.
  set (ha := h * a) in *. set (aa := a * a) in *. clearbody ha aa. unfold e. clear -C AA.
  change (1 # 2 ^ 98) with (1 # 316912650057057350374175801344). change h with (1 # 1267650600228229401496703205376) in *. lra.
Qed.

Lemma power_near x y vx vy : finite32 x -> finite32 y -> close_to 22 (real32 x) vx -> close_to 22 (real32 y) vy ->
  Qabs vx <= pow2 50 -> Qabs vy <= pow2 50 ->
  finite32 (magnitude (x, y)) /\ magnitude_near (real32 (magnitude (x, y))) vx vy.
Proof.
  intros FX FY CX CY BX BY.
  assert (B : forall r v, close_to 22 r v -> Qabs v <= pow2 50 -> Qabs r <= pow2 60).
  { intros r v C B. unfold close_to in C. pose proof (grows _ _ _ _ _ C ltac:(split; discriminate) ltac:(discriminate) B) as G.
    eapply Qle_trans; [exact G|discriminate]. }
  destruct (magnitude_real x y FX FY (B _ _ CX BX) (B _ _ CY BY)) as (FP & P0 & E). split; [exact FP|]. split; [exact P0|].
  apply square_error in CX. apply square_error in CY.
  pose proof (square_nonneg (real32 x)). pose proof (square_nonneg (real32 y)). pose proof (square_nonneg vx). pose proof (square_nonneg vy).
  set (pp := real32 (magnitude (x, y)) * real32 (magnitude (x, y))) in *.
  set (xx := real32 x * real32 x) in *. set (yy := real32 y * real32 y) in *. set (ax := vx * vx) in *. set (ay := vy * vy) in *.
  clearbody pp xx yy ax ay.
  apply Qabs_Qle_condition in CX as [C1 C2]. apply Qabs_Qle_condition in CY as [D1 D2]. apply Qabs_Qle_condition in E as [E1 E2].
  change (1 # 2 ^ 98) with (1 # 316912650057057350374175801344) in *. nums. apply Qabs_Qle_condition.
  change (pow2 (-20)) with (1 # 1048576). change (pow2 (-90)) with (1 # 1237940039285380274899124224).
  clear B. split; lra.
Qed.
