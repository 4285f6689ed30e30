(** Proofs about the errors of the scaling of samples. *)
From Coq Require Import ZArith List Bool Lia QArith Qabs Lqa Qfield.
From Verif Require Import Base FloatBits FloatSpec FloatBitsProofs BorealisTime BorealisConvert BorealisScale BorealisScaleSpec BorealisScaleProofs.
Import ListNotations.
Open Scope Q_scope.

(** ** Ints *)

Lemma int_exact k : (Z.abs k < 2 ^ 24)%Z -> finite32 (int32_f k) /\ real32 (int32_f k) == inject_Z k.
Proof.
  intros K. unfold int32_f. assert (S : ((if k <? 0 then 1 else 0) = 0 \/ (if k <? 0 then 1 else 0) = 1)%Z) by (destruct (k <? 0)%Z; auto).
  assert (B : (Z.abs k * 2 ^ 149 < 2 ^ 276)%Z) by (change (2 ^ 276)%Z with (2 ^ 127 * 2 ^ 149)%Z; nia).
  split; [now apply make32_val; lia|]. unfold real32. rewrite (make32_exact _ (Z.abs k) 149 S) by lia.
  rewrite signed_q, inject_Z_mult.
  assert (E : sgn (if (k <? 0)%Z then 1 else 0) * inject_Z (Z.abs k) == inject_Z k).
  { destruct (Z.ltb_spec k 0).
    - rewrite Z.abs_neq by lia. rewrite inject_Z_opp. change (sgn 1) with (-1). ring.
    - rewrite Z.abs_eq by lia. change (sgn 0) with 1. ring. }
  rewrite <- E. field. discriminate.
Qed.

(** ** Complex numbers *)

Lemma add_comm x y : finite32 x -> finite32 y -> add32 x y = add32 y x.
Proof.
  intros HX HY. unfold add32. destruct (finite_flags x HX) as [-> ->]. destruct (finite_flags y HY) as [-> ->]. cbn [orb].
  now rewrite Z.add_comm, andb_comm.
Qed.

Lemma times_real a b c : finite32 a -> finite32 b -> finite32 c ->
  Qabs (real32 a * real32 c) < top -> Qabs (real32 b * real32 c) < top ->
  let z := complex_times (a, b) c in
  (finite32 (fst z) /\ rounded (real32 (fst z)) (real32 a * real32 c)) /\
  (finite32 (snd z) /\ rounded (real32 (snd z)) (real32 b * real32 c)).
Proof.
  intros FA FB FC HA HB. cbn [complex_times fst snd]. unfold sub32.
  destruct (mul32_real a c FA FC HA) as [F1 R1]. destruct (mul32_real b c FB FC HB) as [F2 R2].
  destruct (mul_zero b 0 FB ltac:(now left)) as [Z1 _]. destruct (mul_zero a 0 FA ltac:(now left)) as [Z2 _].
  destruct (add_zero _ _ F1 (neg_zero _ Z1)) as [G1 E1].
  destruct (zero_facts _ Z2) as (FZ & _). rewrite (add_comm _ _ FZ F2). destruct (add_zero _ _ F2 Z2) as [G2 E2].
  split; (split; [assumption|]); unfold rounded; [rewrite E1; exact R1|rewrite E2; exact R2].
Qed.

Lemma not_zero c : finite32 c -> ~ real32 c == 0 -> is_zero c = false /\ (0 < units c)%Z.
Proof.
  intros F N. rewrite (zero_units c F). pose proof (units_range c F).
  destruct (Z.eqb_spec (units c) 0) as [E|]; [|split; [reflexivity|lia]].
  exfalso. apply N. rewrite real_units, E. unfold Qdiv. ring.
Qed.

Lemma zero_over c : finite32 c -> ~ real32 c == 0 -> zero_bits (div32 0 c).
Proof.
  intros F N. destruct (not_zero c F N) as [Z U]. unfold div32.
  destruct (zero_facts 0 ltac:(now left)) as (F0 & U0 & _ & _).
  destruct (finite_flags c F) as [-> ->]. destruct (finite_flags 0 F0) as [-> ->]. cbn [orb]. rewrite Z, U0, Z.mul_0_l.
  unfold make32. rewrite Z.div_0_l by lia. cbn [Z.log2 Z.sub Z.max Z.opp Z.add Z.pow Z.mul Z.compare]. rewrite Z.mul_1_r.
  unfold round_div. rewrite Z.div_0_l, Z.mod_0_l by lia. cbn [Z.mul].
  destruct (Z.ltb_spec 0 (units c)); [|lia].
  destruct (sign_xor_bit 0 c F0 F) as [[-> | ->] _]; vm_compute; auto.
Qed.

Lemma over_real a b c : finite32 a -> finite32 b -> finite32 c -> ~ real32 c == 0 -> Qabs (1 / real32 c) < top ->
  exists s, finite32 s /\ rounded (real32 s) (1 / real32 c) /\
  (Qabs (real32 a * real32 s) < top -> Qabs (real32 b * real32 s) < top ->
   let z := complex_over (a, b) c in
   (finite32 (fst z) /\ rounded (real32 (fst z)) (real32 a * real32 s)) /\
   (finite32 (snd z) /\ rounded (real32 (snd z)) (real32 b * real32 s))).
Proof.
  intros FA FB FC NC HC. destruct (not_zero c FC NC) as [Z _]. pose proof (zero_over c FC NC) as ZR.
  destruct (mul_zero 0 _ ltac:(apply zero_facts; now left) ZR) as [Z0 _].
  destruct (add_zero c _ FC Z0) as [FC' EC].
  set (c' := add32 c (mul32 0 (div32 0 c))) in *.
  destruct (int_exact 1 ltac:(reflexivity)) as [FO O]. change (inject_Z 1) with 1 in O.
  destruct (div32_real (int32_f 1) c' FO FC') as [FS RS].
  - now rewrite EC.
  - now rewrite EC, O.
  - exists (div32 (int32_f 1) c'). split; [exact FS|]. split; [unfold rounded in *; now rewrite EC, O in RS|].
    intros HA HB. cbn [complex_over fst snd]. destruct (finite_flags c FC) as [-> _]. rewrite Z. cbn [fst snd]. fold c'.
    destruct (mul_zero b _ FB ZR) as [ZB _]. destruct (mul_zero a _ FA ZR) as [ZA _].
    destruct (add_zero a _ FA ZB) as [FA' EA]. unfold sub32. destruct (add_zero b _ FB (neg_zero _ ZA)) as [FB' EB].
    set (s := div32 (int32_f 1) c') in *.
    destruct (mul32_real _ s FA' FS ltac:(now rewrite EA)) as [G1 R1]. destruct (mul32_real _ s FB' FS ltac:(now rewrite EB)) as [G2 R2].
    unfold rounded in *. rewrite EA in R1. rewrite EB in R2. auto.
Qed.

(** ** Errors *)

Lemma abs_near y v : Qabs y <= Qabs v + Qabs (y - v).
Proof. setoid_replace y with (v + (y - v)) at 1 by ring. apply Qabs_triangle. Qed.

Lemma step a h y v c z : 0 <= a -> 0 <= h -> Qabs (y - v) <= a * Qabs v + h -> rounded z (y * c) ->
  Qabs (z - v * c) <= (a + u + a * u) * Qabs (v * c) + ((1 + u) * h * Qabs c + t).
Proof.
  intros A H E R. unfold rounded in R. rewrite Qabs_Qmult in *.
  assert (T : Qabs (z - v * c) <= Qabs (z - y * c) + Qabs (y - v) * Qabs c).
  { rewrite <- Qabs_Qmult. setoid_replace (z - v * c) with ((z - y * c) + (y - v) * c) by ring. apply Qabs_triangle. }
  pose proof (abs_near y v) as Y. pose proof (Qabs_nonneg c) as C. pose proof (Qabs_nonneg v) as V. pose proof (Qabs_nonneg (y - v)) as D.
  set (C' := Qabs c) in *. set (V' := Qabs v) in *. set (D' := Qabs (y - v)) in *. set (Y' := Qabs y) in *.
  assert (K : u * Y' + D' <= (a + u + a * u) * V' + (1 + u) * h) by (change u with (1 # 16777216) in *; lra).
  pose proof (Qmult_le_compat_r _ _ C' K C). lra.
Qed.

(** ** Samples *)

Ltac nums :=
  change (pow2 30) with (1073741824 # 1) in *; change (pow2 (-30)) with (1 # 1073741824) in *;
  change u with (1 # 16777216) in *; change t with (1 # 1427247692705959881058285969449495136382746624) in *;
  change top with (85070591730234615865843651857942052864 # 1) in *.

(** The relative errors after one, two, ... operations. *)
Definition e1 : Q := u + (1 # 2 ^ 60).
Definition e2 : Q := 2 * u + (1 # 2 ^ 40).
Definition e3 : Q := 3 * u + (1 # 2 ^ 39).
Definition e4 : Q := 4 * u + (1 # 2 ^ 38).
Definition e5 : Q := 5 * u + (1 # 2 ^ 37).
Ltac errs :=
  unfold e1, e2, e3, e4, e5 in *; nums;
  change (1 # 2 ^ 60) with (1 # 1152921504606846976) in *; change (1 # 2 ^ 40) with (1 # 1099511627776) in *;
  change (1 # 2 ^ 39) with (1 # 549755813888) in *; change (1 # 2 ^ 38) with (1 # 274877906944) in *;
  change (1 # 2 ^ 37) with (1 # 137438953472) in *.

Lemma abs_pos_neq x : 0 < Qabs x -> ~ x == 0.
Proof. intros P E. rewrite E in P. now apply Qlt_irrefl in P. Qed.

Lemma abs_inv x : ~ x == 0 -> Qabs (1 / x) * Qabs x == 1.
Proof. intros N. rewrite <- Qabs_Qmult. setoid_replace (1 / x * x) with 1 by (field; exact N). reflexivity. Qed.

Lemma inv_bound x m r : 0 < m -> m * r == 1 -> m <= x -> forall y, y * x == 1 -> y <= r.
Proof.
  intros M MR MX y YX. destruct (Qlt_le_dec r y) as [L|]; [|assumption]. exfalso.
  assert (0 < r). { destruct (Qlt_le_dec 0 r); [assumption|]. nra. }
  nra.
Qed.

Lemma recip_near N c : pow2 (-30) <= Qabs N <= pow2 30 -> rounded c N ->
  ~ c == 0 /\ Qabs (c - N) <= e1 * Qabs N /\ Qabs c <= 2 * pow2 30 /\ Qabs (1 / c) <= 2 * pow2 30.
Proof.
  intros [L H] R. unfold rounded in R.
  assert (A : Qabs (c - N) <= e1 * Qabs N) by (errs; lra).
  pose proof (abs_near N c) as B. setoid_replace (N - c) with (- (c - N)) in B by ring. rewrite Qabs_opp in B.
  pose proof (abs_near c N) as C.
  assert (D : (1 # 2147483648) <= Qabs c) by (errs; lra).
  assert (NZ : ~ c == 0) by (apply abs_pos_neq; eapply Qlt_le_trans; [|exact D]; reflexivity).
  split; [exact NZ|]. split; [exact A|]. split; [errs; lra|].
  apply (inv_bound (Qabs c) (1 # 2147483648)); [reflexivity|reflexivity|exact D|now apply abs_inv].
Qed.

Lemma recip_error N c s : pow2 (-30) <= Qabs N <= pow2 30 -> rounded c N -> rounded s (1 / c) ->
  Qabs (s - 1 / N) <= e2 * Qabs (1 / N) + 0.
Proof.
  intros L R RS. destruct (recip_near N c L R) as (NC & A & B & _). destruct L as [L H].
  assert (NN : ~ N == 0) by (apply abs_pos_neq; eapply Qlt_le_trans; [|exact L]; reflexivity).
  pose proof (abs_inv c NC) as IC. pose proof (abs_inv N NN) as IN.
  assert (Q1 : Qabs (c * (1 / N) - 1) <= e1).
  { setoid_replace (c * (1 / N) - 1) with ((c - N) * (1 / N)) by (field; exact NN). rewrite Qabs_Qmult.
    pose proof (Qmult_le_compat_r _ _ (Qabs (1 / N)) A (Qabs_nonneg _)) as M.
    setoid_replace (e1 * Qabs N * Qabs (1 / N)) with e1 in M by (rewrite <- Qmult_assoc, (Qmult_comm (Qabs N)), IN; ring). exact M. }
  assert (Q2 : Qabs (s * c - 1) <= e1).
  { setoid_replace (s * c - 1) with ((s - 1 / c) * c) by (field; exact NC). rewrite Qabs_Qmult. unfold rounded in RS.
    pose proof (Qmult_le_compat_r _ _ (Qabs c) RS (Qabs_nonneg _)) as M.
    setoid_replace ((u * Qabs (1 / c) + t) * Qabs c) with (u * (Qabs (1 / c) * Qabs c) + t * Qabs c) in M by ring.
    rewrite IC in M. errs. lra. }
  set (q := c * (1 / N)) in *.
  assert (W : Qabs (s * N - 1) <= e2).
  { assert (E : Qabs q * Qabs (s * N - 1) == Qabs (s * c - q)).
    { rewrite <- Qabs_Qmult. apply Qabs_wd. unfold q. field. exact NN. }
    assert (F : Qabs (s * c - q) <= 2 * e1).
    { setoid_replace (s * c - q) with ((s * c - 1) + - (q - 1)) by ring. eapply Qle_trans; [apply Qabs_triangle|]. rewrite Qabs_opp. lra. }
    assert (G : 1 - e1 <= Qabs q).
    { pose proof (abs_near 1 q) as G. setoid_replace (1 - q) with (- (q - 1)) in G by ring. rewrite Qabs_opp in G.
      change (Qabs 1) with 1 in G. lra. }
    rewrite <- E in F. pose proof (Qmult_le_compat_r _ _ (Qabs (s * N - 1)) G (Qabs_nonneg _)) as M.
    pose proof (Qle_trans _ _ _ M F) as T. set (X := Qabs (s * N - 1)) in *. clearbody X. clear -T. errs. lra. }
  setoid_replace (s - 1 / N) with ((s * N - 1) * (1 / N)) by (field; exact NN). rewrite Qabs_Qmult.
  pose proof (Qmult_le_compat_r _ _ (Qabs (1 / N)) W (Qabs_nonneg _)). lra.
Qed.

Lemma mult_bound x y a b : Qabs x <= a -> Qabs y <= b -> Qabs (x * y) <= a * b.
Proof.
  intros A B. rewrite Qabs_Qmult. apply Qle_trans with (a * Qabs y).
  - apply Qmult_le_compat_r; [exact A|apply Qabs_nonneg].
  - rewrite (Qmult_comm a), (Qmult_comm a). apply Qmult_le_compat_r; [exact B|]. eapply Qle_trans; [apply Qabs_nonneg|exact A].
Qed.

Lemma grows y v a h B : Qabs (y - v) <= a * Qabs v + h -> 0 <= a <= 1 -> h <= 1 -> Qabs v <= B -> Qabs y <= 2 * B + 1.
Proof.
  intros E [A0 A] H V. pose proof (abs_near y v). pose proof (Qmult_le_compat_r _ _ (Qabs v) A (Qabs_nonneg _)). lra.
Qed.

Lemma inv_norm N : pow2 (-30) <= Qabs N <= pow2 30 -> ~ N == 0 /\ Qabs (1 / N) <= pow2 30.
Proof.
  intros [L H]. assert (NN : ~ N == 0) by (apply abs_pos_neq; eapply Qlt_le_trans; [|exact L]; reflexivity).
  split; [exact NN|]. apply (inv_bound (Qabs N) (pow2 (-30))); [reflexivity|reflexivity|exact L|now apply abs_inv].
Qed.

Lemma part_near N s a : ~ N == 0 -> Qabs (s - 1 / N) <= e2 * Qabs (1 / N) + 0 ->
  Qabs (a * s - a / N) <= e2 * Qabs (a / N).
Proof.
  intros NN E. setoid_replace (a * s - a / N) with ((s - 1 / N) * a) by (field; exact NN).
  setoid_replace (a / N) with (1 / N * a) by (field; exact NN). rewrite !Qabs_Qmult.
  pose proof (Qmult_le_compat_r _ _ (Qabs a) E (Qabs_nonneg _)). lra.
Qed.

Lemma scale_bound N s a : pow2 (-30) <= Qabs N <= pow2 30 -> Qabs (s - 1 / N) <= e2 * Qabs (1 / N) + 0 -> Qabs (a / N) <= pow2 40 ->
  Qabs (a * s) < top.
Proof.
  intros L E A. destruct (inv_norm N L) as [NN I]. pose proof (part_near _ _ a NN E) as P.
  assert (P' : Qabs (a * s - a / N) <= e2 * Qabs (a / N) + 0) by lra.
  pose proof (grows _ _ e2 0 _ P' ltac:(split; discriminate) ltac:(discriminate) A) as G.
  eapply Qle_lt_trans; [exact G|reflexivity].
Qed.

Lemma first_error N s a x : pow2 (-30) <= Qabs N <= pow2 30 -> Qabs (s - 1 / N) <= e2 * Qabs (1 / N) + 0 -> Qabs (a / N) <= pow2 40 ->
  rounded x (a * s) ->
  Qabs (x - a / N) <= e3 * Qabs (a / N) + t /\ Qabs (x * inject_Z 32767) < top.
Proof.
  intros L E A R. destruct (inv_norm N L) as [NN I].
  assert (R' : rounded x (s * a)) by (unfold rounded in *; now rewrite (Qmult_comm s a)).
  pose proof (step e2 0 _ _ _ _ ltac:(discriminate) ltac:(apply Qle_refl) E R') as S.
  assert (EQ : 1 / N * a == a / N) by (field; exact NN). rewrite EQ in S.
  assert (S' : Qabs (x - a / N) <= e3 * Qabs (a / N) + t).
  { pose proof (Qabs_nonneg (a / N)). set (X := Qabs (a / N)) in *. clearbody X. errs. lra. }
  split; [exact S'|].
  pose proof (grows _ _ _ _ _ S' ltac:(split; discriminate) ltac:(discriminate) A) as G.
  eapply Qle_lt_trans; [apply (mult_bound _ _ _ 32767 G)|reflexivity]. discriminate.
Qed.

Lemma second_error v x y k : Qabs (x - v) <= e3 * Qabs v + t -> Qabs v <= pow2 40 -> (Z.abs k <= 2 ^ 16)%Z ->
  rounded y (x * inject_Z 32767) ->
  Qabs (y - v * 32767) <= e4 * Qabs (v * 32767) + 65536 * t /\ Qabs (y * inject_Z k) < top.
Proof.
  intros E V K R. pose proof (step e3 t _ _ _ _ ltac:(discriminate) ltac:(discriminate) E R) as S.
  change (inject_Z 32767) with 32767 in S. change (Qabs 32767) with 32767 in S.
  assert (S' : Qabs (y - v * 32767) <= e4 * Qabs (v * 32767) + 65536 * t).
  { pose proof (Qabs_nonneg (v * 32767)). set (X := Qabs (v * 32767)) in *. clearbody X. errs. lra. }
  split; [exact S'|].
  assert (B : Qabs (v * 32767) <= pow2 40 * 32767) by (apply mult_bound; [exact V|discriminate]).
  pose proof (grows _ _ _ _ _ S' ltac:(split; discriminate) ltac:(discriminate) B) as G.
  assert (K' : Qabs (inject_Z k) <= inject_Z (2 ^ 16)) by (rewrite abs_inject, <- Zle_Qle; exact K).
  eapply Qle_lt_trans; [apply (mult_bound _ _ _ _ G K')|reflexivity].
Qed.

Lemma third_error v y z k : Qabs (y - v) <= e4 * Qabs v + 65536 * t -> (Z.abs k <= 2 ^ 16)%Z -> rounded z (y * inject_Z k) ->
  close_to 21 z (v * inject_Z k).
Proof.
  intros E K R. pose proof (step e4 (65536 * t) _ _ _ _ ltac:(discriminate) ltac:(discriminate) E R) as S.
  assert (K' : Qabs (inject_Z k) <= 65536) by (rewrite abs_inject; change 65536 with (inject_Z (2 ^ 16)); rewrite <- Zle_Qle; exact K).
  unfold close_to. change (pow2 (Z.opp 21)) with (1 # 2097152). change (pow2 (-100)) with (1 # 1267650600228229401496703205376).
  pose proof (Qabs_nonneg (v * inject_Z k)). set (X := Qabs (v * inject_Z k)) in *. clearbody X.
  set (C := Qabs (inject_Z k)) in *. clearbody C. clear -S K' H. errs. lra.
Qed.

Lemma sample_error norm k a b : usual_norm norm -> usual_sample norm a -> usual_sample norm b -> (Z.abs k <= 2 ^ 16)%Z ->
  let z := scaled_sample norm k (a, b) in
  (finite32 (fst z) /\ close_to 21 (real32 (fst z)) (sample_value norm k a)) /\
  (finite32 (snd z) /\ close_to 21 (real32 (snd z)) (sample_value norm k b)).
Proof.
  intros [FN L] [FA A] [FB B] K. unfold scaled_sample. cbv zeta.
  assert (TN : Qabs (real64 norm) < top) by (eapply Qle_lt_trans; [apply L|reflexivity]).
  destruct (narrow_real norm FN TN) as [FC RC]. destruct (recip_near _ _ L RC) as (NC & _ & _ & IC).
  destruct (over_real a b _ FA FB FC NC ltac:(eapply Qle_lt_trans; [exact IC|reflexivity])) as (s & FS & RS & O).
  pose proof (recip_error _ _ _ L RC RS) as E.
  destruct (O (scale_bound _ _ _ L E A) (scale_bound _ _ _ L E B)) as [[F1 R1] [F1' R1']]. clear O.
  destruct (complex_over (a, b) (narrow norm)) as [x x']. cbn [fst snd] in *.
  destruct (first_error _ _ _ _ L E A R1) as (E1 & T1). destruct (first_error _ _ _ _ L E B R1') as (E1' & T1').
  destruct (int_exact 32767 ltac:(reflexivity)) as [FI RI]. destruct (int_exact k ltac:(lia)) as [FK RK].
  destruct (times_real x x' _ F1 F1' FI ltac:(now rewrite RI) ltac:(now rewrite RI)) as [[F2 R2] [F2' R2']].
  destruct (complex_times (x, x') (int32_f 32767)) as [y y']. cbn [fst snd] in *. unfold rounded in R2, R2'. rewrite RI in R2, R2'.
  destruct (second_error _ _ _ k E1 A K R2) as [E2 T2]. destruct (second_error _ _ _ k E1' B K R2') as [E2' T2'].
  destruct (times_real y y' _ F2 F2' FK ltac:(now rewrite RK) ltac:(now rewrite RK)) as [[F3 R3] [F3' R3']].
  unfold rounded in R3, R3'. rewrite RK in R3, R3'.
  unfold sample_value. split; (split; [assumption|]); [now apply (third_error _ _ _ _ E2 K)|now apply (third_error _ _ _ _ E2' K)].
Qed.
