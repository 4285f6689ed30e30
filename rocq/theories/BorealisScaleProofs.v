(** Proofs about the arithmetic of BorealisScale.v: every operation rounds to within
    half a unit. *)
From Coq Require Import ZArith List Bool Lia QArith Qabs Lqa Qfield.
From Verif Require Import Base FloatBits FloatSpec FloatBitsProofs FloatRoundProofs BorealisTime BorealisTimeProofs BorealisConvert
  BorealisConvertNumberProofs BorealisScale BorealisScaleSpec.
Import ListNotations.
Open Scope Z_scope.

(** ** Bit patterns *)

Lemma pattern32 s e r : s = 0 \/ s = 1 -> 0 <= e -> e = 0 /\ 0 <= r \/ 2 ^ 23 <= r -> r <= 2 ^ 24 ->
  e * 2 ^ 23 + r < 255 * 2 ^ 23 ->
  let b := s * 2 ^ 31 + (e * 2 ^ 23 + r) in
  finite32 b /\ f32_sign b = s /\ f32_val b = signed s (r * 2 ^ e).
Proof.
  intros Hs He Hr Hr' HL b. unfold finite32.
  assert (V : forall e' m, 0 <= e' < 255 -> 0 <= m < 2 ^ 23 -> b = s * 2 ^ 31 + e' * 2 ^ 23 + m ->
    (if e' =? 0 then m else m + 2 ^ 23) * 2 ^ (Z.max e' 1 - 1) = r * 2 ^ e ->
    (0 <= b < 2 ^ 32 /\ f32_exp b <> 255) /\ f32_sign b = s /\ f32_val b = signed s (r * 2 ^ e)).
  { intros e' m E M B V. destruct (f32_fields s e' m Hs ltac:(lia) M) as (F1 & F2 & F3). rewrite <- B in F1, F2, F3.
    rewrite F1, F2. split; [split; [clearbody b; lia|lia]|]. split; [reflexivity|].
    unfold f32_val. rewrite F1, F2, F3. unfold signed. rewrite <- V. destruct (s =? 0); ring. }
  destruct (Z.lt_ge_cases r (2 ^ 23)) as [L|L]; [|destruct (Z.eq_dec r (2 ^ 24)) as [->|N]].
  - assert (e = 0) by lia. subst e. apply (V 0 r); [lia|lia|unfold b; lia|]. reflexivity.
  - apply (V (e + 2) 0); [lia|lia|unfold b; lia|]. replace (e + 2 =? 0) with false by lia.
    replace (Z.max (e + 2) 1 - 1) with (1 + e) by lia. rewrite Z.pow_add_r by lia. lia.
  - apply (V (e + 1) (r - 2 ^ 23)); [lia|lia|unfold b; lia|]. replace (e + 1 =? 0) with false by lia.
    replace (Z.max (e + 1) 1 - 1) with e by lia. f_equal. lia.
Qed.

(** The rounding of [make32] and [make64]: the step, the place of the result. *)
Lemma rounding p n d : 0 < p -> 0 <= n -> 0 < d ->
  let e := Z.max 0 (Z.log2 (n / d) - p) in
  let r := round_div n (d * 2 ^ e) in
  0 <= e /\ (e = 0 /\ 0 <= r \/ 2 ^ p <= r) /\ r <= 2 ^ (p + 1) /\
  2 * Z.abs (r * 2 ^ e * d - n) <= d * 2 ^ e /\ (e = 0 \/ d * 2 ^ e * 2 ^ p <= n) /\ (n = 0 \/ e = 0 \/ 2 ^ (e + p) <= n / d).
Proof.
  intros Hp Hn Hd e r. assert (He : 0 <= e) by (unfold e; lia).
  pose proof (pow_pos e He) as PE. assert (D : 0 < d * 2 ^ e) by nia.
  pose proof (round_div_near n (d * 2 ^ e) D) as RN. cbv zeta in RN. fold r in RN.
  assert (Q0 : 0 <= n / d) by (apply Z.div_pos; lia).
  pose proof (Z.div_mod n d ltac:(lia)) as DM. pose proof (Z.mod_pos_bound n d Hd) as MB.
  assert (R0 : 0 <= r) by nia.
  assert (B : n < d * 2 ^ e * 2 ^ (p + 1)).
  { assert (n / d < 2 ^ (e + (p + 1))).
    { destruct (Z.eq_dec (n / d) 0) as [->|NZ]; [apply pow_pos; lia|]. destruct (log2_bounds (n / d) ltac:(lia)) as [_ U].
      eapply Z.lt_le_trans; [exact U|]. replace (2 * 2 ^ Z.log2 (n / d)) with (2 ^ (1 + Z.log2 (n / d))).
      - apply Z.pow_le_mono_r; [lia|]. unfold e. lia.
      - rewrite Z.pow_add_r; [reflexivity|lia|apply Z.log2_nonneg]. }
    rewrite Z.pow_add_r in H by lia. nia. }
  assert (RU : r <= 2 ^ (p + 1)). { assert (r < 2 ^ (p + 1) + 1); [|lia]. pose proof (pow_pos (p + 1) ltac:(lia)). nia. }
  assert (HE : e = 0 \/ 2 ^ (e + p) <= n / d).
  { destruct (Z.eq_dec e 0) as [|NE]; [now left|right]. assert (e + p = Z.log2 (n / d)) as -> by (unfold e in *; lia).
    apply Z.log2_spec. destruct (Z.eq_dec (n / d) 0) as [E|]; [|lia]. exfalso. apply NE. unfold e. rewrite E. cbn. lia. }
  assert (HL : e = 0 \/ d * 2 ^ e * 2 ^ p <= n).
  { destruct HE as [|HE]; [now left|right]. rewrite Z.pow_add_r in HE by lia. nia. }
  split; [exact He|]. split; [|split; [exact RU|split; [nia|split; [exact HL|tauto]]]].
  destruct HL as [|HL]; [left; lia|right]. pose proof (pow_pos p ltac:(lia)). assert (2 ^ p < r + 1); [nia|lia].
Qed.

Lemma make32_val s n d : s = 0 \/ s = 1 -> 0 <= n -> 0 < d -> n < 2 ^ 276 * d ->
  let b := make32 s n d in
  finite32 b /\ f32_sign b = s /\
  exists m, f32_val b = signed s m /\ 0 <= m /\ (2 * Z.abs (m * d - n) <= d \/ 2 ^ 24 * Z.abs (m * d - n) <= n).
Proof.
  intros Hs Hn Hd HB b. destruct (rounding 23 n d eq_refl Hn Hd) as (He & HR & HU & HA & HL & HQ).
  unfold b, make32. set (e := Z.max 0 (Z.log2 (n / d) - 23)) in *. set (r := round_div n (d * 2 ^ e)) in *.
  pose proof (pow_pos e He) as PE.
  assert (E : e <= 252).
  { destruct HQ as [-> | [HQ | HQ]].
    - unfold e. rewrite Z.div_0_l by lia. cbn. lia.
    - lia.
    - destruct (Z.lt_ge_cases 252 e); [|lia]. exfalso.
      assert (n / d < 2 ^ 276) by (apply Z.div_lt_upper_bound; lia).
      assert (2 ^ 276 <= 2 ^ (e + 23)) by (apply Z.pow_le_mono_r; lia). lia. }
  change (2 ^ (23 + 1)) with (2 ^ 24) in HU.
  rewrite Z.min_l by lia. destruct (pattern32 s e r Hs He HR HU ltac:(lia)) as (F & S & V).
  split; [exact F|]. split; [exact S|]. exists (r * 2 ^ e). split; [exact V|]. split; [destruct HR; nia|].
  destruct HL as [Z|HL]; [left; rewrite Z in *; lia|right].
  change (2 ^ 24) with (2 * 2 ^ 23). nia.
Qed.

(** Multiples of the step are exact. *)
Lemma make32_exact s m j : s = 0 \/ s = 1 -> 0 <= m < 2 ^ 24 -> 0 <= j -> m * 2 ^ j < 2 ^ 276 ->
  f32_val (make32 s (m * 2 ^ j) 1) = signed s (m * 2 ^ j).
Proof.
  intros Hs Hm Hj HB. pose proof (pow_pos j Hj) as PJ. set (n := m * 2 ^ j) in *. assert (Hn : 0 <= n) by (unfold n; nia).
  destruct (rounding 23 n 1 eq_refl Hn eq_refl) as (He & HR & HU & HA & HL & HQ). unfold make32.
  rewrite Z.div_1_r in *. set (e := Z.max 0 (Z.log2 n - 23)) in *. rewrite Z.mul_1_l in *. set (r := round_div n (2 ^ e)) in *.
  pose proof (pow_pos e He) as PE.
  assert (E : e <= 252).
  { destruct HQ as [HQ | [HQ | HQ]]; [|lia|].
    - unfold e. rewrite HQ. cbn. lia.
    - destruct (Z.lt_ge_cases 252 e); [|lia]. exfalso.
      assert (2 ^ 276 <= 2 ^ (e + 23)) by (apply Z.pow_le_mono_r; lia). lia. }
  assert (EJ : e <= j).
  { destruct (Z.eq_dec m 0) as [M|M]; [unfold e, n; rewrite M; cbn; lia|].
    assert (Z.log2 n < 24 + j); [|unfold e; lia]. apply Z.log2_lt_pow2; [unfold n; nia|].
    rewrite Z.pow_add_r by lia. unfold n. nia. }
  change (2 ^ (23 + 1)) with (2 ^ 24) in HU.
  rewrite Z.min_l by lia. destruct (pattern32 s e r Hs He HR HU ltac:(lia)) as (_ & _ & ->). f_equal.
  assert (N : n = m * 2 ^ (j - e) * 2 ^ e) by (rewrite <- Z.mul_assoc, <- Z.pow_add_r by lia; unfold n; do 2 f_equal; lia).
  assert (r = m * 2 ^ (j - e)) as ->; [|now rewrite <- N].
  unfold r. rewrite N at 1. apply round_div_unique; [exact PE|]. lia.
Qed.

Lemma units_val b : f32_val b = signed (f32_sign b) (units b).
Proof. apply f32_val_sig. Qed.
Lemma units_form b : 0 <= b < 2 ^ 32 -> f32_exp b <> 255 ->
  0 <= sig32 b < 2 ^ 24 /\ 0 <= 149 - pos32 b <= 253 /\ units b = sig32 b * 2 ^ (149 - pos32 b).
Proof.
  intros HB HF. destruct (f32_split b HB) as (_ & E & M & _). unfold sig32, pos32. split; [destruct (f32_exp b =? 0); lia|].
  split; [lia|reflexivity].
Qed.
Lemma units_range b : finite32 b -> 0 <= units b < 2 ^ 277.
Proof.
  intros [HB HF]. destruct (units_form b HB HF) as (S & P & ->). pose proof (pow_pos (149 - pos32 b) ltac:(lia)).
  assert (2 ^ (149 - pos32 b) <= 2 ^ 253) by (apply Z.pow_le_mono_r; lia). change (2 ^ 277) with (2 ^ 24 * 2 ^ 253). nia.
Qed.
Lemma finite_flags b : finite32 b -> is_nan b = false /\ is_inf b = false.
Proof. intros [_ HF]. unfold is_nan, is_inf, special32. replace (f32_exp b =? 255) with false by lia. auto. Qed.
Lemma zero_units b : finite32 b -> is_zero b = (units b =? 0).
Proof.
  intros [HB HF]. destruct (f32_split b HB) as (_ & E & M & _). unfold is_zero, units, sig32, pos32.
  pose proof (pow_pos (149 - (150 - Z.max (f32_exp b) 1)) ltac:(lia)) as PP.
  destruct (Z.eqb_spec (f32_exp b) 0) as [Z|N]; cbn [andb].
  - destruct (Z.eqb_spec (f32_man b) 0) as [->|N]; [now rewrite Z.mul_0_l|]. symmetry. apply Z.eqb_neq. nia.
  - symmetry. apply Z.eqb_neq. nia.
Qed.
Lemma sign_bit b : finite32 b -> f32_sign b = 0 \/ f32_sign b = 1.
Proof. intros [HB _]. now destruct (f32_split b HB). Qed.

(** ** Values as rational numbers *)
Open Scope Q_scope.

Definition u : Q := 1 # (2 ^ 24).
Definition t : Q := / inject_Z (2 ^ 150).
Definition sgn (s : Z) : Q := if (s =? 0)%Z then 1 else -1.
Definition top : Q := inject_Z (2 ^ 126).
(** [y] is [v] rounded. *)
Definition rounded (y v : Q) : Prop := Qabs (y - v) <= u * Qabs v + t.

Lemma p149 : 0 < inject_Z (2 ^ 149).
Proof. reflexivity. Qed.

Lemma signed_q s m : inject_Z (signed s m) == sgn s * inject_Z m.
Proof. unfold signed, sgn. destruct (s =? 0)%Z; [ring|]. rewrite inject_Z_opp. ring. Qed.

Lemma sgn_abs s x : Qabs (sgn s * x) == Qabs x.
Proof. rewrite Qabs_Qmult. unfold sgn. destruct (s =? 0)%Z; [change (Qabs 1) with 1|change (Qabs (-1)) with 1]; ring. Qed.

Lemma inject_pos n : (0 < n)%Z -> 0 < inject_Z n.
Proof. intros H. change 0 with (inject_Z 0). now rewrite <- Zlt_Qlt. Qed.
Lemma inject_nonneg n : (0 <= n)%Z -> 0 <= inject_Z n.
Proof. intros H. change 0 with (inject_Z 0). now rewrite <- Zle_Qle. Qed.
Lemma abs_inject z : Qabs (inject_Z z) = inject_Z (Z.abs z).
Proof. reflexivity. Qed.

Lemma div_le a b c : 0 < c -> a <= b -> a / c <= b / c.
Proof. intros C H. apply Qmult_le_compat_r; [exact H|]. apply Qlt_le_weak, Qinv_lt_0_compat, C. Qed.

Lemma make32_real s n d : (s = 0 \/ s = 1)%Z -> (0 <= n)%Z -> (0 < d)%Z -> (n < 2 ^ 276 * d)%Z ->
  finite32 (make32 s n d) /\ rounded (real32 (make32 s n d)) (sgn s * (inject_Z n / (inject_Z d * inject_Z (2 ^ 149)))).
Proof.
  intros Hs Hn Hd HB. destruct (make32_val s n d Hs Hn Hd HB) as (F & _ & m & V & M0 & HA). split; [exact F|].
  unfold rounded, real32. rewrite V, signed_q. pose proof p149 as P. set (P149 := inject_Z (2 ^ 149)) in *.
  assert (T : t == (1 # 2) / P149) by (vm_compute; reflexivity).
  pose proof (inject_pos d Hd) as D. pose proof (inject_nonneg n Hn) as N.
  assert (DP : 0 < inject_Z d * P149) by (apply Qmult_lt_0_compat; assumption).
  assert (DN : ~ inject_Z d == 0) by (intros E; rewrite E in D; now apply Qlt_irrefl in D).
  assert (PN : ~ P149 == 0) by (intros E; rewrite E in P; now apply Qlt_irrefl in P).
  setoid_replace (sgn s * inject_Z m / P149 - sgn s * (inject_Z n / (inject_Z d * P149)))
    with (sgn s * ((inject_Z (m * d - n)) / (inject_Z d * P149))).
  2:{ unfold Z.sub. rewrite inject_Z_plus, inject_Z_mult, inject_Z_opp. field. auto. }
  rewrite !sgn_abs. unfold Qdiv. rewrite !Qabs_Qmult, abs_inject, (Qabs_pos (/ _)), (Qabs_pos (inject_Z n)) by
    (try exact N; apply Qlt_le_weak, Qinv_lt_0_compat, DP).
  assert (I : 0 <= / (inject_Z d * P149)) by (apply Qlt_le_weak, Qinv_lt_0_compat, DP).
  assert (NI : 0 <= inject_Z n * / (inject_Z d * P149)) by (apply Qmult_le_0_compat; assumption).
  destruct HA as [HA|HA].
  - apply Qle_trans with t.
    + rewrite T. setoid_replace ((1 # 2) / P149) with ((1 # 2) * inject_Z d * / (inject_Z d * P149)) by (field; auto).
      apply Qmult_le_compat_r; [|exact I]. rewrite Zle_Qle, inject_Z_mult in HA. change (inject_Z 2) with 2 in HA. lra.
    + assert (0 <= u * (inject_Z n * / (inject_Z d * P149))); [|lra]. apply Qmult_le_0_compat; [discriminate|exact NI].
  - assert (inject_Z (Z.abs (m * d - n)) <= u * inject_Z n).
    { rewrite Zle_Qle, inject_Z_mult in HA. change (inject_Z (2 ^ 24)) with (16777216 # 1) in HA.
      unfold u. change (1 # 2 ^ 24) with (1 # 16777216). lra. }
    assert (0 <= t) by discriminate.
    pose proof (Qmult_le_compat_r _ _ _ H I). lra.
Qed.

Lemma real_units b : real32 b == sgn (f32_sign b) * (inject_Z (units b) / inject_Z (2 ^ 149)).
Proof. unfold real32. rewrite units_val, signed_q. unfold Qdiv. ring. Qed.

Lemma abs_units b : finite32 b -> Qabs (real32 b) == inject_Z (units b) / inject_Z (2 ^ 149).
Proof.
  intros F. rewrite real_units, sgn_abs. apply Qabs_pos. apply Qle_shift_div_l; [exact p149|]. rewrite Qmult_0_l.
  apply inject_nonneg. now apply units_range.
Qed.

Lemma sign_xor_bit x y : finite32 x -> finite32 y ->
  (sign_xor x y = 0 \/ sign_xor x y = 1)%Z /\ sgn (sign_xor x y) == sgn (f32_sign x) * sgn (f32_sign y).
Proof.
  intros HX HY. unfold sign_xor. destruct (sign_bit x HX) as [-> | ->], (sign_bit y HY) as [-> | ->];
    (split; [vm_compute; auto|reflexivity]).
Qed.

(** A product. *)
Lemma mul32_real x y : finite32 x -> finite32 y -> Qabs (real32 x * real32 y) < top ->
  finite32 (mul32 x y) /\ rounded (real32 (mul32 x y)) (real32 x * real32 y).
Proof.
  intros HX HY HB. unfold mul32. destruct (finite_flags x HX) as [-> ->]. destruct (finite_flags y HY) as [-> ->]. cbn [orb].
  destruct (sign_xor_bit x y HX HY) as [SB SG]. pose proof (units_range x HX) as UX. pose proof (units_range y HY) as UY.
  pose proof p149 as P. assert (PN : ~ inject_Z (2 ^ 149) == 0) by discriminate.
  rewrite Qabs_Qmult, (abs_units x HX), (abs_units y HY) in HB.
  destruct (make32_real (sign_xor x y) (units x * units y) (2 ^ 149) SB ltac:(nia) ltac:(reflexivity)) as [F R].
  - set (p := inject_Z (2 ^ 149)) in *.
    assert (H : inject_Z (units x * units y) < top * (p * p)).
    { rewrite inject_Z_mult. setoid_replace (inject_Z (units x) * inject_Z (units y)) with (inject_Z (units x) / p * (inject_Z (units y) / p) * (p * p)) by (field; auto).
      apply Qmult_lt_compat_r; [now apply Qmult_lt_0_compat|exact HB]. }
    unfold top, p in H. rewrite <- !inject_Z_mult, <- Zlt_Qlt in H. change (2 ^ 276)%Z with (2 ^ 126 * 2 ^ 149 * 2)%Z. nia.
  - split; [exact F|]. unfold rounded in *. rewrite SG in R.
    setoid_replace (real32 x * real32 y) with
      (sgn (f32_sign x) * sgn (f32_sign y) * (inject_Z (units x * units y) / (inject_Z (2 ^ 149) * inject_Z (2 ^ 149)))); [exact R|].
    rewrite !real_units, inject_Z_mult. field. auto.
Qed.

(** A quotient. *)
Lemma div32_real x y : finite32 x -> finite32 y -> ~ real32 y == 0 -> Qabs (real32 x / real32 y) < top ->
  finite32 (div32 x y) /\ rounded (real32 (div32 x y)) (real32 x / real32 y).
Proof.
  intros HX HY NZ HB. unfold div32. destruct (finite_flags x HX) as [-> ->]. destruct (finite_flags y HY) as [-> ->]. cbn [orb].
  rewrite (zero_units y HY). pose proof (units_range x HX) as UX. pose proof (units_range y HY) as UY.
  assert (UZ : (0 < units y)%Z).
  { destruct (Z.eq_dec (units y) 0) as [E|]; [|lia]. exfalso. apply NZ. rewrite real_units, E. unfold Qdiv. ring. }
  destruct (Z.eqb_spec (units y) 0); [lia|]. destruct (sign_xor_bit x y HX HY) as [SB SG].
  pose proof p149 as P. assert (PN : ~ inject_Z (2 ^ 149) == 0) by discriminate.
  assert (SN : ~ sgn (f32_sign y) == 0) by (unfold sgn; destruct (f32_sign y =? 0)%Z; discriminate).
  assert (S2 : / sgn (f32_sign y) == sgn (f32_sign y)) by (unfold sgn; destruct (f32_sign y =? 0)%Z; reflexivity).
  pose proof (inject_pos _ UZ) as UP. assert (UN : ~ inject_Z (units y) == 0) by (intros E; rewrite E in UP; now apply Qlt_irrefl in UP).
  assert (EQ : real32 x / real32 y == sgn (f32_sign x) * sgn (f32_sign y) * (inject_Z (units x) / inject_Z (units y))).
  { rewrite !real_units. rewrite <- S2 at 2. field. auto. }
  destruct (make32_real (sign_xor x y) (units x * 2 ^ 149) (units y) SB ltac:(lia) UZ) as [F R].
  - rewrite EQ, <- SG, sgn_abs, Qabs_pos in HB.
    + set (p := inject_Z (units y)) in *.
      assert (H : inject_Z (units x) < top * p).
      { setoid_replace (inject_Z (units x)) with (inject_Z (units x) / p * p) by (field; auto). now apply Qmult_lt_compat_r. }
      unfold top, p in H. rewrite <- !inject_Z_mult, <- Zlt_Qlt in H. change (2 ^ 276)%Z with (2 ^ 126 * 2 ^ 149 * 2)%Z. nia.
    + apply Qle_shift_div_l; [exact UP|]. rewrite Qmult_0_l. apply inject_nonneg. lia.
  - split; [exact F|]. unfold rounded in *. rewrite SG in R. rewrite EQ.
    setoid_replace (inject_Z (units x) / inject_Z (units y)) with
      (inject_Z (units x * 2 ^ 149) / (inject_Z (units y) * inject_Z (2 ^ 149))); [exact R|].
    rewrite !inject_Z_mult. field. auto.
Qed.

(** Zeros. *)
Definition zero_bits (z : Z) : Prop := (z = 0 \/ z = 2 ^ 31)%Z.
Lemma zero_facts z : zero_bits z -> finite32 z /\ units z = 0%Z /\ real32 z == 0 /\ is_zero z = true.
Proof. intros [-> | ->]; (split; [split; [lia|discriminate]|]); vm_compute; auto. Qed.
Lemma mul_zero x z : finite32 x -> zero_bits z -> zero_bits (mul32 x z) /\ zero_bits (mul32 z x).
Proof.
  intros HX Z. destruct (zero_facts z Z) as (FZ & UZ & _). unfold mul32.
  destruct (finite_flags x HX) as [-> ->]. destruct (finite_flags z FZ) as [-> ->]. cbn [orb].
  destruct (sign_xor_bit x z HX FZ) as [S1 _]. destruct (sign_xor_bit z x FZ HX) as [S2 _].
  rewrite UZ, Z.mul_0_r, Z.mul_0_l. unfold zero_bits.
  destruct S1 as [-> | ->], S2 as [-> | ->]; vm_compute; auto.
Qed.
Lemma neg_zero z : zero_bits z -> zero_bits (neg32 z).
Proof. unfold zero_bits. intros [-> | ->]; vm_compute; auto. Qed.
Lemma signed_abs s z : (s = 0 \/ s = 1)%Z -> (0 < z)%Z -> signed s z <> 0%Z /\ Z.abs (signed s z) = z /\ (if signed s z <? 0 then 1 else 0)%Z = s.
Proof.
  intros [-> | ->] H; unfold signed; cbn [Z.eqb]; (split; [lia|]; split; [lia|]).
  - now destruct (Z.ltb_spec z 0); [lia|].
  - now destruct (Z.ltb_spec (- z) 0); [|lia].
Qed.
Lemma add_zero x z : finite32 x -> zero_bits z -> finite32 (add32 x z) /\ real32 (add32 x z) == real32 x.
Proof.
  intros HX Z. destruct (zero_facts z Z) as (FZ & UZ & _). unfold add32.
  destruct (finite_flags x HX) as [-> ->]. destruct (finite_flags z FZ) as [-> ->]. cbn [orb]. rewrite UZ.
  assert (signed (f32_sign z) 0 = 0%Z) as -> by (unfold signed; destruct (f32_sign z =? 0)%Z; reflexivity).
  rewrite Z.add_0_r. pose proof (units_range x HX) as UX. pose proof (sign_bit x HX) as SX.
  destruct (Z.eq_dec (units x) 0) as [E|N].
  - rewrite E. assert (signed (f32_sign x) 0 = 0%Z) as -> by (unfold signed; destruct (f32_sign x =? 0)%Z; reflexivity).
    cbn [Z.eqb]. rewrite (real_units x), E. destruct ((f32_sign x =? 1)%Z && (f32_sign z =? 1)%Z).
    + destruct (zero_facts (2 ^ 31) ltac:(now right)) as (F & _ & R & _). split; [exact F|]. rewrite R. unfold Qdiv. ring.
    + destruct (zero_facts 0 ltac:(now left)) as (F & _ & R & _). split; [exact F|]. rewrite R. unfold Qdiv. ring.
  - destruct (signed_abs (f32_sign x) (units x) SX ltac:(lia)) as (S1 & S2 & S3).
    destruct (Z.eqb_spec (signed (f32_sign x) (units x)) 0); [contradiction|]. rewrite S2, S3.
    destruct HX as [B F]. destruct (units_form x B F) as (A1 & A2 & A3).
    assert (UB : (units x < 2 ^ 277)%Z) by lia.
    assert (V : f32_val (make32 (f32_sign x) (units x) 1) = f32_val x /\ finite32 (make32 (f32_sign x) (units x) 1)).
    { destruct (Z.lt_ge_cases (units x) (2 ^ 276)) as [L|L].
      - split; [|now apply make32_val; try lia]. rewrite (units_val x), A3 in *. apply make32_exact; lia.
      - assert (X : make32 (f32_sign x) (units x) 1 = x); [|rewrite X; split; [reflexivity|now split]].
        clear S1 S2 S3 n N Z UZ FZ.
        destruct (f32_split x B) as (_ & E & M & SP).
        assert (E254 : f32_exp x = 254%Z).
        { destruct (Z.eq_dec (f32_exp x) 254); [assumption|]. exfalso.
          rewrite A3 in L. assert (2 ^ (149 - pos32 x) <= 2 ^ 252)%Z by (apply Z.pow_le_mono_r; unfold pos32; lia).
          change (2 ^ 276)%Z with (2 ^ 24 * 2 ^ 252)%Z in L. pose proof (BorealisConvertNumberProofs.pow_pos (149 - pos32 x) ltac:(lia)). nia. }
        assert (U : units x = ((f32_man x + 2 ^ 23) * 2 ^ 253)%Z).
        { rewrite A3. unfold sig32, pos32. rewrite E254. reflexivity. }
        unfold make32. rewrite Z.div_1_r, Z.mul_1_l.
        assert (LG : Z.log2 (units x) = 276%Z).
        { apply Z.log2_unique; [lia|]. split; [exact L|exact UB]. }
        rewrite LG. change (Z.max 0 (276 - 23)) with 253%Z.
        assert (round_div (units x) (2 ^ 253) = (f32_man x + 2 ^ 23)%Z) as ->.
        { rewrite U. apply round_div_unique; [reflexivity|]. assert (0 < 2 ^ 253)%Z by reflexivity. lia. }
        rewrite Z.min_l by lia. lia. }
    destruct V as [V FV]. split; [exact FV|]. unfold real32. rewrite V. reflexivity.
Qed.

(** ** Narrowing *)

Lemma narrow_val b : finite64 b -> (Z.abs (f64_val b) < 2 ^ 1200)%Z ->
  finite32 (narrow b) /\
  (2 * Z.abs (f32_val (narrow b) * 2 ^ 925 - f64_val b) <= 2 ^ 925 \/ 2 ^ 24 * Z.abs (f32_val (narrow b) * 2 ^ 925 - f64_val b) <= Z.abs (f64_val b))%Z.
Proof.
  intros [HB HF] HT. destruct (narrow_finite b HB HF) as (S & C). destruct (narrow_range b HB) as [NR _].
  destruct (rounded_range b HB HF) as (R0 & R1 & R2). pose proof (shift_gap b) as SG.
  assert (X1 : (1 <= ex64 b)%Z) by (unfold ex64; lia).
  assert (H29 : (29 <= shift b)%Z) by (unfold shift; lia).
  pose proof (BorealisConvertNumberProofs.pow_pos (shift b) ltac:(lia)) as PS.
  pose proof (BorealisConvertNumberProofs.pow_pos (ex64 b - 1) ltac:(lia)) as PX.
  pose proof (round_div_near (FloatRoundProofs.sig64 b) (2 ^ shift b) PS) as RN. cbv zeta in RN.
  change (round_div (FloatRoundProofs.sig64 b) (2 ^ shift b)) with (round_shift (FloatRoundProofs.sig64 b) (shift b)) in RN.
  destruct (sig64_range b HB) as (G1 & G2 & _). rewrite f64_val_mag in *.
  set (r := round_shift (FloatRoundProofs.sig64 b) (shift b)) in *.
  assert (AB : Z.abs ((if f64_sign b =? 0 then 1 else -1) * (FloatRoundProofs.sig64 b * 2 ^ (ex64 b - 1))) = (FloatRoundProofs.sig64 b * 2 ^ (ex64 b - 1))%Z).
  { destruct (f64_sign b =? 0)%Z; nia. }
  rewrite AB in *.
  destruct C as [(C1 & C2 & C3 & _)|(C1 & _)].
  - split; [split; assumption|].
    assert (E : Z.abs (f32_val (narrow b) * 2 ^ 925 - (if f64_sign b =? 0 then 1 else -1) * (FloatRoundProofs.sig64 b * 2 ^ (ex64 b - 1))) =
      (Z.abs (r * 2 ^ shift b - FloatRoundProofs.sig64 b) * 2 ^ (ex64 b - 1))%Z).
    { rewrite f32_val_mag, S, C3.
      assert (EE : (r * 2 ^ gap b * 2 ^ 925 = r * 2 ^ shift b * 2 ^ (ex64 b - 1))%Z).
      { rewrite <- !Z.mul_assoc. f_equal. rewrite (Z.mul_comm (2 ^ gap b)), (Z.mul_comm (2 ^ shift b)). symmetry. exact SG. }
      rewrite <- (Z.abs_eq (2 ^ (ex64 b - 1))) at 2 by lia. rewrite <- Z.abs_mul, Z.mul_sub_distr_r, <- EE.
      set (a := (r * 2 ^ gap b)%Z). set (c := (2 ^ 925)%Z). clearbody a c. destruct (f64_sign b =? 0)%Z; lia. }
    rewrite E.
    assert (N2 : (2 * Z.abs (r * 2 ^ shift b - FloatRoundProofs.sig64 b) <= 2 ^ shift b)%Z) by lia.
    destruct (Z.lt_ge_cases (ex64 b) 897) as [L|L].
    + left. destruct (R2 L) as [_ G0]. rewrite G0, Z.mul_1_r in SG. rewrite <- SG, Z.mul_assoc, (Z.mul_comm (2 ^ (ex64 b - 1))). apply Z.mul_le_mono_nonneg_r; lia.
    + right. destruct (R1 L) as (_ & G & SH). rewrite Z.mul_assoc. apply Z.mul_le_mono_nonneg_r; [lia|].
      rewrite SH in N2 at 2. set (A := Z.abs (r * 2 ^ shift b - FloatRoundProofs.sig64 b)) in *. clearbody A. clear - N2 G. lia.
  - exfalso. assert (L : (897 <= ex64 b)%Z).
    { destruct (Z.lt_ge_cases (ex64 b) 897) as [L|]; [|assumption]. destruct (R2 L). lia. }
    destruct (R1 L) as (_ & G & _). assert (1150 <= ex64 b)%Z by (unfold gap in C1; lia).
    assert (2 ^ 1149 <= 2 ^ (ex64 b - 1))%Z by (apply Z.pow_le_mono_r; lia).
    change (2 ^ 1200)%Z with (2 ^ 51 * 2 ^ 1149)%Z in HT. assert (P : (0 < 2 ^ 1149)%Z) by reflexivity.
    assert (2 ^ 51 * 2 ^ 1149 <= FloatRoundProofs.sig64 b * 2 ^ (ex64 b - 1))%Z; [|lia].
    apply Z.mul_le_mono_nonneg; [discriminate| |lia|assumption]. apply Z.le_trans with (2 ^ 52)%Z; [discriminate|exact G].
Qed.

Lemma q_close z v c d : (2 * Z.abs (z - v) <= c \/ 2 ^ 24 * Z.abs (z - v) <= Z.abs v)%Z -> (0 < d)%Z -> (0 < c)%Z ->
  Qabs (inject_Z z / inject_Z d - inject_Z v / inject_Z d) <= u * Qabs (inject_Z v / inject_Z d) + (1 # 2) * (inject_Z c / inject_Z d).
Proof.
  intros H D C. pose proof (inject_pos d D) as DP.
  assert (I : 0 < / inject_Z d) by (now apply Qinv_lt_0_compat).
  setoid_replace (inject_Z z / inject_Z d - inject_Z v / inject_Z d) with (inject_Z (z - v) * / inject_Z d).
  2:{ unfold Z.sub, Qdiv. rewrite inject_Z_plus, inject_Z_opp. ring. }
  unfold Qdiv. rewrite !Qabs_Qmult, !abs_inject, (Qabs_pos (/ _)) by lra.
  set (i := / inject_Z d) in *. clearbody i.
  assert (A : inject_Z (Z.abs (z - v)) <= u * inject_Z (Z.abs v) + (1 # 2) * inject_Z c).
  { pose proof (inject_nonneg (Z.abs v) ltac:(lia)). pose proof (inject_pos c C).
    destruct H as [H|H]; rewrite Zle_Qle, inject_Z_mult in H.
    - change (inject_Z 2) with 2 in H. assert (0 <= u * inject_Z (Z.abs v)) by (apply Qmult_le_0_compat; [discriminate|assumption]). lra.
    - change (inject_Z (2 ^ 24)) with (16777216 # 1) in H. unfold u. change (1 # 2 ^ 24) with (1 # 16777216). lra. }
  pose proof (Qmult_le_compat_r _ _ i A ltac:(lra)). lra.
Qed.

Lemma narrow_real b : finite64 b -> Qabs (real64 b) < top ->
  finite32 (narrow b) /\ rounded (real32 (narrow b)) (real64 b).
Proof.
  intros F HT. assert (V : (Z.abs (f64_val b) < 2 ^ 1200)%Z).
  { unfold real64, Qdiv in HT. rewrite Qabs_Qmult, abs_inject, (Qabs_pos (/ _)) in HT by discriminate.
    apply Qmult_lt_compat_r with (z := inject_Z (2 ^ 1074)) in HT; [|reflexivity].
    assert (N : ~ inject_Z (2 ^ 1074) == 0) by discriminate.
    rewrite <- Qmult_assoc, (Qmult_comm (/ _)), Qmult_inv_r, Qmult_1_r in HT by exact N.
    unfold top in HT. rewrite <- inject_Z_mult, <- Zlt_Qlt in HT. exact HT. }
  destruct (narrow_val b F V) as [F32 H]. split; [exact F32|].
  pose proof (q_close _ _ _ (2 ^ 1074) H eq_refl eq_refl) as Q. unfold rounded, real64.
  assert (R : real32 (narrow b) == inject_Z (f32_val (narrow b) * 2 ^ 925) / inject_Z (2 ^ 1074)).
  { unfold real32. rewrite inject_Z_mult.
    assert (inject_Z (2 ^ 1074) == inject_Z (2 ^ 925) * inject_Z (2 ^ 149)) as -> by (rewrite <- inject_Z_mult; reflexivity).
    field. split; discriminate. }
  rewrite R. assert (T : t == (1 # 2) * (inject_Z (2 ^ 925) / inject_Z (2 ^ 1074))) by (vm_compute; reflexivity).
  rewrite T. exact Q.
Qed.
