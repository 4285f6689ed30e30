(** Lemmas about the float32/float64 conversions of FloatBits.v. *)
From Coq Require Import ZArith List Bool Lia ZifyBool ZifyNat.
From Verif Require Import FloatBits FloatSpec.
Open Scope Z_scope.
Ltac Zify.zify_post_hook ::= Z.div_mod_to_equations.

Lemma f32_split b :
  0 <= b < 2 ^ 32 ->
  (f32_sign b = 0 \/ f32_sign b = 1) /\ 0 <= f32_exp b < 256 /\
  0 <= f32_man b < 2 ^ 23 /\
  b = f32_sign b * 2 ^ 31 + f32_exp b * 2 ^ 23 + f32_man b.
Proof. unfold f32_sign, f32_exp, f32_man. intros H. lia. Qed.

Lemma f64_split b :
  0 <= b < 2 ^ 64 ->
  (f64_sign b = 0 \/ f64_sign b = 1) /\ 0 <= f64_exp b < 2048 /\
  0 <= f64_man b < 2 ^ 52 /\
  b = f64_sign b * 2 ^ 63 + f64_exp b * 2 ^ 52 + f64_man b.
Proof. unfold f64_sign, f64_exp, f64_man. intros H. lia. Qed.

Lemma f64_fields s e m :
  s = 0 \/ s = 1 -> 0 <= e < 2048 -> 0 <= m < 2 ^ 52 ->
  f64_sign (s * 2 ^ 63 + e * 2 ^ 52 + m) = s /\
  f64_exp (s * 2 ^ 63 + e * 2 ^ 52 + m) = e /\
  f64_man (s * 2 ^ 63 + e * 2 ^ 52 + m) = m.
Proof. unfold f64_sign, f64_exp, f64_man. intros. repeat split; lia. Qed.

Lemma f32_fields s e m :
  s = 0 \/ s = 1 -> 0 <= e < 256 -> 0 <= m < 2 ^ 23 ->
  f32_sign (s * 2 ^ 31 + e * 2 ^ 23 + m) = s /\
  f32_exp (s * 2 ^ 31 + e * 2 ^ 23 + m) = e /\
  f32_man (s * 2 ^ 31 + e * 2 ^ 23 + m) = m.
Proof. unfold f32_sign, f32_exp, f32_man. intros. repeat split; lia. Qed.

(** Fields of the widened number. *)
Lemma widen_fields b :
  0 <= b < 2 ^ 32 ->
  let s := f32_sign b in let e := f32_exp b in let m := f32_man b in
  exists E M,
    widen b = s * 2 ^ 63 + E * 2 ^ 52 + M /\ 0 <= E < 2048 /\ 0 <= M < 2 ^ 52 /\
    ((e = 255 /\ m = 0 /\ E = 2047 /\ M = 0) \/
     (e = 255 /\ m <> 0 /\ E = 2047 /\ M = (m mod 2 ^ 22 + 2 ^ 22) * 2 ^ 29) \/
     (e = 0 /\ m = 0 /\ E = 0 /\ M = 0) \/
     (e = 0 /\ m <> 0 /\ exists k, 0 <= k <= 22 /\ 2 ^ k <= m < 2 ^ (k + 1) /\
        E = k + 874 /\ M = (m - 2 ^ k) * 2 ^ (52 - k)) \/
     (1 <= e <= 254 /\ E = e + 896 /\ M = m * 2 ^ 29)).
Proof.
  intros H s e m. destruct (f32_split b H) as (Hs & He & Hm & _).
  fold s in Hs. fold e in He. fold m in Hm.
  unfold widen. fold s e m.
  destruct (e =? 255) eqn:E1.
  { destruct (m =? 0) eqn:E2.
    - exists 2047, 0. repeat split; try lia.
    - exists 2047, ((m mod 2 ^ 22 + 2 ^ 22) * 2 ^ 29). repeat split; try lia. }
  destruct (e =? 0) eqn:E3.
  { destruct (m =? 0) eqn:E2.
    - exists 0, 0. repeat split; try lia.
    - assert (Hk := Z.log2_spec m ltac:(lia)). set (k := Z.log2 m) in *.
      assert (0 <= k) by apply Z.log2_nonneg.
      assert (k < 23) by (apply Z.log2_lt_pow2; lia).
      replace (Z.succ k) with (k + 1) in Hk by lia.
      exists (k + 874), ((m - 2 ^ k) * 2 ^ (52 - k)).
      assert (HP : 2 ^ k * 2 ^ (52 - k) = 2 ^ 52).
      { rewrite <- Z.pow_add_r by lia. f_equal. lia. }
      assert (HQ : 0 < 2 ^ (52 - k)) by (apply Z.pow_pos_nonneg; lia).
      rewrite Z.pow_add_r in Hk by lia.
      split; [reflexivity|]. split; [lia|]. split; [nia|].
      right; right; right; left. split; [lia|]. split; [lia|].
      exists k. rewrite Z.pow_add_r by lia. repeat split; try lia. }
  exists (e + 896), (m * 2 ^ 29). repeat split; try lia.
Qed.

Lemma round_shift_exact q sh : 0 <= sh -> round_shift (q * 2 ^ sh) sh = q.
Proof.
  intros H. assert (0 < 2 ^ sh) by (apply Z.pow_pos_nonneg; lia).
  unfold round_shift. rewrite Z.div_mul, Z.mod_mul by lia.
  replace (2 * 0 <? 2 ^ sh) with true by lia. reflexivity.
Qed.

(** Narrowing a widened number: identity, except that the quiet bit is set. *)
Lemma narrow_widen_gen b :
  0 <= b < 2 ^ 32 ->
  narrow (widen b) = if f32_snan b then b + 2 ^ 22 else b.
Proof.
  intros H. destruct (widen_fields b H) as (E & M & HW & HE & HM & HC).
  destruct (f32_split b H) as (Hs & He & Hm & Hb).
  destruct (f64_fields _ E M Hs HE HM) as (F1 & F2 & F3).
  rewrite <- HW in F1, F2, F3.
  unfold narrow. rewrite F1, F2, F3. unfold f32_snan.
  set (s := f32_sign b) in *. set (e := f32_exp b) in *. set (m := f32_man b) in *.
  clearbody s e m. clear F1 F2 F3 HW.
  destruct HC as [(C1 & C2 & C3 & C4)|[(C1 & C2 & C3 & C4)|[(C1 & C2 & C3 & C4)|
    [(C1 & C2 & k & C3 & C4 & C5 & C6)|(C1 & C2 & C3)]]]].
  - subst E M e m. change (255 =? 255) with true. change (2047 =? 2047) with true.
    change (0 =? 0) with true. cbn [negb andb]. cbv iota. lia.
  - subst E e. change (2047 =? 2047) with true. change (255 =? 255) with true.
    replace (M =? 0) with false by lia. replace (m =? 0) with false by lia. cbn [negb andb].
    destruct (m <? 2 ^ 22) eqn:EM; subst M.
    + rewrite Z.div_mul by lia. lia.
    + rewrite Z.div_mul by lia. lia.
  - subst E M e m. change (0 =? 2047) with false. change (0 =? 255) with false. cbn [andb].
    change (0 =? 0) with true. cbv iota.
    change (round_shift 0 (Z.max 29 (926 - Z.max 0 1))) with 0.
    change (Z.max (Z.max 0 1 - 897) 0) with 0. lia.
  - subst E e. change (0 =? 255) with false. cbn [andb].
    replace (k + 874 =? 2047) with false by lia. replace (k + 874 =? 0) with false by lia.
    assert (HP : 2 ^ k * 2 ^ (52 - k) = 2 ^ 52).
    { rewrite <- Z.pow_add_r by lia. f_equal. lia. }
    replace (Z.max (k + 874) 1) with (k + 874) by lia.
    replace (Z.max 29 (926 - (k + 874))) with (52 - k) by lia.
    replace (M + 2 ^ 52) with (m * 2 ^ (52 - k)) by (subst M; lia).
    rewrite round_shift_exact by lia.
    replace (Z.max (k + 874 - 897) 0) with 0 by lia. lia.
  - subst E M. replace (e =? 255) with false by lia. cbn [andb].
    replace (e + 896 =? 2047) with false by lia. replace (e + 896 =? 0) with false by lia.
    replace (Z.max (e + 896) 1) with (e + 896) by lia.
    replace (Z.max 29 (926 - (e + 896))) with 29 by lia.
    replace (m * 2 ^ 29 + 2 ^ 52) with ((m + 2 ^ 23) * 2 ^ 29) by lia.
    rewrite round_shift_exact by lia.
    replace (Z.max (e + 896 - 897) 0) with (e - 1) by lia. lia.
Qed.

Lemma widen_range b : 0 <= b < 2 ^ 32 -> 0 <= widen b < 2 ^ 64.
Proof.
  intros H. destruct (widen_fields b H) as (E & M & HW & HE & HM & HC).
  destruct (f32_split b H) as (Hs & _). rewrite HW. lia.
Qed.

Lemma round_shift_bounds n sh :
  0 <= n -> 0 <= sh -> 0 <= round_shift n sh <= n / 2 ^ sh + 1.
Proof.
  intros Hn Hsh. assert (0 < 2 ^ sh) by (apply Z.pow_pos_nonneg; lia).
  unfold round_shift. assert (0 <= n / 2 ^ sh) by (apply Z.div_pos; lia).
  set (q := n / 2 ^ sh) in *. clearbody q.
  destruct (2 * (n mod 2 ^ sh) <? 2 ^ sh); [lia|].
  destruct (2 ^ sh <? 2 * (n mod 2 ^ sh)); lia.
Qed.

(** The result of narrowing is a 32-bit pattern and never a signalling NaN. *)
Lemma narrow_range b : 0 <= b < 2 ^ 64 -> 0 <= narrow b < 2 ^ 32 /\ f32_snan (narrow b) = false.
Proof.
  intros H. destruct (f64_split b H) as (Hs & He & Hm & _).
  unfold narrow. set (s := f64_sign b) in *. set (e := f64_exp b) in *.
  set (m := f64_man b) in *. clearbody s e m.
  assert (HF : forall x, 0 <= x <= 255 * 2 ^ 23 ->
    0 <= s * 2 ^ 31 + x < 2 ^ 32 /\ f32_snan (s * 2 ^ 31 + x) = false).
  { intros x Hx. split; [lia|]. unfold f32_snan, f32_exp, f32_man.
    destruct (Z.eq_dec x (255 * 2 ^ 23)) as [->|].
    - replace ((s * 2 ^ 31 + 255 * 2 ^ 23) mod 2 ^ 23 =? 0) with true by lia.
      cbn [negb]. now rewrite andb_false_r.
    - replace (((s * 2 ^ 31 + x) / 2 ^ 23) mod 2 ^ 8 =? 255) with false by lia. reflexivity. }
  destruct (e =? 2047).
  - destruct (m =? 0).
    + apply HF. lia.
    + set (p := (m / 2 ^ 29) mod 2 ^ 22 + 2 ^ 22).
      assert (2 ^ 22 <= p < 2 ^ 23) by (unfold p; lia). clearbody p.
      split; [lia|]. unfold f32_snan.
      assert (F3 : f32_man (s * 2 ^ 31 + 255 * 2 ^ 23 + p) = p) by (apply f32_fields; lia).
      rewrite F3.
      replace (p <? 2 ^ 22) with false by lia. rewrite ?andb_false_r. reflexivity.
  - apply HF. split; [|lia].
    pose proof (round_shift_bounds (if e =? 0 then m else m + 2 ^ 52)
                  (Z.max 29 (926 - Z.max e 1))) as HR.
    assert (0 <= (if e =? 0 then m else m + 2 ^ 52)) by (destruct (e =? 0); lia).
    set (r := round_shift _ _) in *. clearbody r. lia.
Qed.

Lemma narrow_narrow b : 0 <= b < 2 ^ 64 -> narrow (widen (narrow b)) = narrow b.
Proof.
  intros H. destruct (narrow_range b H) as [H1 H2].
  rewrite narrow_widen_gen by auto. now rewrite H2.
Qed.

(** ** Values: what the conversions mean *)

(** Widening a finite number is exact: 2^-149 = 2^925 * 2^-1074. *)
Lemma widen_exact b :
  0 <= b < 2 ^ 32 -> f32_exp b <> 255 ->
  f64_val (widen b) = f32_val b * 2 ^ 925 /\ f64_exp (widen b) <> 2047 /\
  f64_sign (widen b) = f32_sign b.
Proof.
  intros H HN. destruct (widen_fields b H) as (E & M & HW & HE & HM & HC).
  destruct (f32_split b H) as (Hs & He & Hm & Hb).
  destruct (f64_fields _ E M Hs HE HM) as (F1 & F2 & F3).
  rewrite <- HW in F1, F2, F3.
  unfold f64_val, f32_val. rewrite F1, F2, F3.
  set (s := f32_sign b) in *. set (e := f32_exp b) in *. set (m := f32_man b) in *.
  clearbody s e m. clear F1 F2 F3 HW.
  set (sg := if s =? 0 then 1 else -1). clearbody sg.
  destruct HC as [(C1 & C2 & C3 & C4)|[(C1 & C2 & C3 & C4)|[(C1 & C2 & C3 & C4)|
    [(C1 & C2 & k & C3 & C4 & C5 & C6)|(C1 & C2 & C3)]]]]; try lia.
  - subst E M e m. change (0 =? 0) with true. cbv iota. split; [lia|]. split; [lia|reflexivity].
  - subst e. split; [|split; [lia|reflexivity]].
    change (0 =? 0) with true. cbv iota. replace (E =? 0) with false by lia.
    replace (Z.max E 1 - 1) with (k + 873) by lia. change (Z.max 0 1 - 1) with 0.
    assert (HP : 2 ^ k * 2 ^ (52 - k) = 2 ^ 52).
    { rewrite <- Z.pow_add_r by lia. f_equal. lia. }
    replace (M + 2 ^ 52) with (m * 2 ^ (52 - k)) by (subst M; lia).
    replace (sg * (m * 2 ^ (52 - k)) * 2 ^ (k + 873))
      with (sg * m * (2 ^ (52 - k) * 2 ^ (k + 873))) by ring.
    rewrite <- Z.pow_add_r by lia. replace (52 - k + (k + 873)) with 925 by lia.
    rewrite Z.pow_0_r. ring.
  - split; [|split; [lia|reflexivity]].
    replace (E =? 0) with false by lia. replace (e =? 0) with false by lia.
    replace (Z.max E 1 - 1) with (e + 895) by lia. replace (Z.max e 1 - 1) with (e - 1) by lia.
    subst M. replace (m * 2 ^ 29 + 2 ^ 52) with ((m + 2 ^ 23) * 2 ^ 29) by lia.
    replace (sg * ((m + 2 ^ 23) * 2 ^ 29) * 2 ^ (e + 895))
      with (sg * (m + 2 ^ 23) * (2 ^ 29 * 2 ^ (e + 895))) by ring.
    rewrite <- Z.pow_add_r by lia.
    replace (29 + (e + 895)) with (e - 1 + 925) by lia.
    rewrite Z.pow_add_r by lia. ring.
Qed.
