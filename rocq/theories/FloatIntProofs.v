(** The double made of an integer is the nearest one. *)
From Coq Require Import ZArith List Bool Lia ZifyBool ZifyNat.
From Verif Require Import FloatBits FloatSpec FloatBitsProofs FloatRoundProofs FloatInt.
Open Scope Z_scope.
Ltac Zify.zify_post_hook ::= Z.div_mod_to_equations.

Definition mag64 (c : Z) : Z := sig64 c * 2 ^ (ex64 c - 1).

(** Every finite double is a multiple of the gap, or lies below [2^52] gaps. *)
Lemma mag64_grid c g : 0 <= c < 2 ^ 64 -> 0 <= g ->
  (exists k, mag64 c = k * 2 ^ g) \/ mag64 c < 2 ^ 52 * 2 ^ g.
Proof.
  intros Hc Hg. destruct (sig64_range c Hc) as (Hm & _ & He). unfold mag64.
  set (x := ex64 c - 1) in *. set (m := sig64 c) in *.
  assert (Hx : 0 <= x) by lia. clearbody x m.
  destruct (Z.le_gt_cases g x) as [HLx|HLx].
  - left. exists (m * 2 ^ (x - g)). rewrite <- Z.mul_assoc, <- pow_split by lia. do 2 f_equal. lia.
  - right. replace g with (1 + (g - 1 - x) + x) by lia. rewrite !pow_split by lia.
    assert (0 < 2 ^ x) by (apply Z.pow_pos_nonneg; lia).
    assert (1 <= 2 ^ (g - 1 - x)) by (pose proof (Z.pow_pos_nonneg 2 (g - 1 - x)); lia).
    apply Z.lt_le_trans with (2 ^ 53 * 2 ^ x); [apply Z.mul_lt_mono_pos_r; lia|].
    replace (2 ^ 52 * (2 ^ 1 * 2 ^ (g - 1 - x) * 2 ^ x)) with (2 ^ 53 * 2 ^ (g - 1 - x) * 2 ^ x) by ring.
    apply Z.mul_le_mono_nonneg_r; lia.
Qed.

Lemma mag64_nonneg c : 0 <= c < 2 ^ 64 -> 0 <= mag64 c.
Proof.
  intros Hc. destruct (sig64_range c Hc) as (Hm & _ & He). unfold mag64.
  apply Z.mul_nonneg_nonneg; [lia|]. apply Z.pow_nonneg. lia.
Qed.

Section Whole.
Variable n : Z.
Hypothesis Hn : 0 < n.
Let k := Z.log2 n.
Let q := if k <=? 52 then n * 2 ^ (52 - k) else round_shift n (k - 52).
Let G := 2 ^ (k + 1022).
Let U := 2 ^ 1074.

Lemma k_nonneg : 0 <= k.
Proof. apply Z.log2_nonneg. Qed.
Lemma k_range : 2 ^ k <= n < 2 ^ (k + 1).
Proof. pose proof (Z.log2_spec n Hn) as H. fold k in H. now rewrite <- Z.add_1_r in H. Qed.
Lemma U_pos : 0 < U.
Proof. apply Z.pow_pos_nonneg; lia. Qed.
Lemma G_pos : 0 < G.
Proof. pose proof k_nonneg. apply Z.pow_pos_nonneg; lia. Qed.

Lemma q_exact : k <= 52 -> q * G = n * U.
Proof.
  intros H. pose proof k_nonneg. unfold q. replace (k <=? 52) with true by lia. unfold G, U.
  rewrite <- Z.mul_assoc, <- pow_split by lia. do 2 f_equal. lia.
Qed.
Lemma G_shift : 52 < k -> G = 2 ^ (k - 52) * U.
Proof. intros H. unfold G, U. rewrite <- pow_split by lia. f_equal. lia. Qed.
Lemma q_round : 52 < k -> q = round_shift n (k - 52).
Proof. intros H. unfold q. replace (k <=? 52) with false by lia. reflexivity. Qed.

Lemma q_range : 2 ^ 52 <= q <= 2 ^ 53.
Proof.
  pose proof k_nonneg as K. pose proof k_range as R. destruct (Z.le_gt_cases k 52) as [H|H].
  - unfold q. replace (k <=? 52) with true by lia.
    assert (P : 0 < 2 ^ (52 - k)) by (apply Z.pow_pos_nonneg; lia).
    assert (E1 : 2 ^ k * 2 ^ (52 - k) = 2 ^ 52) by (rewrite <- pow_split by lia; f_equal; lia).
    assert (E2 : 2 ^ (k + 1) * 2 ^ (52 - k) = 2 ^ 53) by (rewrite <- pow_split by lia; f_equal; lia).
    set (A := 2 ^ (52 - k)) in *. set (B := 2 ^ k) in *. set (C := 2 ^ (k + 1)) in *. clearbody A B C.
    split; [rewrite <- E1|rewrite <- E2]; apply Z.mul_le_mono_nonneg_r; lia.
  - rewrite q_round by lia. set (sh := k - 52). assert (Hs : 0 <= sh) by (unfold sh; lia).
    assert (E1 : 2 ^ k = 2 ^ 52 * 2 ^ sh) by (rewrite <- pow_split by lia; f_equal; unfold sh; lia).
    assert (E2 : 2 ^ (k + 1) = 2 ^ 53 * 2 ^ sh) by (rewrite <- pow_split by lia; f_equal; unfold sh; lia).
    rewrite E1, E2 in R. assert (P : 0 < 2 ^ sh) by (apply Z.pow_pos_nonneg; lia).
    pose proof (fun j => round_shift_nearest n sh j Hs) as N. cbv zeta in N.
    destruct (N (2 ^ 52)) as [N1 _]. destruct (N (2 ^ 53)) as [N2 _].
    set (r := round_shift n sh) in *. set (S := 2 ^ sh) in *. clearbody r S. clear N E1 E2. nia.
Qed.

(** The nearest magnitude, even in a tie. *)
Lemma whole_nearest c : 0 <= c < 2 ^ 64 ->
  Z.abs (n * U - q * G) <= Z.abs (n * U - mag64 c) /\
  (Z.abs (n * U - q * G) = Z.abs (n * U - mag64 c) -> mag64 c <> q * G -> Z.even q = true).
Proof.
  intros Hc. pose proof k_nonneg as K. pose proof k_range as R. pose proof U_pos as PU. pose proof G_pos as PG.
  destruct (Z.le_gt_cases k 52) as [H|H].
  - rewrite q_exact by lia. split; [lia|]. intros E D. exfalso. lia.
  - pose proof (mag64_grid c (k + 1022) Hc ltac:(lia)) as GR. fold G in GR.
    rewrite (G_shift H) in *. pose proof (q_round H) as Q. pose proof q_range as QR.
    set (sh := k - 52) in *. assert (Hs : 0 <= sh) by (unfold sh; lia).
    assert (E1 : 2 ^ k = 2 ^ 52 * 2 ^ sh) by (rewrite <- pow_split by lia; f_equal; unfold sh; lia).
    rewrite E1 in R. assert (P : 0 < 2 ^ sh) by (apply Z.pow_pos_nonneg; lia).
    pose proof (fun j => round_shift_nearest n sh j Hs) as N. cbv zeta in N. rewrite <- Q in N.
    set (S := 2 ^ sh) in *. set (M := mag64 c) in *. clearbody M S q U. clear Q.
    assert (X : forall j, Z.abs (n * U - j * (S * U)) = Z.abs (n - j * S) * U).
    { intros j. rewrite <- (Z.abs_eq U) at 3 by lia. rewrite <- Z.abs_mul. f_equal. ring. }
    rewrite (X q). destruct GR as [(j & ->)|GR].
    + rewrite (X j). destruct (N j) as [N1 N2]. split; [apply Z.mul_le_mono_nonneg_r; lia|].
      intros E D. apply N2; [|congruence]. apply Z.mul_reg_r in E; lia.
    + destruct (N (2 ^ 52)) as [N1 _].
      assert (B : Z.abs (n - q * S) * U <= (n - 2 ^ 52 * S) * U) by (apply Z.mul_le_mono_nonneg_r; lia).
      assert ((n - 2 ^ 52 * S) * U = n * U - 2 ^ 52 * (S * U)) by ring.
      split; [lia|]. intros; exfalso; lia.
Qed.

Lemma whole_huge : 2047 * 2 ^ 52 <= (k + 1022) * 2 ^ 52 + q <-> 2 ^ 1024 - 2 ^ 970 <= n.
Proof.
  pose proof k_nonneg as K. pose proof k_range as R. pose proof q_range as Q.
  assert (A : 2 ^ 1024 - 2 ^ 970 = (2 ^ 54 - 1) * 2 ^ 970) by (vm_compute; reflexivity).
  destruct (Z.lt_trichotomy k 1023) as [H|[H|H]].
  - split; [lia|]. intros L. exfalso. assert (2 ^ (k + 1) <= 2 ^ 1023) by (apply Z.pow_le_mono_r; lia).
    assert (2 ^ 1023 <= 2 ^ 1024 - 2 ^ 970) by (vm_compute; discriminate). lia.
  - assert (E : (2047 * 2 ^ 52 <= (k + 1022) * 2 ^ 52 + q) <-> q = 2 ^ 53) by lia.
    rewrite E, A. clear E A. pose proof (q_round ltac:(lia)) as QR. rewrite H in *. clear H.
    change (1023 - 52) with 971 in QR. change (1023 + 1) with 1024 in R.
    pose proof (fun j => round_shift_nearest n 971 j ltac:(lia)) as N. cbv zeta in N. rewrite <- QR in N.
    assert (E1 : 2 ^ 971 = 2 * 2 ^ 970) by (vm_compute; reflexivity).
    assert (E2 : 2 ^ 1024 = 2 ^ 53 * 2 ^ 971) by (vm_compute; reflexivity).
    rewrite E2 in R. rewrite E1 in *. assert (P : 0 < 2 ^ 970) by (apply Z.pow_pos_nonneg; lia).
    set (H := 2 ^ 970) in *. clearbody H q. clear E1 E2 QR K. split.
    + intros ->. destruct (N (2 ^ 53 - 1)) as [N1 _]. lia.
    + intros L. destruct (Z.eq_dec q (2 ^ 53)) as [E|E]; [exact E|]. exfalso.
      destruct (N (2 ^ 53)) as [N1 N2].
      assert (D : q = 2 ^ 53 - 1 \/ q <= 2 ^ 53 - 2) by lia. destruct D as [->|D].
      * assert (C : Z.even (2 ^ 53 - 1) = true) by (apply N2; lia). vm_compute in C. discriminate C.
      * nia.
  - split; [|lia]. intros _. assert (2 ^ 1024 <= 2 ^ k) by (apply Z.pow_le_mono_r; lia).
    assert (0 < 2 ^ 970) by (apply Z.pow_pos_nonneg; lia). lia.
Qed.

(** The bits. *)
Lemma whole_bits s : s = 0 \/ s = 1 -> (k + 1022) * 2 ^ 52 + q < 2047 * 2 ^ 52 ->
  let b := s * 2 ^ 63 + ((k + 1022) * 2 ^ 52 + q) in
  0 <= b < 2 ^ 64 /\ f64_sign b = s /\ f64_exp b <> 2047 /\ mag64 b = q * G /\ Z.even (f64_man b) = Z.even q.
Proof.
  intros Hs HB b. pose proof k_nonneg as K. pose proof q_range as Q.
  assert (D : q < 2 ^ 53 \/ q = 2 ^ 53) by lia. destruct D as [D|D].
  - destruct (f64_fields s (k + 1023) (q - 2 ^ 52) Hs ltac:(lia) ltac:(lia)) as (F1 & F2 & F3).
    replace (s * 2 ^ 63 + (k + 1023) * 2 ^ 52 + (q - 2 ^ 52)) with b in * by lia.
    unfold mag64, sig64, ex64, G. rewrite F1, F2, F3. replace (k + 1023 =? 0) with false by lia.
    replace (Z.max (k + 1023) 1 - 1) with (k + 1022) by lia. repeat split; try lia.
    rewrite Z.even_sub. change (Z.even (2 ^ 52)) with true. now destruct (Z.even q).
  - destruct (f64_fields s (k + 1024) 0 Hs ltac:(lia) ltac:(lia)) as (F1 & F2 & F3).
    replace (s * 2 ^ 63 + (k + 1024) * 2 ^ 52 + 0) with b in * by lia.
    unfold mag64, sig64, ex64, G. rewrite F1, F2, F3. replace (k + 1024 =? 0) with false by lia.
    replace (Z.max (k + 1024) 1 - 1) with (1 + (k + 1022)) by lia. rewrite pow_split, D by lia.
    repeat split; try lia.
Qed.
End Whole.

Lemma double_huge z : double_of_int z = None <-> 2 ^ 1024 - 2 ^ 970 <= Z.abs z.
Proof.
  unfold double_of_int. destruct (z =? 0) eqn:E.
  - split; [discriminate|]. intros H. exfalso. assert (z = 0) by lia. subst z. vm_compute in H. now apply H.
  - cbv zeta. rewrite <- (whole_huge (Z.abs z)) by lia. destruct (_ <? _) eqn:B; split; intros H; try discriminate H; lia || reflexivity.
Qed.

Lemma double_nearest z b : double_of_int z = Some b ->
  0 <= b < 2 ^ 64 /\ f64_exp b <> 2047 /\ (f64_sign b = 1 <-> z < 0) /\
  (Z.abs z <= 2 ^ 53 -> f64_val b = z * 2 ^ 1074) /\
  (forall c, 0 <= c < 2 ^ 64 -> f64_exp c <> 2047 ->
     Z.abs (z * 2 ^ 1074 - f64_val b) <= Z.abs (z * 2 ^ 1074 - f64_val c) /\
     (Z.abs (z * 2 ^ 1074 - f64_val b) = Z.abs (z * 2 ^ 1074 - f64_val c) ->
      f64_val b <> f64_val c -> Z.even (f64_man b) = true)).
Proof.
  unfold double_of_int. destruct (z =? 0) eqn:E.
  - intros [= <-]. assert (z = 0) by lia. subst z. change (f64_val 0) with 0. change (f64_exp 0) with 0. change (f64_sign 0) with 0. change (f64_man 0) with 0.
    repeat split; try lia.
  - cbv zeta. set (n := Z.abs z). assert (Hn : 0 < n) by lia.
    destruct (_ <? _) eqn:B; [|discriminate]. intros X.
    set (s := if z <? 0 then 1 else 0).
    assert (Hs : s = 0 \/ s = 1) by (unfold s; destruct (z <? 0); auto).
    pose proof (whole_bits n Hn s Hs ltac:(lia)) as W. cbv zeta in W.
    replace (if z <? 0 then 2 ^ 63 else 0) with (s * 2 ^ 63) in X by (unfold s; destruct (z <? 0); reflexivity).
    assert (Hb : s * 2 ^ 63 + ((Z.log2 n + 1022) * 2 ^ 52 + (if Z.log2 n <=? 52 then n * 2 ^ (52 - Z.log2 n) else round_shift n (Z.log2 n - 52))) = b) by congruence.
    rewrite Hb in W. clear X Hb. destruct W as (W1 & W2 & W3 & W4 & W5).
    pose proof (whole_nearest n Hn) as N. pose proof (q_range n Hn) as Q. pose proof (q_exact n) as QE.
    set (q := if Z.log2 n <=? 52 then n * 2 ^ (52 - Z.log2 n) else round_shift n (Z.log2 n - 52)) in *.
    pose proof (G_pos n) as PG.
    set (G := 2 ^ (Z.log2 n + 1022)) in *.
    assert (PU : 0 < 2 ^ 1074) by (apply Z.pow_pos_nonneg; lia). set (U := 2 ^ 1074) in *. 
    assert (sg : f64_val b = (if s =? 0 then 1 else -1) * (q * G)).
    { rewrite f64_val_mag, W2. fold (mag64 b). now rewrite W4. }
    assert (zz : z = (if s =? 0 then 1 else -1) * n) by (unfold s, n; destruct (z <? 0) eqn:Z0; cbn [Z.eqb]; lia).
    assert (W6 : s = 1 <-> z < 0) by (unfold s; destruct (z <? 0) eqn:Z0; lia).
    assert (QG : 0 < q * G) by nia. assert (NU : 0 < n * U) by nia.
    repeat (split; [tauto || congruence || (rewrite W2; exact W6)|]). split.
    + intros L. assert (k : n <= 2 ^ 53) by lia. rewrite sg, zz, <- Z.mul_assoc. f_equal.
      destruct (Z.eq_dec n (2 ^ 53)) as [En|En].
      * unfold G, q, U. rewrite En. vm_compute. reflexivity.
      * apply QE. pose proof (Z.log2_spec n Hn) as [L1 _]. destruct (Z.le_gt_cases (Z.log2 n) 52) as [C|C]; [exact C|].
        assert (2 ^ 53 <= 2 ^ Z.log2 n) by (apply Z.pow_le_mono_r; lia). lia.
    + intros c Hc Fc. pose proof (mag64_nonneg c Hc) as MC. destruct (N c Hc) as [N1 N2]. 
      destruct (N 0 ltac:(lia)) as [N3 N4]. change (mag64 0) with 0 in N3, N4. rewrite W5.
      rewrite sg, zz, (f64_val_mag c). fold (mag64 c). destruct (f64_split c Hc) as (Sc & _).
      set (M := mag64 c) in *. clearbody M. clear QE N W1 W3 W4 E B sg zz W6 Hn.
      destruct Hs as [-> | ->]; destruct Sc as [Sc|Sc]; rewrite Sc; cbn [Z.eqb];
        rewrite ?Z.mul_1_l; set (nU := n * U) in *; set (qG := q * G) in *;
        rewrite <- ?Z.mul_assoc; fold nU; clearbody nU qG; (split; [lia|]); intros E D.
      * apply N2; lia.
      * destruct (Z.eq_dec M 0); [apply N4; lia|exfalso; lia].
      * destruct (Z.eq_dec M 0); [apply N4; lia|exfalso; lia].
      * apply N2; lia.
Qed.

(** ** The nearest double is unique *)

Lemma mag64_inj b c : 0 <= b < 2 ^ 64 -> 0 <= c < 2 ^ 64 -> f64_sign b = f64_sign c -> mag64 b = mag64 c -> b = c.
Proof.
  intros Hb Hc HS HM. destruct (f64_split b Hb) as (_ & B1 & B2 & B3). destruct (f64_split c Hc) as (_ & C1 & C2 & C3).
  assert (L : forall x y, 0 <= x < 2 ^ 64 -> 0 <= y < 2 ^ 64 -> mag64 x = mag64 y -> ~ ex64 x < ex64 y).
  { clear. intros x y Hx Hy E L. destruct (sig64_range x Hx) as (X1 & _ & X3). destruct (sig64_range y Hy) as (Y1 & Y2 & Y3).
    unfold mag64 in E. assert (f64_exp y <> 0) by (unfold ex64 in *; lia). specialize (Y2 H).
    replace (ex64 y - 1) with ((ex64 y - ex64 x) + (ex64 x - 1)) in E by lia. rewrite pow_split, Z.mul_assoc in E by lia.
    assert (P : 0 < 2 ^ (ex64 x - 1)) by (apply Z.pow_pos_nonneg; lia).
    apply Z.mul_reg_r in E; [|lia]. replace (ex64 y - ex64 x) with (1 + (ex64 y - ex64 x - 1)) in E by lia.
    rewrite pow_split in E by lia. assert (1 <= 2 ^ (ex64 y - ex64 x - 1)) by (pose proof (Z.pow_pos_nonneg 2 (ex64 y - ex64 x - 1)); lia).
    change (2 ^ 1) with 2 in E. nia. }
  assert (E : ex64 b = ex64 c) by (pose proof (L b c Hb Hc HM); pose proof (L c b Hc Hb (eq_sym HM)); lia).
  assert (S : sig64 b = sig64 c).
  { unfold mag64 in HM. rewrite E in HM. apply Z.mul_reg_r in HM; auto.
    destruct (sig64_range c Hc) as (_ & _ & X). pose proof (Z.pow_pos_nonneg 2 (ex64 c - 1)). lia. }
  unfold sig64, ex64 in *. rewrite B3, C3, HS.
  destruct (f64_exp b =? 0) eqn:E1, (f64_exp c =? 0) eqn:E2; lia.
Qed.

Lemma odd_mag c j g : 0 <= c < 2 ^ 64 -> 1 <= g -> 2 ^ 52 < j < 2 ^ 53 -> Z.even j = false ->
  mag64 c = j * 2 ^ g -> Z.even (f64_man c) = false.
Proof.
  intros Hc Hg Hj HO E. destruct (sig64_range c Hc) as (X1 & _ & X3). unfold mag64 in E.
  destruct (Z.lt_trichotomy (ex64 c - 1) g) as [L|[L|L]].
  - exfalso. replace g with ((g - (ex64 c - 1) - 1) + 1 + (ex64 c - 1)) in E by lia.
    rewrite !pow_split, Z.mul_assoc in E by lia. apply Z.mul_reg_r in E; [|pose proof (Z.pow_pos_nonneg 2 (ex64 c - 1)); lia].
    assert (1 <= 2 ^ (g - (ex64 c - 1) - 1)) by (pose proof (Z.pow_pos_nonneg 2 (g - (ex64 c - 1) - 1)); lia).
    change (2 ^ 1) with 2 in E. nia.
  - rewrite L in E. apply Z.mul_reg_r in E; [|pose proof (Z.pow_pos_nonneg 2 g); lia].
    unfold sig64, ex64 in *. destruct (f64_exp c =? 0) eqn:E1; [lia|].
    replace (f64_man c) with (j - 2 ^ 52) by lia. rewrite Z.even_sub, HO. reflexivity.
  - exfalso. replace (ex64 c - 1) with ((ex64 c - 1 - g - 1) + 1 + g) in E by lia.
    rewrite !pow_split, Z.mul_assoc in E by lia. apply Z.mul_reg_r in E; [|pose proof (Z.pow_pos_nonneg 2 g); lia].
    change (2 ^ 1) with 2 in E. rewrite <- E, !Z.even_mul in HO. change (Z.even 2) with true in HO.
    rewrite !orb_true_r in HO. discriminate HO.
Qed.

Lemma whole_unique n c : 0 < n -> 0 <= c < 2 ^ 64 ->
  let k := Z.log2 n in let q := if k <=? 52 then n * 2 ^ (52 - k) else round_shift n (k - 52) in
  Z.abs (n * 2 ^ 1074 - q * 2 ^ (k + 1022)) = Z.abs (n * 2 ^ 1074 - mag64 c) ->
  Z.even (f64_man c) = true -> mag64 c = q * 2 ^ (k + 1022).
Proof.
  intros Hn Hc k q HE HV.
  destruct (Z.eq_dec (mag64 c) (q * 2 ^ (k + 1022))) as [D|D]; [exact D|exfalso].
  pose proof (whole_nearest n Hn c Hc) as W. fold k in W. fold q in W. destruct W as [_ W]. specialize (W HE D).
  pose proof (k_nonneg n) as K. pose proof (k_range n Hn) as R. pose proof (q_range n Hn) as QR. pose proof (q_exact n) as QE.
  pose proof (G_shift n) as GS. pose proof (q_round n) as Q. fold k in K, R, QR, QE, GS, Q. fold q in QR, QE, Q.
  assert (PU : 0 < 2 ^ 1074) by (apply Z.pow_pos_nonneg; lia).
  destruct (Z.le_gt_cases k 52) as [H|H].
  - specialize (QE H). lia.
  - pose proof (mag64_grid c (k + 1022) Hc ltac:(lia)) as GR. pose proof (odd_mag c) as OM. specialize (fun j => OM j (k + 1022) Hc ltac:(lia)).
    specialize (GS ltac:(lia)). specialize (Q ltac:(lia)). rewrite GS in *. clear QE GS.
    set (sh := k - 52) in *. assert (Hs : 0 <= sh) by (unfold sh; lia).
    assert (E1 : 2 ^ k = 2 ^ 52 * 2 ^ sh) by (rewrite <- pow_split by lia; f_equal; unfold sh; lia).
    assert (E2 : 2 ^ (k + 1) = 2 ^ 53 * 2 ^ sh) by (rewrite <- pow_split by lia; f_equal; unfold sh; lia).
    rewrite E1, E2 in R. assert (P : 0 < 2 ^ sh) by (apply Z.pow_pos_nonneg; lia).
    pose proof (fun j => round_shift_nearest n sh j Hs) as N. cbv zeta in N. rewrite <- Q in N.
    set (S := 2 ^ sh) in *. set (M := mag64 c) in *. set (U := 2 ^ 1074) in *. clearbody M S q U. clear Q E1 E2.
    assert (X : forall j, Z.abs (n * U - j * (S * U)) = Z.abs (n - j * S) * U).
    { intros j. rewrite <- (Z.abs_eq U) at 3 by lia. rewrite <- Z.abs_mul. f_equal. ring. }
    rewrite (X q) in HE.
    assert (B : Z.abs (n - q * S) * U <= (n - 2 ^ 52 * S) * U).
    { apply Z.mul_le_mono_nonneg_r; [lia|]. destruct (N (2 ^ 52)) as [N1 _]. lia. }
    assert (B2 : (n - 2 ^ 52 * S) * U = n * U - 2 ^ 52 * (S * U)) by ring.
    destruct GR as [(j & Hj)|GR]; [|lia].
    destruct (Z.lt_ge_cases j (2 ^ 52)) as [LJ|LJ].
    { assert (j * (S * U) < 2 ^ 52 * (S * U)) by (apply Z.mul_lt_mono_pos_r; lia). lia. }
    specialize (OM j). rewrite Hj in HE, D. rewrite (X j) in HE. apply Z.mul_reg_r in HE; [|lia].
    assert (DJ : j <> q) by congruence.
    assert (A : 2 * n = (j + q) * S) by (assert (j * S <> q * S) by (intros C; apply Z.mul_reg_r in C; lia); lia).
    assert (J : j = q + 1 \/ j = q - 1).
    { destruct (N (q + 1)) as [N1 _]. destruct (N (q - 1)) as [N2 _]. clear - N1 N2 A P DJ. nia. }
    assert (JO : Z.even j = false).
    { destruct J as [-> | ->]; [rewrite Z.even_add|rewrite Z.even_sub]; rewrite W; reflexivity. }
    assert (j < 2 ^ 53).
    { destruct J as [-> | ->]; [|lia]. destruct (Z.eq_dec q (2 ^ 53)) as [Eq|Eq]; [exfalso; subst q; nia|].
      destruct (Z.eq_dec q (2 ^ 53 - 1)) as [Eq'|Eq']; [subst q; vm_compute in W; discriminate W|lia]. }
    assert (j <> 2 ^ 52) by (intros ->; vm_compute in JO; discriminate JO).
    rewrite (OM ltac:(lia) JO Hj) in HV. discriminate HV.
Qed.

Lemma abs_signs z U B C s : s = 0 \/ s = 1 -> (s = 1 <-> z < 0) ->
  Z.abs (z * U - (if s =? 0 then 1 else -1) * C) = Z.abs (z * U - (if s =? 0 then 1 else -1) * B) ->
  Z.abs (Z.abs z * U - B) = Z.abs (Z.abs z * U - C).
Proof.
  intros [-> | ->] H E; cbn [Z.eqb] in E.
  - replace (Z.abs z) with z by lia. lia.
  - replace (Z.abs z) with (- z) by lia. rewrite Z.mul_opp_l. lia.
Qed.

Lemma double_unique z b c : double_of_int z = Some b -> 0 <= c < 2 ^ 64 -> f64_exp c <> 2047 ->
  (f64_sign c = 1 <-> z < 0) ->
  Z.abs (z * 2 ^ 1074 - f64_val c) <= Z.abs (z * 2 ^ 1074 - f64_val b) ->
  (Z.abs (z * 2 ^ 1074 - f64_val c) = Z.abs (z * 2 ^ 1074 - f64_val b) -> f64_val c <> f64_val b -> Z.even (f64_man c) = true) ->
  c = b.
Proof.
  intros D Hc Fc Sc L T. destruct (double_nearest z b D) as (Hb & Fb & Sb & _ & N). destruct (N c Hc Fc) as [N1 _].
  assert (E : Z.abs (z * 2 ^ 1074 - f64_val c) = Z.abs (z * 2 ^ 1074 - f64_val b)) by lia. specialize (T E).
  destruct (f64_split b Hb) as (S1 & _). destruct (f64_split c Hc) as (S2 & _).
  assert (SS : f64_sign c = f64_sign b) by lia.
  apply mag64_inj; auto.
  destruct (Z.eq_dec (f64_val c) (f64_val b)) as [V|V].
  - rewrite !f64_val_mag, SS in V. fold (mag64 b) (mag64 c) in V. destruct (f64_sign b =? 0); lia.
  - specialize (T V). destruct (Z.eq_dec z 0) as [Z0|Z0].
    + exfalso. subst z. injection D as <-. change (f64_val 0) with 0 in *. lia.
    + unfold double_of_int in D. replace (z =? 0) with false in D by lia. cbv zeta in D.
      destruct (_ <? _) eqn:B in D; [|discriminate D].
      pose proof (whole_bits (Z.abs z) ltac:(lia) (if z <? 0 then 1 else 0) ltac:(destruct (z <? 0); auto) ltac:(lia)) as W.
      cbv zeta in W. destruct W as (_ & _ & _ & W4 & _).
      replace ((if z <? 0 then 1 else 0) * 2 ^ 63) with (if z <? 0 then 2 ^ 63 else 0) in W4 by (destruct (z <? 0); reflexivity).
      assert (Hx : forall x y : Z, Some x = Some y -> x = y) by (intros; congruence). apply Hx in D. rewrite D in W4.
      rewrite W4. apply (whole_unique (Z.abs z) c); [lia|exact Hc| |exact T]. rewrite <- W4.
      rewrite !f64_val_mag, SS in E. fold (mag64 b) (mag64 c) in E. exact (abs_signs z _ _ _ _ S1 Sb E).
Qed.
