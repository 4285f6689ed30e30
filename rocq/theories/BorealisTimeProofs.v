(** Names of records: between November 2004 and January 2038 they are the
    milliseconds of the timestamp, rounded down. *)
From Coq Require Import String ZArith List Bool Lia ZifyBool DecimalString DecimalZ DecimalFacts.
From Verif Require Import Base FloatBits SDarnFormats BorealisTime.
Import ListNotations.
Open Scope Z_scope.

Lemma round_div_near a b : 0 < b -> let r := round_div a b in - b <= 2 * (a - r * b) <= b.
Proof.
  intros Hb. cbv zeta. unfold round_div. pose proof (Z.div_mod a b ltac:(lia)) as HD. pose proof (Z.mod_pos_bound a b Hb) as HM.
  set (q := a / b) in *. set (m := a mod b) in *. clearbody q m.
  destruct (2 * m <? b) eqn:E1; [|destruct (b <? 2 * m) eqn:E2]; try nia.
  pose proof (Z.mod_pos_bound q 2 ltac:(lia)) as HQ. set (p := q mod 2) in *. clearbody p.
  assert (p = 0 \/ p = 1) as [-> | ->] by lia; nia.
Qed.

Lemma round_div_unique a b r : 0 < b -> - b < 2 * (a - r * b) < b -> round_div a b = r.
Proof.
  intros Hb H. pose proof (round_div_near a b Hb) as HN. cbv zeta in HN. set (x := round_div a b) in *. clearbody x. nia.
Qed.

(** Exact ties go to the even neighbour. *)
Lemma round_div_tie a b : 0 < b -> 2 * (a mod b) = b -> Z.even (round_div a b) = true.
Proof.
  intros Hb H. unfold round_div. replace (2 * (a mod b) <? b) with false by (symmetry; apply Z.ltb_ge; lia).
  replace (b <? 2 * (a mod b)) with false by (symmetry; apply Z.ltb_ge; lia).
  set (q := a / b). rewrite Zmod_odd, <- Z.negb_odd. destruct (Z.odd q) eqn:E.
  - rewrite Z.odd_add, E. reflexivity.
  - rewrite Z.add_0_r, E. reflexivity.
Qed.

Lemma round53_small n : 0 <= n < 2 ^ 53 -> round53 n = n.
Proof.
  intros H. unfold round53. assert (Z.log2 n <= 52).
  { destruct (Z.eq_dec n 0) as [->|N]; [cbn; lia|]. apply Z.lt_succ_r. apply Z.log2_lt_pow2; lia. }
  now replace (Z.log2 n - 52 <=? 0) with true by lia.
Qed.

(** The era: 2004-11-03 to 2038-01-19. *)
Definition era (m : Z) : Prop := 1099511628776000 < m < 2147483648000000.

Lemma seconds_era m : era m -> seconds m = (round_div (m * 2 ^ 22) 1000000, 22).
Proof.
  unfold era. intros H. unfold seconds.
  assert (HL : Z.log2 m = 49 \/ Z.log2 m = 50).
  { assert (49 <= Z.log2 m) by (apply Z.log2_le_pow2; lia). assert (Z.log2 m < 51) by (apply Z.log2_lt_pow2; lia). lia. }
  change (Z.log2 1000000) with 19. destruct HL as [HL|HL]; rewrite HL; cbv zeta.
  - change (53 - (49 - 19)) with 23. change (2 ^ 23) with 8388608. change (2 ^ 53) with 9007199254740992.
    replace (m * 8388608 <? 9007199254740992 * 1000000) with false; [reflexivity|]. symmetry. apply Z.ltb_ge. lia.
  - change (53 - (50 - 19)) with 22. change (2 ^ 53) with 9007199254740992. change (2 ^ 22) with 4194304.
    replace (m * 4194304 <? 9007199254740992 * 1000000) with true; [reflexivity|]. symmetry. apply Z.ltb_lt. lia.
Qed.

Lemma millis_era m : era m -> millis m = m / 1000.
Proof.
  intros HE. pose proof HE as H. unfold era in H. unfold millis.
  replace (m =? 0) with false by lia. rewrite Z.abs_eq by lia. rewrite seconds_era by assumption.
  rewrite Z.sgn_pos by lia. rewrite Z.mul_1_l.
  change (2 ^ 22) with 4194304.
  pose proof (round_div_near (m * 4194304) 1000000 ltac:(lia)) as HN. cbv zeta in HN.
  set (n := round_div (m * 4194304) 1000000) in *. clearbody n.
  pose proof (Z.div_mod m 1000 ltac:(lia)) as HD. pose proof (Z.mod_pos_bound m 1000 ltac:(lia)) as HM.
  set (K := m / 1000) in *. set (r := m mod 1000) in *. clearbody K r.
  assert (L : Z.log2 (n * 1000) = 62).
  { apply Z.log2_unique; [lia|]. change (2 ^ 62) with 4611686018427387904. change (2 ^ Z.succ 62) with 9223372036854775808. lia. }
  unfold round53. rewrite L. change (62 - 52 <=? 0) with false. change (2 ^ (62 - 52)) with 1024.
  destruct (Z.eq_dec r 0) as [R|R].
  - rewrite (round_div_unique (n * 1000) 1024 (K * 4096)) by lia.
    replace (K * 4096 * 1024) with (K * 4194304) by ring. apply Z.div_mul. lia.
  - pose proof (round_div_near (n * 1000) 1024 ltac:(lia)) as HN2. cbv zeta in HN2.
    set (x := round_div (n * 1000) 1024) in *. clearbody x. symmetry. apply Z.div_unique with (x * 1024 - K * 4194304); lia.
Qed.

(** Timestamps from 2004 to 2038: 52 bits mantissa, 22 of them the fraction. *)
Lemma micros_era b : f64_sign b = 0 -> f64_exp b = 1053 -> 0 <= b ->
  micros b = Ok (round_div ((f64_man b + 2 ^ 52) * 1000000) (2 ^ 22)).
Proof.
  intros HS HE Hb. unfold micros. rewrite HE, HS.
  change (1053 =? 2047) with false. change (1053 =? 0) with false. change (Z.max 1053 1) with 1053.
  change (1075 - 1053) with 22. change (22 <=? 0) with false. cbv zeta.
  assert (HM : 0 <= f64_man b < 2 ^ 52) by (unfold f64_man; apply Z.mod_pos_bound; lia).
  set (sig := f64_man b + 2 ^ 52) in *.
  assert (HG : 2 ^ 52 <= sig < 2 ^ 53) by (subst sig; change (2 ^ 53) with (2 * 2 ^ 52); lia). clearbody sig.
  change (2 ^ 52) with 4503599627370496 in *. change (2 ^ 53) with 9007199254740992 in *.
  change (2 ^ 22) with 4194304. 
  pose proof (Z.div_mod sig 4194304 ltac:(lia)) as HD. pose proof (Z.mod_pos_bound sig 4194304 ltac:(lia)) as HR.
  set (w := sig / 4194304) in *. set (fr := sig mod 4194304) in *. clearbody w fr.
  rewrite round53_small by (change (2 ^ 53) with 9007199254740992; lia).
  change (0 =? 0) with true. rewrite Z.mul_1_l.
  assert (E : w * 1000000 + round_div (fr * 1000000) 4194304 = round_div (sig * 1000000) 4194304).
  { unfold round_div. replace (sig * 1000000) with (fr * 1000000 + (w * 1000000) * 4194304) by lia.
    rewrite Z.div_add, Z.mod_add by lia.
    destruct (2 * (fr * 1000000 mod 4194304) <? 4194304); [lia|]. destruct (4194304 <? 2 * (fr * 1000000 mod 4194304)); [lia|].
    replace ((fr * 1000000 / 4194304 + w * 1000000) mod 2) with ((fr * 1000000 / 4194304) mod 2); [lia|].
    replace (w * 1000000) with ((w * 500000) * 2) by ring. now rewrite Z.mod_add by lia. }
  rewrite E. pose proof (round_div_near (sig * 1000000) 4194304 ltac:(lia)) as HN. cbv zeta in HN.
  set (x := round_div (sig * 1000000) 4194304) in *. clearbody x.
  change (2 ^ 55) with 36028797018963968. replace (36028797018963968 <=? w) with false by lia.
  replace ((x <? -62135596800000000) || (253402300800000000 <=? x)) with false by lia. reflexivity.
Qed.

(** ** Decimal names are distinct *)
Lemma str_inj a b : str a = str b -> a = b.
Proof.
  revert b. induction a as [|x a IH]; intros [|y b] H; cbn in H; try discriminate; [reflexivity|].
  inversion H as [[H1 H2]]. f_equal; [|now apply IH]. apply Nat2Z.inj in H1.
  now rewrite <- (Ascii.ascii_nat_embedding x), H1, Ascii.ascii_nat_embedding.
Qed.

Lemma dec_inj i j : dec i = dec j -> i = j.
Proof.
  unfold dec. intros H. apply str_inj in H.
  apply (f_equal NilZero.int_of_string) in H.
  assert (E : forall i, NilZero.int_of_string (NilZero.string_of_int (Z.to_int i)) = Some (Z.to_int i)).
  { intros x. apply NilZero.isi; destruct x; cbn; try discriminate; intros C; inversion C as [C'];
      now apply (DecimalPos.Unsigned.to_uint_nonnil p). }
  rewrite !E in H. inversion H as [H']. rewrite <- (DecimalZ.of_to i), H', DecimalZ.of_to. reflexivity.
Qed.

(** The timestamp in microseconds, rounded; ties go to the even number.  The
    timestamp is [t / 2^22] seconds. *)
Definition rounds_to (t m : Z) : Prop :=
  2 * Z.abs (t * 1000000 - m * 2 ^ 22) <= 2 ^ 22 /\
  (2 * Z.abs (t * 1000000 - m * 2 ^ 22) = 2 ^ 22 -> Z.even m = true).

Lemma round_div_spec a b : 0 < b -> 2 * Z.abs (a - round_div a b * b) <= b /\
  (2 * Z.abs (a - round_div a b * b) = b -> Z.even (round_div a b) = true).
Proof.
  intros Hb. pose proof (round_div_near a b Hb) as HN. cbv zeta in HN. split; [lia|]. intros HT.
  apply round_div_tie; [assumption|].
  pose proof (Z.div_mod a b ltac:(lia)) as HD. pose proof (Z.mod_pos_bound a b Hb) as HM.
  unfold round_div in HT. set (q := a / b) in *. set (m := a mod b) in *. clearbody q m.
  destruct (2 * m <? b) eqn:E1; [|destruct (b <? 2 * m) eqn:E2]; [nia|nia|lia].
Qed.

Lemma rounds_unique t m m' : rounds_to t m -> rounds_to t m' -> m = m'.
Proof.
  unfold rounds_to. change (2 ^ 22) with 4194304. intros [A1 A2] [B1 B2].
  destruct (Z.eq_dec m m') as [|N]; [assumption|].
  assert (HC : m' = m + 1 \/ m = m' + 1) by lia. exfalso.
  assert (E1 : Z.even m = true) by (apply A2; lia). assert (E2 : Z.even m' = true) by (apply B2; lia).
  destruct HC as [-> | ->]; [rewrite Z.even_add, E1 in E2|rewrite Z.even_add, E2 in E1]; discriminate.
Qed.

Theorem record_name_era b t m : 0 <= b -> f64_sign b = 0 -> f64_exp b = 1053 -> t = f64_man b + 2 ^ 52 ->
  rounds_to t m -> 1099511628776000 < m < 2147483648000000 -> record_name b = Ok (dec (m / 1000)).
Proof.
  intros Hb HS HE -> HR HM. unfold record_name. rewrite micros_era by assumption. cbn [rbind]. do 2 f_equal.
  assert (E : round_div ((f64_man b + 2 ^ 52) * 1000000) (2 ^ 22) = m).
  { apply (rounds_unique (f64_man b + 2 ^ 52)); [|assumption]. apply round_div_spec. reflexivity. }
  rewrite E. now apply millis_era.
Qed.
