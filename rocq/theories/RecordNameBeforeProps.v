(** C108: names of records before 1970. *)
From Coq Require Import String ZArith List Bool Lia.
From Verif Require Import Base SDarnFormats FloatBits FloatSpec NumeralSpec NumeralProofs BorealisTime BorealisTimeProofs BorealisConvertTailProofs
  RecordNameSpec RecordNameProofs.
Import ListNotations.
Open Scope list_scope.
Open Scope Z_scope.

Lemma minus_fields b : 0 <= b < 2 ^ 63 -> f64_exp (b + 2 ^ 63) = f64_exp b /\ f64_man (b + 2 ^ 63) = f64_man b /\ f64_sign (b + 2 ^ 63) = 1 /\ f64_sign b = 0.
Proof.
  intros H. unfold f64_exp, f64_man, f64_sign. split; [|split; [|split]].
  - change (2 ^ 63) with (2 ^ 11 * 2 ^ 52). rewrite Z.div_add by discriminate. change (2 ^ 11) with (1 * 2 ^ 11) at 1. now rewrite Z.mod_add by discriminate.
  - change (2 ^ 63) with (2 ^ 11 * 2 ^ 52). now rewrite Z.mod_add by discriminate.
  - replace (b + 2 ^ 63) with (b + 1 * 2 ^ 63) by lia. rewrite Z.div_add by discriminate. now rewrite Z.div_small.
  - now apply Z.div_small.
Qed.

Lemma micros_minus b m : 0 <= b < 2 ^ 63 -> micros b = Ok m -> m <= 62135596800000000 -> micros (b + 2 ^ 63) = Ok (- m).
Proof.
  intros HB.
  unfold micros. destruct (minus_fields b HB) as (Q1 & Q2 & Q3 & Q4). rewrite Q1, Q2, Q3, Q4. clear Q1 Q2 Q3 Q4. change (1 =? 0) with false. change (0 =? 0) with true. cbv zeta iota.
  destruct (f64_exp b =? 2047); [destruct (f64_man b =? 0); discriminate|].
  match goal with |- context [2 ^ 55 <=? ?w] => destruct (2 ^ 55 <=? w); [discriminate|] end.
  match goal with |- context [1 * ?w] => set (x := w) end.
  rewrite Z.mul_1_l. intros H HM. destruct ((x <? -62135596800000000) || (253402300800000000 <=? x))%bool eqn:E; [discriminate|].
  injection H as <-. apply orb_false_iff in E. destruct E as [E1 E2]. apply Z.leb_gt in E2. apply Z.ltb_ge in E1.
  replace (-1 * x) with (- x) by lia.
  replace (- x <? -62135596800000000) with false by (symmetry; apply Z.ltb_ge; lia).
  replace (253402300800000000 <=? - x) with false by (symmetry; apply Z.leb_gt; lia). reflexivity.
Qed.

Lemma millis_minus m : millis (- m) = - millis m.
Proof.
  unfold millis. destruct (Z.eqb_spec m 0) as [->|N]; [reflexivity|]. replace (- m =? 0) with false by (symmetry; apply Z.eqb_neq; lia).
  rewrite Z.abs_opp, Z.sgn_opp. destruct (seconds (Z.abs m)) as [n k]. lia.
Qed.

Lemma name_minus b n ms : not_negative b -> f64_val b <= 62135596799 * second -> record_name b = Ok n -> numeral ms n ->
  exists n', record_name (b + 2 ^ 63) = Ok n' /\ numeral (- ms) n'.
Proof.
  intros HB HV H HN. destruct (name_shape b n HB H) as (m & E & Q). rewrite (numeral_number _ _ _ HN Q).
  destruct (micros_value b m HB E) as (V0 & EM & R).
  pose proof (micro_near (2 ^ 1074) (f64_val b) ltac:(apply Z.pow_pos_nonneg; lia) V0) as X. rewrite <- EM in X.
  assert (L : m <= 62135596800000000).
  { unfold second in HV. pose proof (Z.pow_pos_nonneg 2 1074 ltac:(lia) ltac:(lia)) as P. set (U := 2 ^ 1074) in *. set (V := f64_val b) in *. clearbody U V. nia. }
  unfold record_name. rewrite (micros_minus b m HB E L). cbn [rbind]. eexists. split; [reflexivity|].
  rewrite millis_minus. apply dec_numeral.
Qed.

(** ** The name of a time before 1970, back to a second after the start of the year 1, is the
    numeral of minus the milliseconds of the time as long after 1970: names are cut
    towards 1970 *)
Theorem C108_before : forall b n ms, not_negative b -> f64_val b <= 62135596799 * second -> record_name b = Ok n -> numeral ms n ->
  exists n', record_name (b + 2 ^ 63) = Ok n' /\ f64_val (b + 2 ^ 63) = - f64_val b /\ numeral (- ms) n'.
Proof.
  intros b n ms HB HV H HN. destruct (name_minus b n ms HB HV H HN) as (n' & E & N). exists n'. split; [exact E|]. split; [|exact N].
  destruct (minus_fields b HB) as (Q1 & Q2 & Q3 & Q4). unfold f64_val. rewrite Q1, Q2, Q3, Q4. change (1 =? 0) with false. change (0 =? 0) with true.
  cbv zeta iota. now rewrite !Z.mul_1_l, <- Z.mul_opp_l, <- Z.opp_eq_mul_m1 || lia.
Qed.
Print Assumptions C108_before.

(** 1.5 seconds after and before 1970. *)
Example C108_before_case :
  not_negative 4609434218613702656 /\ f64_val 4609434218613702656 <= 62135596799 * second /\
  2 * f64_val 4609434218613702656 = 3 * second /\
  record_name 4609434218613702656 = Ok (str "1500") /\ numeral 1500 (str "1500") /\
  record_name (4609434218613702656 + 2 ^ 63) = Ok (str "-1500").
Proof.
  split; [split; [discriminate|reflexivity]|]. split; [vm_compute; discriminate|]. split; [vm_compute; reflexivity|].
  split; [vm_compute; reflexivity|]. split; [exact (decimal_numeral 1500)|vm_compute; reflexivity].
Qed.

(** So times on both sides of 1970 can be almost two milliseconds apart and have the
    same name: 0.0009 s before and after. *)
Theorem C108_before_refuted : ~ (forall b b' n, well_after b b' -> record_name b = Ok n -> record_name b' <> Ok n).
Proof.
  intros H. apply (H (4561440258104740754 + 2 ^ 63) 4561440258104740754 (str "0")); [vm_compute; reflexivity|vm_compute; reflexivity|vm_compute; reflexivity].
Qed.
Print Assumptions C108_before_refuted.
