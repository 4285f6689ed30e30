(** C108: times without a name. *)
From Coq Require Import String ZArith List Bool Lia ZifyBool.
From Verif Require Import Base SDarnFormats FloatBits FloatSpec NumeralSpec NumeralProofs BorealisTypes BorealisFormats BorealisArrays BorealisSpec
  BorealisTime BorealisTimeProofs BorealisCases BorealisRestructProofs BorealisArrayProps RecordNameSpec RecordNameProofs.
Import ListNotations.
Open Scope list_scope.
Open Scope Z_scope.

Lemma round_div_not_negative a b : 0 <= a -> 0 < b -> 0 <= round_div a b.
Proof. intros HA HB. pose proof (rd_mono 0 a b HB HA) as H. change 0 with (0 * b) in H at 1. now rewrite rd_exact in H. Qed.

Lemma micros_none b : 0 <= b -> f64_exp b <> 2047 ->
  253402300800 * second <= f64_val b < 2 ^ 55 * second \/ - (2 ^ 55 * second) < f64_val b <= - (62135596801 * second) ->
  micros b = Raise ValueError.
Proof.
  intros HB HN. unfold micros, f64_val, second.
  assert (HM : 0 <= f64_man b < 2 ^ 52) by (unfold f64_man; apply Z.mod_pos_bound; lia).
  assert (HE : 0 <= f64_exp b < 2048) by (unfold f64_exp; apply (Z.mod_pos_bound _ (2 ^ 11)); reflexivity).
  set (e := f64_exp b) in *. set (sig := if e =? 0 then f64_man b else f64_man b + 2 ^ 52).
  assert (HG : 0 <= sig).
  { subst sig. change (2 ^ 52) with 4503599627370496 in *. destruct (e =? 0) eqn:EE; lia. }
  clearbody e sig. clear HM HB. cbv zeta. replace (e =? 2047) with false by lia.
  set (s := if f64_sign b =? 0 then 1 else -1).
  assert (HS : s = 1 \/ s = -1) by (subst s; destruct (f64_sign b =? 0); auto). clearbody s.
  set (k := 1075 - Z.max e 1). set (p := Z.max e 1 - 1).
  pose proof (Z.pow_pos_nonneg 2 1074 ltac:(lia) ltac:(lia)) as UP.
  pose proof (Z.pow_pos_nonneg 2 p ltac:(lia) ltac:(lia)) as PP.
  set (whole := if k <=? 0 then sig * 2 ^ (- k) else sig / 2 ^ k).
  set (us := if k <=? 0 then 0 else round_div (round53 ((if k <=? 0 then 0 else sig mod 2 ^ k) * 1000000)) (2 ^ k)).
  assert (HW : whole * 2 ^ 1074 <= sig * 2 ^ p < (whole + 1) * 2 ^ 1074 /\ 0 <= us).
  { subst whole us. destruct (k <=? 0) eqn:K.
    - split; [|lia]. assert (EP : 2 ^ p = 2 ^ (- k) * 2 ^ 1074) by (rewrite <- Z.pow_add_r by lia; f_equal; lia). rewrite EP. nia.
    - assert (EU : 2 ^ 1074 = 2 ^ k * 2 ^ p) by (rewrite <- Z.pow_add_r by lia; f_equal; lia).
      pose proof (Z.pow_pos_nonneg 2 k ltac:(lia) ltac:(lia)) as KP. pose proof (Z.div_mod sig (2 ^ k) ltac:(lia)) as D.
      pose proof (Z.mod_pos_bound sig (2 ^ k) KP) as M. rewrite EU. split.
      + set (a := 2 ^ k) in *. set (c := 2 ^ p) in *. clearbody a c. set (q := sig / a) in *. set (r := sig mod a) in *. clearbody q r. nia.
      + apply round_div_not_negative; [|exact KP]. pose proof (r53_mono 0 (sig mod 2 ^ k * 1000000) ltac:(lia)) as R. change (round53 0) with 0 in R. exact R. }
  clearbody whole us. destruct HW as [HW HU]. rewrite <- !Z.mul_assoc.
  assert (V0 : 0 <= sig * 2 ^ p) by nia. set (v := sig * 2 ^ p) in *. clearbody v. clear PP HG.
  change (2 ^ 55) with 36028797018963968. set (u := 2 ^ 1074) in *. clearbody u. intros HV.
  assert (HL : whole < 36028797018963968 /\ (s = 1 /\ 253402300800 <= whole \/ s = -1 /\ 62135596801 <= whole)).
  { destruct HS as [-> | ->]; destruct HV as [HV|HV]; try (exfalso; nia); (split; [nia|]); [left|right]; (split; [reflexivity|nia]). }
  replace (36028797018963968 <=? whole) with false by lia.
  destruct HL as [_ [[-> HL]|[-> HL]]].
  - replace ((1 * (whole * 1000000 + us) <? -62135596800000000) || (253402300800000000 <=? 1 * (whole * 1000000 + us)))%bool with true by lia. reflexivity.
  - replace ((-1 * (whole * 1000000 + us) <? -62135596800000000) || (253402300800000000 <=? -1 * (whole * 1000000 + us)))%bool with true by lia. reflexivity.
Qed.

(** The bits of the two infinities, of numbers that are none, and of the others. *)
Definition infinite (b : Z) : Prop := b = 2047 * 2 ^ 52 \/ b = 2 ^ 63 + 2047 * 2 ^ 52.
Definition not_a_number (b : Z) : Prop :=
  exists s m, (s = 0 \/ s = 2 ^ 63) /\ 0 < m < 2 ^ 52 /\ b = s + 2047 * 2 ^ 52 + m.
Definition finite (b : Z) : Prop := 0 <= b < 2 ^ 64 /\ ~ infinite b /\ ~ not_a_number b.

Lemma finite_exp b : finite b -> 0 <= b /\ f64_exp b <> 2047.
Proof.
  intros (HB & HI & HN). split; [lia|]. intros E. unfold f64_exp in E.
  pose proof (Z.div_mod b (2 ^ 52) ltac:(discriminate)) as D. pose proof (Z.mod_pos_bound b (2 ^ 52) ltac:(reflexivity)) as M.
  pose proof (Z.div_mod (b / 2 ^ 52) (2 ^ 11) ltac:(discriminate)) as D'. rewrite E in D'.
  set (q := b / 2 ^ 52 / 2 ^ 11) in *. set (m := b mod 2 ^ 52) in *. set (h := b / 2 ^ 52) in *. clearbody q m h.
  assert (HQ : q = 0 \/ q = 1).
  { change (2 ^ 52) with 4503599627370496 in *. change (2 ^ 11) with 2048 in *. change (2 ^ 64) with 18446744073709551616 in *. lia. }
  destruct (Z.eq_dec m 0) as [Z0|NZ].
  - apply HI. unfold infinite. change (2 ^ 52) with 4503599627370496 in *. change (2 ^ 11) with 2048 in *. change (2 ^ 63) with 9223372036854775808 in *. lia.
  - apply HN. exists (q * 2 ^ 63), m. change (2 ^ 52) with 4503599627370496 in *. change (2 ^ 11) with 2048 in *. change (2 ^ 63) with 9223372036854775808 in *. lia.
Qed.

Lemma infinite_none b : infinite b -> record_name b = Raise OverflowError.
Proof. intros [E|E]; rewrite E; vm_compute; reflexivity. Qed.
Lemma nan_fields s m : s = 0 \/ s = 2 ^ 63 -> 0 < m < 2 ^ 52 ->
  f64_exp (s + 2047 * 2 ^ 52 + m) = 2047 /\ f64_man (s + 2047 * 2 ^ 52 + m) = m.
Proof.
  intros HS HM. unfold f64_exp, f64_man.
  assert (E : exists q, (q = 0 \/ q = 2048) /\ s + 2047 * 2 ^ 52 + m = m + (q + 2047) * 2 ^ 52).
  { destruct HS as [-> | ->]; [exists 0|exists 2048]; (split; [auto|]); change (2 ^ 52) with 4503599627370496; change (2 ^ 63) with 9223372036854775808; lia. }
  destruct E as (q & HQ & E). rewrite E, Z.div_add, Z.mod_add by discriminate. rewrite (Z.div_small m), (Z.mod_small m) by lia.
  split; [destruct HQ as [-> | ->]; vm_compute; reflexivity|reflexivity].
Qed.
Lemma nan_none b : not_a_number b -> record_name b = Raise ValueError.
Proof.
  intros (s & m & HS & HM & E). destruct (nan_fields s m HS HM) as [E1 E2]. rewrite <- E in E1, E2. unfold record_name, micros. rewrite E1, E2.
  assert (Z0 : (m =? 0) = false) by lia. rewrite Z0. reflexivity.
Qed.

(** ** An infinite time is an OverflowError; none, or one after the year 9999 or
    before the year 1, a ValueError (from 2^55 seconds on other errors occur, which
    are not modelled) *)
Theorem C108_none : forall b,
  (infinite b -> record_name b = Raise OverflowError) /\
  (not_a_number b -> record_name b = Raise ValueError) /\
  (finite b -> 253402300800 * second <= f64_val b < 2 ^ 55 * second \/ - (2 ^ 55 * second) < f64_val b <= - (62135596801 * second) ->
   record_name b = Raise ValueError).
Proof.
  intros b. split; [exact (infinite_none b)|]. split; [exact (nan_none b)|].
  intros HF HV. destruct (finite_exp b HF) as [HB HE]. unfold record_name. rewrite (micros_none b HB HE HV). reflexivity.
Qed.
Print Assumptions C108_none.

(** Infinity, one that is no number, the start of the year 10000 and a second before
    the year 1. *)
Example C108_none_case :
  infinite 9218868437227405312 /\ not_a_number 9221120237041090560 /\
  finite 4777615491977969664 /\ f64_val 4777615491977969664 = 253402300800 * second /\
  finite (4768449043074514944 + 2 ^ 63) /\ f64_val (4768449043074514944 + 2 ^ 63) = - (62135596801 * second).
Proof.
  assert (F : forall b, 0 <= b < 2 ^ 64 -> f64_exp b <> 2047 -> finite b).
  { intros b HB HE. split; [exact HB|]. split.
    - intros [-> | ->]; apply HE; vm_compute; reflexivity.
    - intros (s & m & HS & HM & ->). destruct (nan_fields s m HS HM) as [E _]. exact (HE E). }
  split; [left; vm_compute; reflexivity|]. split; [exists 0, 2251799813685248; repeat split; auto|].
  split; [apply F; [split; [discriminate|reflexivity]|vm_compute; discriminate]|]. split; [vm_compute; reflexivity|].
  split; [apply F; [split; [discriminate|reflexivity]|vm_compute; discriminate]|]. vm_compute; reflexivity.
Qed.

(** ** Arrays in which a record begins at such a time give no records at all *)
Theorem C108_none_site : forall F a ty n w data i b e,
  dict_get a (str "sqn_timestamps") = Some (BArr ty [n; w] data) -> length data = (n * w)%nat -> (i < n)%nat ->
  nth_error data (i * w) = Some (CZ b) -> record_name b = Raise e -> forall rs, array_to_site record_name F a <> Ok rs.
Proof.
  intros F a ty n w data i b e HG HL HI HD HE rs H.
  destruct (site_names record_name F a rs ty n w data H HG HL) as (nms & L & _ & N).
  destruct (nth_error nms i) as [nm|] eqn:E; [|apply nth_error_None in E; lia].
  destruct (N i nm E) as (b' & D & R). rewrite HD in D. injection D as <-. rewrite HE in R. discriminate R.
Qed.
Print Assumptions C108_none_site.

(** The arrays of two records, and the same with an infinite time for the second. *)
Definition timed (b : Z) : res brecords :=
  match site_to_array (format_class G6 BRawacf) raw_two with
  | Ok a =>
      match dict_get a (str "sqn_timestamps") with
      | Some (BArr ty [n; w] data) =>
          array_to_site record_name (format_class G6 BRawacf) (dict_set a (str "sqn_timestamps") (BArr ty [n; w] (firstn w data ++ CZ b :: skipn (S w) data)))
      | _ => Raise OutOfModel
      end
  | Raise e => Raise e
  end.
Example C108_none_site_case : timed 9218868437227405312 = Raise OverflowError /\ timed 4777615491977969664 = Raise ValueError /\
  match timed t2 with Ok rs => keys rs = [str "1558583991060"; str "1558583991822"] | _ => False end.
Proof. split; [vm_compute; reflexivity|]. split; vm_compute; reflexivity. Qed.
