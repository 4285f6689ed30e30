(** Proofs about the fields of iqdat and rawacf records that are not common to both. *)
From Coq Require Import String ZArith List Bool Lia Arith ZifyBool DecimalString DecimalPos DecimalFacts.
From Verif Require Import Base Bytes BytesProofs FloatBits FloatSpec DmapTypes DmapFileProofs DmapWriteFacts DmapWriteProofs SDarnFormats SDarn SDarnSpec
  SDarnChecks BorealisTypes BorealisFormats BorealisArrays BorealisFile BorealisFillProofs BorealisFileProofs
  BorealisTime BorealisTimeProofs BorealisConvert BorealisConvertSpec BorealisConvertProofs BorealisConvertRecordProofs BorealisConvertSampleProofs
  BorealisConvertFileProofs BorealisConvertFieldSpec BorealisConvertNumberProofs BorealisDateProofs BorealisConvertFieldProofs.
From Verif Require Export NumeralProofs.
From Verif Require Conversions FloatRoundProofs.
Import ListNotations.
Open Scope list_scope.
Open Scope Z_scope.

(** ** Numerals *)

Lemma dec_numeral z : numeral z (dec z).
Proof. exact (decimal_numeral z). Qed.

(** ** iqdat *)

Ltac tail_common := match goal with E : common_fields _ _ _ _ _ _ _ _ = Ok _ |- _ => skip_common E end.
Lemma out_tail raw o k it v : Conversions.record2dmap raw = Ok o -> dict_get raw k = Some it -> it = IPlain v ->
  (exists f, Conversions.value_format v = Some f) -> out_scalar o k v.
Proof. intros R G -> (f & F). eapply out_scalar_get; [exact R|exact G|exact F]. Qed.
Lemma out_int raw o k z : Conversions.record2dmap raw = Ok o -> dict_get raw k = Some (v32 z) -> int_field o k z.
Proof. intros R G. exists (wrap32 z). split; [apply wrap32_is|]. eapply out_tail; [exact R|exact G|reflexivity|eexists; reflexivity]. Qed.
Lemma map_wrap16 l : Forall2 is_int16 l (map wrap16 l).
Proof. induction l; constructor; auto. apply wrap16_is. Qed.
Lemma map_related {A B} (P : A -> B -> Prop) f l : (forall x, P x (f x)) -> Forall2 P l (map f l).
Proof. intros H. induction l; constructor; auto. Qed.

Lemma tables_det r tabs : tables r = Ok tabs ->
  (forall pulses, vector_field r (str "pulses") BU32 pulses -> fst tabs = va DI16 [length pulses] (map wrap16 pulses)) /\
  (forall shape lags, dict_get r (str "lags") = Some (BArr BU32 shape (map CZ lags)) -> snd tabs = va DI16 shape (map wrap16 lags)).
Proof.
  unfold tables. intros H. apply rbind_ok in H as (pulses & E & H). apply rbind_ok in H as (lags & E' & H). split.
  - intros l N. rewrite (get_vector_det _ _ _ _ _ _ N E) in H. destruct lags as [| |[] ? ?| |]; try discriminate. apply rbind_ok in H as (x & _ & H). apply ok_inj in H as <-. reflexivity.
  - intros shape l N. unfold dict_item in E'. rewrite N in E'. apply ok_inj in E' as <-. rewrite numbers_map in H. cbn [rbind] in H. apply ok_inj in H as <-. reflexivity.
Qed.

Section Iqdat.
Variables (ctime : Z -> pystr) (sid : Z) (key origin : pystr) (k : Z) (r : brecord) (shape : list nat) (data : list (Z * Z)) (b : nat) (beam : Z) (raw o : record).
Hypothesis EI : iqdat_record ctime sid key origin k r shape data b beam = Ok raw.
Hypothesis R : Conversions.record2dmap raw = Ok o.

Ltac open_iqdat := unfold iqdat_record in EI; cbv zeta in EI; unwind EI; apply ok_inj in EI; subst raw.

Lemma iqdat_counts :
  out_scalar o (str "iqdata.revision.major") (VNpInt NI32 1) /\ out_scalar o (str "iqdata.revision.minor") (VNpInt NI32 0) /\
  (forall t z, number_field r (str "num_sequences") t z -> int_field o (str "seqnum") z /\ (0 <= z -> out_array o (str "tatten") DI16 [Z.to_nat z] (repeat 0 (Z.to_nat z)))) /\
  (forall n, array_length r (str "antenna_arrays_order") n -> int_field o (str "chnnum") (Z.of_nat n)) /\
  (forall t z, number_field r (str "num_samps") t z -> int_field o (str "smpnum") z) /\
  (forall t z, number_field r (str "num_ranges") t z -> short_field o (str "nrang") z) /\
  short_field o (str "txpow") (-1).
Proof.
  open_iqdat. split; [eapply out_tail; [exact R|tail_common; reflexivity|reflexivity|eexists; reflexivity]|].
  split; [eapply out_tail; [exact R|tail_common; reflexivity|reflexivity|eexists; reflexivity]|].
  split.
  { intros t z N. match goal with G : get_int r (str "num_sequences") = Ok ?v |- _ => pose proof (get_int_det _ _ _ _ _ N G); subst v end.
    split; [eapply out_int; [exact R|tail_common; reflexivity]|]. intros _. eapply out_array_get; [exact R|tail_common; reflexivity]. }
  split.
  { intros n N. match goal with G : first_length r (str "antenna_arrays_order") = Ok ?v |- _ => pose proof (first_length_det _ _ _ _ N G); subst v end.
    eapply out_int; [exact R|tail_common; reflexivity]. }
  split.
  { intros t z N. match goal with G : get_int r (str "num_samps") = Ok ?v |- _ => pose proof (get_int_det _ _ _ _ _ N G); subst v end.
    eapply out_int; [exact R|tail_common; reflexivity]. }
  match goal with E : common_fields _ _ _ _ _ _ _ _ = Ok _ |- _ => destruct (passed_fields _ _ _ _ _ _ _ _ _ _ _ E R) as (P1 & P2 & _) end.
  split; [|exact P1]. intros t z N. match goal with G : get_int r (str "num_ranges") = Ok ?v |- _ => pose proof (get_int_det _ _ _ _ _ N G); subst v end. exact P2.
Qed.

Lemma iqdat_xcf : (forall sh names, dict_get r (str "antenna_arrays_order") = Some (BArr BNpStr sh (map CS names)) ->
     (In (str "intf") names -> short_field o (str "xcf") 1) /\ (~ In (str "intf") names -> short_field o (str "xcf") 0)) /\
  (forall sh names, dict_get r (str "antenna_arrays_order") = Some (BArr BBytes sh names) -> short_field o (str "xcf") 0).
Proof.
  open_iqdat. match goal with E : common_fields _ _ _ _ _ _ _ _ = Ok _ |- _ => destruct (passed_fields _ _ _ _ _ _ _ _ _ _ _ E R) as (_ & _ & P) end.
  match goal with G : has_intf r = Ok ?v |- _ => rename v into x; unfold has_intf in G; rename G into EX end.
  split; intros sh names N; unfold dict_item in EX; rewrite N in EX; cbn [rbind] in EX; apply ok_inj in EX.
  - assert (M : existsb (fun c => match c with CS s => str_eqb s (str "intf") | _ => false end) (map CS names) = str_mem (str "intf") names).
    { clear. induction names as [|s names IH]; [reflexivity|]. cbn [map existsb str_mem]. rewrite IH. reflexivity. }
    rewrite M in EX. split; intros I.
    + apply str_mem_In in I. rewrite I in EX. subst x. exact P.
    + destruct (str_mem (str "intf") names) eqn:T; [apply str_mem_In in T; contradiction|]. subst x. exact P.
  - subst x. exact P.
Qed.

Lemma iqdat_skip x y : number_field r (str "first_range") BF32 x -> number_field r (str "range_sep") BF32 y ->
  f32_exp x <> 255 -> f32_exp y <> 255 -> f32_sign x = 0 -> 0 < f32_val y -> f32_val x < 2 ^ 24 * f32_val y ->
  exists n, cut_quotient 24 (f32_val x) (f32_val y) n /\ out_scalar o (str "skpnum") (VNpInt NI32 n).
Proof.
  intros NX NY FX FY SX PY Q. open_iqdat.
  match goal with G : get_float r (str "first_range") BF32 = Ok ?v |- _ => pose proof (get_float_det _ _ _ _ _ _ NX G); subst v end.
  match goal with G : get_float r (str "range_sep") BF32 = Ok ?v |- _ => pose proof (get_float_det _ _ _ _ _ _ NY G); subst v end.
  apply Z.eqb_neq in FX, FY. destruct (skip_number_cut x y FX FY SX PY Q) as [C B]. exists (skip_number x y). split; [exact C|].
  eapply out_tail; [exact R|tail_common; reflexivity| |eexists; reflexivity]. unfold v32. rewrite wrap32_small; [reflexivity|].
  change (2 ^ 31) with 2147483648. change (2 ^ 24) with 16777216 in B. lia.
Qed.

Lemma iqdat_tables :
  (forall pulses, vector_field r (str "pulses") BU32 pulses -> short_array o (str "ptab") [length pulses] pulses) /\
  (forall sh lags, dict_get r (str "lags") = Some (BArr BU32 sh (map CZ lags)) -> short_array o (str "ltab") sh lags).
Proof.
  open_iqdat. match goal with G : tables r = Ok _ |- _ => apply tables_det in G as [D1 D2] end. split.
  - intros pulses N. eexists. split; [apply map_wrap16|]. eapply out_array_get; [exact R|]. tail_common. rewrite <- (D1 _ N). reflexivity.
  - intros sh lags N. eexists. split; [apply map_wrap16|]. eapply out_array_get; [exact R|]. tail_common. rewrite <- (D2 _ _ N). reflexivity.
Qed.

Lemma iqdat_times times : vector_field r (str "sqn_timestamps") BF64 times ->
  item_array o (str "tsc") DI32 times (fun t z => usual_time t -> cut_quotient 53 (f64_val t) (1000 * 2 ^ 1074) z) /\
  item_array o (str "tus") DI32 times (fun t z => usual_time t -> cut_quotient 53 ((f64_val t mod (1000 * 2 ^ 1074)) * 1000) (2 ^ 1074) z).
Proof.
  intros N. open_iqdat. match goal with G : get_vector r (str "sqn_timestamps") BF64 = Ok ?v |- _ => pose proof (get_vector_det _ _ _ _ _ _ N G); subst v end. split.
  - eexists. split; [eapply out_array_get; [exact R|tail_common; reflexivity]|]. apply map_related. intros t (F & S & V). apply thousand_seconds_cut; [now apply Z.eqb_neq|exact S|exact V].
  - eexists. split; [eapply out_array_get; [exact R|tail_common; reflexivity]|]. apply map_related. intros t (F & S & V). apply thousand_rest_cut; [now apply Z.eqb_neq|exact S].
Qed.

Lemma iqdat_noise l : vector_field r (str "noise_at_freq") BF64 l ->
  item_array o (str "tnoise") DF32 l (fun x y => 0 <= x < 2 ^ 64 -> f64_exp x <> 2047 -> nearest_single x y).
Proof.
  intros N. open_iqdat. match goal with G : get_vector r (str "noise_at_freq") BF64 = Ok ?v |- _ => pose proof (get_vector_det _ _ _ _ _ _ N G); subst v end.
  eexists. split; [eapply out_array_get; [exact R|tail_common; reflexivity]|]. apply map_related. intros x B F. exact (FloatRoundProofs.narrow_nearest x B F).
Qed.
End Iqdat.

(** ** Comments *)

Lemma comment_det r key origin k text n c s : comment r key origin k = Ok text -> array_length r (str "beam_nums") n ->
  text_field r (str "experiment_comment") c -> text_field r (str "slice_comment") s ->
  text = comment_text key origin (dec k) (dec (Z.of_nat n)) c s.
Proof.
  intros H N C S. unfold comment in H. unwind H. apply ok_inj in H as <-.
  match goal with G : first_length r (str "beam_nums") = Ok ?v |- _ => pose proof (first_length_det _ _ _ _ N G); subst v end.
  match goal with G : get_text r (str "experiment_comment") = Ok ?v |- _ => pose proof (get_text_det _ _ _ _ C G); subst v end.
  match goal with G : get_text r (str "slice_comment") = Ok ?v |- _ => pose proof (get_text_det _ _ _ _ S G); subst v end.
  reflexivity.
Qed.

Lemma iqdat_comment ctime sid key origin k r shape data b beam raw o n c s :
  iqdat_record ctime sid key origin k r shape data b beam = Ok raw -> Conversions.record2dmap raw = Ok o ->
  array_length r (str "beam_nums") n -> text_field r (str "experiment_comment") c -> text_field r (str "slice_comment") s ->
  out_scalar o (str "combf") (VStr (comment_text key origin (dec k) (dec (Z.of_nat n)) c s)).
Proof.
  intros H R N C S. unfold iqdat_record in H. cbv zeta in H. unwind H. apply ok_inj in H. subst raw.
  match goal with G : comment _ _ _ _ = Ok _ |- _ => rewrite <- (comment_det _ _ _ _ _ _ _ _ G N C S) end.
  eapply out_tail; [exact R|tail_common; reflexivity|reflexivity|eexists; reflexivity].
Qed.

(** ** rawacf *)

Section Rawacf.
Variables (power : Z * Z -> Z) (ctime : Z -> pystr) (sid : Z) (key origin : pystr) (k : Z) (r : brecord).
Variables (shape : list nat) (main : list (Z * Z)) (xcfs : option (list (Z * Z))) (b : nat) (beam : Z) (raw o : record).
Hypothesis ER : rawacf_record power ctime sid key origin k r shape main xcfs b beam = Ok raw.
Hypothesis R : Conversions.record2dmap raw = Ok o.

Ltac open_rawacf nr := unfold rawacf_record in ER; destruct shape as [|nb [|nr [|nl [|]]]]; try discriminate ER;
  destruct (negb (Nat.ltb b nb) || Nat.eqb nl 0); [discriminate ER|]; cbv zeta in ER; unwind ER; apply ok_inj in ER; subst raw.

Lemma rawacf_constants :
  out_scalar o (str "rawacf.revision.major") (VNpInt NI32 1) /\ out_scalar o (str "rawacf.revision.minor") (VNpInt NI32 0) /\
  out_scalar o (str "thr") (VF32 0) /\ short_field o (str "xcf") 1 /\
  (exists nr n acfd pwr0, short_field o (str "nrang") (Z.of_nat nr) /\ out_array o (str "acfd") DF32 [nr; n; 2%nat] acfd /\ out_array o (str "pwr0") DF32 [nr] pwr0).
Proof.
  open_rawacf nr. do 3 (split; [eapply out_tail; [exact R|tail_common; reflexivity|reflexivity|eexists; reflexivity]|]).
  match goal with E : common_fields _ _ _ _ _ _ _ _ = Ok _ |- _ => destruct (passed_fields _ _ _ _ _ _ _ _ _ _ _ E R) as (_ & P2 & P3) end.
  destruct xcfs as [x|]; [|discriminate]. split; [exact P3|]. exists nr. do 3 eexists. split; [exact P2|]. split; (eapply out_array_get; [exact R|tail_common; reflexivity]).
Qed.

Lemma rawacf_tables :
  (forall pulses, vector_field r (str "pulses") BU32 pulses -> short_array o (str "ptab") [length pulses] pulses) /\
  (forall sh lags, dict_get r (str "lags") = Some (BArr BU32 sh (map CZ lags)) -> short_array o (str "ltab") sh lags).
Proof.
  open_rawacf nr. match goal with G : tables r = Ok _ |- _ => apply tables_det in G as [D1 D2] end. split.
  - intros pulses N. eexists. split; [apply map_wrap16|]. eapply out_array_get; [exact R|]. tail_common. rewrite <- (D1 _ N). reflexivity.
  - intros sh lags N. eexists. split; [apply map_wrap16|]. eapply out_array_get; [exact R|]. tail_common. rewrite <- (D2 _ _ N). reflexivity.
Qed.

Lemma rawacf_comment n c s : array_length r (str "beam_nums") n -> text_field r (str "experiment_comment") c -> text_field r (str "slice_comment") s ->
  out_scalar o (str "combf") (VStr (comment_text key origin (dec k) (dec (Z.of_nat n)) c s)).
Proof.
  intros N C S. open_rawacf nr. match goal with G : comment _ _ _ _ = Ok _ |- _ => rewrite <- (comment_det _ _ _ _ _ _ _ _ G N C S) end.
  eapply out_tail; [exact R|tail_common; reflexivity|reflexivity|eexists; reflexivity].
Qed.

Lemma rawacf_txpow : exists z, tx_power r = Ok z /\ short_field o (str "txpow") z.
Proof.
  open_rawacf nr. match goal with E : common_fields _ _ _ _ _ _ _ _ = Ok _ |- _ => destruct (passed_fields _ _ _ _ _ _ _ _ _ _ _ E R) as (P1 & _ & _) end.
  match goal with G : tx_power r = Ok ?v |- _ => exists v; split; [exact G|exact P1] end.
Qed.
End Rawacf.

(** ** The bits of the antennas *)

Lemma antenna_shift l i : 0 <= i -> antenna_bits i l = 2 ^ i * antenna_bits 0 l.
Proof.
  assert (S : forall l i, 0 <= i -> antenna_bits (i + 1) l = 2 * antenna_bits i l).
  { clear. induction l as [|c l IH]; intros i H; [reflexivity|]. cbn [antenna_bits]. rewrite (IH (i + 1)) by lia. rewrite !Z.shiftl_1_l, Z.pow_add_r by lia.
    destruct (transmits c); lia. }
  intros H. pattern i. apply natlike_ind; [|intros x Hx IH; unfold Z.succ; rewrite S, IH, Z.pow_add_r by lia; ring|exact H].
  now rewrite Z.pow_0_r, Z.mul_1_l.
Qed.
Lemma antenna_cons c l : antenna_bits 0 (c :: l) = Z.b2z (transmits c) + 2 * antenna_bits 0 l.
Proof. cbn [antenna_bits]. change (0 + 1) with 1. rewrite (antenna_shift l 1) by lia. change (2 ^ 1) with 2. destruct (transmits c); reflexivity. Qed.
Lemma antenna_testbit l : forall i : nat, Z.testbit (antenna_bits 0 l) (Z.of_nat i) = match nth_error l i with Some c => transmits c | None => false end.
Proof.
  induction l as [|c l IH]; intros i; [cbn [antenna_bits]; rewrite Z.bits_0; now destruct i|]. rewrite antenna_cons. destruct i as [|i].
  - cbn [nth_error]. change (Z.of_nat 0) with 0. apply Z.add_b2z_double_bit0.
  - cbn [nth_error]. rewrite Nat2Z.inj_succ, <- (IH i), <- Z.div2_bits by lia. f_equal. apply Z.add_b2z_double_div2.
Qed.
Lemma int16_testbit z w i : is_int16 z w -> 0 <= i < 16 -> Z.testbit w i = Z.testbit z i.
Proof.
  intros [_ M] H. rewrite <- (Z.mod_pow2_bits_low w 16), <- (Z.mod_pow2_bits_low z 16) by lia. f_equal.
  apply Z.mod_divide in M as [q M]; [|discriminate]. replace w with (z + q * 2 ^ 16) by lia. apply Z_mod_plus_full.
Qed.
Lemma zero32_spec b : 0 <= b < 2 ^ 32 -> (zero32 b = true <-> zero_phase b).
Proof.
  intros H. unfold zero32, zero_phase, f32_exp, f32_man. change (2 ^ 32) with 4294967296 in H. change (2 ^ 31) with 2147483648.
  change (2 ^ 23) with 8388608. change (2 ^ 8) with 256. split.
  - intros E. apply orb_prop in E as [E|E]; apply Z.eqb_eq in E; subst b; split; reflexivity.
  - intros [E1 E2]. pose proof (Z.div_mod b 8388608 ltac:(lia)) as D. pose proof (Z.div_mod (b / 8388608) 256 ltac:(lia)) as D'.
    assert (B : 0 <= b / 8388608 / 256 < 2).
    { split; [apply Z.div_pos; [apply Z.div_pos; lia|lia]|]. apply Z.div_lt_upper_bound; [lia|]. apply Z.div_lt_upper_bound; lia. }
    rewrite E1 in D'. rewrite E2 in D. set (x := b / 8388608 / 256) in *. clearbody x. lia.
Qed.
Lemma transmits_spec re im : 0 <= re < 2 ^ 32 -> 0 <= im < 2 ^ 32 -> (transmits (CC re im) = true <-> transmitting re im).
Proof.
  intros HR HI. pose proof (zero32_spec re HR) as ZR. pose proof (zero32_spec im HI) as ZI.
  unfold transmitting, infinite32, nan32, transmits, special32. rewrite <- ZR, <- ZI. clear ZR ZI HR HI.
  destruct (Z.eqb_spec (f32_exp re) 255), (Z.eqb_spec (f32_exp im) 255), (Z.eqb_spec (f32_man re) 0), (Z.eqb_spec (f32_man im) 0), (zero32 re), (zero32 im); cbn; intuition congruence.
Qed.
Lemma antenna_field r o z l : tx_power r = Ok z -> short_field o (str "txpow") z -> antenna_phases r l ->
  exists w, out_scalar o (str "txpow") (VNpInt NI16 w) /\
    forall i, (i < 16)%nat -> (Z.testbit w (Z.of_nat i) = true <-> exists re im, nth_error l i = Some (re, im) /\ transmitting re im).
Proof.
  intros T (w & I & O) [A B]. exists w. split; [exact O|]. intros i Hi. rewrite (int16_testbit _ _ _ I) by lia.
  unfold tx_power in T. rewrite A in T. destruct (Nat.leb _ 62); [|discriminate]. apply ok_inj in T as <-. rewrite antenna_testbit, nth_error_map.
  destruct (nth_error l i) as [[re im]|] eqn:N; cbn [option_map fst snd].
  - rewrite Forall_forall in B. specialize (B _ (nth_error_In _ _ N)). cbn [fst snd] in B. rewrite transmits_spec by tauto. split.
    + intros H. eauto.
    + intros (re' & im' & E & H). congruence.
  - split; [discriminate|]. intros (re & im & E & _). discriminate.
Qed.
Lemma no_antennas r z : tx_power r = Ok z -> dict_get r (str "tx_antenna_phases") = None -> z = -1.
Proof. intros T N. unfold tx_power in T. rewrite N in T. congruence. Qed.
