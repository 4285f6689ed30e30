(** Properties of the scaling of samples and correlations by the conversion: C68, C69. *)
From Coq Require Import String ZArith List Bool Lia QArith Qabs Lqa.
From Verif Require Import Base BytesProofs FloatBits FloatSpec DmapTypes SDarnFormats SDarn BorealisTypes BorealisFormats BorealisArrays BorealisTime
  BorealisFile BorealisConvert BorealisConvertSpec BorealisConvertProps BorealisScale BorealisScaleSpec BorealisScaleProofs BorealisScaleErrorProofs
  BorealisScaleAcfProofs BorealisScalePowerProofs.
Import ListNotations.
Open Scope list_scope.
Open Scope Z_scope.

(** ** C68 Samples *)

Lemma limited_cut b w : finite32 b -> limited16 b w -> cut_limited (real32 b) w.
Proof.
  intros [_ F] H. unfold limited16 in H. destruct (Z.eqb_spec (f32_exp b) 255) as [E|_]; [contradiction|]. cbv zeta in H.
  unfold cut_limited. assert (Q : Z.quot (Qnum (real32 b)) (QDen (real32 b)) = Z.quot (f32_val b) (2 ^ 149)).
  { unfold real32. cbn [Qdiv Qmult Qinv inject_Z Qnum Qden]. rewrite Z.mul_1_r. reflexivity. }
  rewrite Q. set (t := Z.quot (f32_val b) (2 ^ 149)) in *. clearbody t. subst w.
  destruct (Z.ltb_spec t (-32768)); [lia|]. destruct (Z.ltb_spec 32767 t); lia.
Qed.

(** The int16 values of a converted bfiq record are the samples divided by the normalization
    factor, times 32767, times the scaling factor, cut to int16 after an error of at most
    2^-21 in proportion. *)
Theorem C68_samples : forall square ctime sid rs origin k recs, -32768 <= k < 65536 ->
  converted_records scaled_sample (scaled_acf square) magnitude ctime Bfiq sid rs origin k = Ok recs ->
  exists outs, recs = concat outs /\
    Forall2 (fun p os => forall beams nseq arrays samps norm na ns nb n data,
      bfiq_source (snd p) beams nseq arrays samps norm na ns nb n data ->
      usual_norm norm -> Forall (fun z => usual_sample norm (fst z) /\ usual_sample norm (snd z)) data ->
      length os = length beams /\
      forall b, (b < length beams)%nat ->
      exists o vals, nth_error os b = Some o /\ out_array o (str "data") DI16 [length vals] vals /\
        length vals = (nseq * na * n * 2)%nat /\
        forall i x s, (i < nseq)%nat -> (x < na)%nat -> (s < n)%nat ->
        exists z re im,
          nth_error data (((x * ns + i) * nb + b) * n + s) = Some z /\
          nth_error vals (((i * na + x) * n + s) * 2) = Some re /\
          nth_error vals (((i * na + x) * n + s) * 2 + 1) = Some im /\
          near_int16 (sample_value norm k (fst z)) re /\ near_int16 (sample_value norm k (snd z)) im) rs outs.
Proof.
  intros square ctime sid rs origin k recs HK H. apply C45_samples in H as (outs & E & H). exists outs. split; [exact E|]. clear E.
  eapply BorealisFileProofs.Forall2_impl; [|exact H]. clear H. intros p os H beams nseq arrays samps norm na ns nb n data S UN UD.
  destruct (H _ _ _ _ _ _ _ _ _ _ S) as [L N]. split; [exact L|]. intros b HB. apply nth_error_Some in HB.
  destruct (nth_error beams b) as [beam|] eqn:EB; [|congruence].
  destruct (N b beam EB) as (o & w & vals & NO & _ & _ & [VL VV] & OA). exists o, vals. do 3 (split; [assumption|]).
  intros i x s Hi Hx Hs. destruct (VV i x s Hi Hx Hs) as (z & re & im & NZ & LR & LI & NR & NI).
  exists z, re, im. do 3 (split; [assumption|]). pose proof (proj1 (Forall_forall _ _) UD z (nth_error_In _ _ NZ)) as [U1 U2]. cbv beta in U1, U2.
  destruct z as [a c]. cbn [fst snd] in *.
  destruct (sample_error norm k a c UN U1 U2 ltac:(lia)) as [[F1 C1] [F2 C2]].
  split; eexists; (split; [eassumption|]); now apply limited_cut.
Qed.
Print Assumptions C68_samples.

(** In the range of int16 this is an error of little more than one unit; outside, the
    limit. *)
Theorem C68_unit : forall v w, near_int16 v w ->
  (Qabs v <= 32767 -> Qabs (inject_Z w - v) < 1 + (1 # 32))%Q /\
  ((32768 <= v)%Q -> w = 32767) /\ ((v <= -32769)%Q -> w = -32768).
Proof.
  intros v w (y & C & ->). unfold close_to in C. change (pow2 (Z.opp 21)) with (1 # 2097152)%Q in C.
  change (pow2 (-100)) with (1 # 1267650600228229401496703205376)%Q in C.
  set (q := Z.quot (Qnum y) (QDen y)).
  assert (Q : (inject_Z q - 1 < y < inject_Z q + 1)%Q /\ ((0 <= y)%Q -> 0 <= q /\ (inject_Z q <= y)%Q) /\ ((y <= 0)%Q -> q <= 0 /\ (y <= inject_Z q)%Q)).
  { unfold q, Qlt, Qle, Qminus. destruct y as [n d]. cbn [Qnum Qden inject_Z Qplus Qopp].
    pose proof (Z.quot_rem' n (Zpos d)) as E. rewrite !Z.mul_1_r. rewrite ?Pos.mul_1_l, ?Z.mul_1_l.
    destruct (Z.lt_ge_cases n 0) as [G|G].
    - pose proof (Z.rem_bound_neg_pos n (Zpos d)) as B. assert (Z.quot n (Zpos d) <= 0) by (apply Z.quot_le_upper_bound; lia). nia.
    - pose proof (Z.rem_bound_pos n (Zpos d)) as B. assert (0 <= Z.quot n (Zpos d)) by (apply Z.quot_pos; lia). nia. }
  clearbody q. destruct Q as ([Q1 Q2] & Q3 & Q4). apply Qabs_Qle_condition in C as [C1 C2].
  assert (I : forall z, (32767 <= inject_Z z)%Q -> 32767 <= z) by (intros z Z; change 32767%Q with (inject_Z 32767) in Z; now rewrite <- Zle_Qle in Z).
  assert (J : forall z, (inject_Z z < -32768 + 1)%Q -> z <= -32768).
  { intros z Z. setoid_replace (-32768 + 1)%Q with (inject_Z (-32767)) in Z by reflexivity. rewrite <- Zlt_Qlt in Z. lia. }
  assert (J' : forall z, (inject_Z z < 32768)%Q -> z <= 32767).
  { intros z Z. change 32768%Q with (inject_Z 32768) in Z. rewrite <- Zlt_Qlt in Z. lia. }
  assert (I' : forall z, (-32769 < inject_Z z)%Q -> -32768 <= z).
  { intros z Z. change (-32769)%Q with (inject_Z (-32769)) in Z. rewrite <- Zlt_Qlt in Z. lia. }
  assert (I'' : forall z, (32766 < inject_Z z)%Q -> 32767 <= z).
  { intros z Z. change (32766)%Q with (inject_Z (32766)) in Z. rewrite <- Zlt_Qlt in Z. lia. }
  split; [|split].
  - intros B. assert (B' := B). apply Qabs_Qle_condition in B' as [B1 B2].
    assert (q <= 32767).
    { apply J'. destruct (Qlt_le_dec y 0) as [Y|Y]; [|destruct (Q3 Y); lra]. destruct (Q4 ltac:(lra)) as [Z _]. 
      rewrite Zle_Qle in Z. change (inject_Z 0) with 0%Q in Z. lra. }
    assert (-32768 <= q).
    { apply I'. destruct (Qlt_le_dec 0 y) as [Y|Y]; [|destruct (Q4 Y); lra]. destruct (Q3 ltac:(lra)) as [Z _].
      rewrite Zle_Qle in Z. change (inject_Z 0) with 0%Q in Z. lra. }
    replace (Z.max (-32768) (Z.min 32767 q)) with q by lia.
    assert (Qabs v <= 32767)%Q by exact B. 
    assert (Z : (- (1 + (1 # 32)) < inject_Z q - v /\ inject_Z q - v < 1 + (1 # 32))%Q) by (split; lra).
    destruct Z as [Z1 Z2]. apply Qabs_case; intros _; lra.
  - intros V. rewrite Qabs_pos in C1, C2 by lra. assert (32767 <= q); [|lia]. apply I''. lra.
  - intros V. rewrite Qabs_neg in C1, C2 by lra. assert (q <= -32768); [|lia]. apply J. lra.
Qed.
Print Assumptions C68_unit.

(** Cases: the samples 1 - i, 2 - 2i, ... with the normalization factor 2^20; those from 2^20 on
    are limited. *)
Definition norm20 : Z := 1043 * 2 ^ 52.
Definition with_norm (r : brecord) : brecord :=
  dict_set r (str "data_normalization_factor") (BScalar BF64 (CZ norm20)).
Definition scaled_case (t : filetype) (r : brecord) : res (list record) :=
  converted_records scaled_sample (scaled_acf (fun b => make64 0 (f64_val b * f64_val b) (2 ^ 1074))) magnitude some_time t 0
    [(str "1558583991060", with_norm r)] (str "f") 1.

Definition finite32b (b : Z) : bool := (0 <=? b) && (b <? 2 ^ 32) && negb (f32_exp b =? 255).
Lemma finite32b_ok b : finite32b b = true -> finite32 b.
Proof. unfold finite32b, finite32. rewrite !andb_true_iff, negb_true_iff. lia. Qed.
Lemma usual_norm20 : usual_norm norm20.
Proof. split; [split; [split; [discriminate|reflexivity]|discriminate]|]. split; vm_compute; discriminate. Qed.
Lemma Qabs_leb a b : Qle_bool (Qabs a) b = true -> (Qabs a <= b)%Q.
Proof. apply Qle_bool_iff. Qed.
Lemma usual_powers : Forall (fun z => usual_sample norm20 (fst z) /\ usual_sample norm20 (snd z)) (powers 24).
Proof.
  assert (E : forallb (fun z => finite32b (fst z) && finite32b (snd z) &&
    Qle_bool (Qabs (real32 (fst z) / real64 norm20)) (pow2 40) && Qle_bool (Qabs (real32 (snd z) / real64 norm20)) (pow2 40)) (powers 24) = true)
    by (vm_compute; reflexivity).
  apply Forall_forall. intros z Hz. rewrite forallb_forall in E. specialize (E z Hz). rewrite !andb_true_iff in E.
  destruct E as [[[A B] C] D]. split; split; (now apply finite32b_ok || now apply Qabs_leb).
Qed.
Definition is_ok {A} (x : res A) : bool := match x with Ok _ => true | Raise _ => false end.
(** Values [is] of beam [b] of an array. *)
Definition some_values (k : pystr) (r : res (list record)) (b : nat) (is : list nat) : list (option Z) :=
  map (nth_error (nth b (values_of k r) [])) is.
Example C68_case :
  bfiq_source (with_norm conv_bfiq) [3; 4] 2 2 3 norm20 2 2 2 3 (powers 24) /\
  usual_norm norm20 /\ Forall (fun z => usual_sample norm20 (fst z) /\ usual_sample norm20 (snd z)) (powers 24) /\
  is_ok (scaled_case Bfiq conv_bfiq) = true /\
  some_values (str "data") (scaled_case Bfiq conv_bfiq) 0 [0; 6; 7; 22; 23]%nat = [Some 0; Some 127; Some (-127); Some 32767; Some (-32767)] /\
  some_values (str "data") (scaled_case Bfiq conv_bfiq) 1 [18; 19]%nat = [Some 32767; Some (-32768)].
Proof.
  split.
  { constructor; try (vm_compute; reflexivity).
    - eexists _, _. vm_compute; reflexivity.
    - split; [vm_compute; reflexivity|]. split; [eexists; vm_compute; reflexivity|vm_compute; reflexivity]. }
  split; [exact usual_norm20|]. split; [exact usual_powers|]. split; [|split]; lazy; reflexivity.
Qed.

(** Without the bound on samples this fails: when one part of a sample overflows, the other
    part is lost, too. *)
Theorem C68_overflow_refuted :
  ~ (forall norm k a b w, usual_norm norm -> finite32 a -> finite32 b -> -32768 <= k < 65536 ->
       limited16 (snd (scaled_sample norm k (a, b))) w -> near_int16 (sample_value norm k b) w).
Proof.
  intros H. set (one := 127 * 2 ^ 23).
  assert (N : near_int16 (sample_value (1023 * 2 ^ 52) 1 one) 0).
  { apply (H (1023 * 2 ^ 52) 1 (254 * 2 ^ 23) one 0).
    - split; [split; [split; [discriminate|reflexivity]|discriminate]|]. split; vm_compute; discriminate.
    - split; [split; [discriminate|reflexivity]|discriminate].
    - split; [split; [discriminate|reflexivity]|discriminate].
    - lia.
    - vm_compute. reflexivity. }
  apply C68_unit in N as [N _].
  assert (V : (sample_value (1023 * 2 ^ 52) 1 one == 32767)%Q) by (vm_compute; reflexivity).
  clear H. rewrite V in N. specialize (N ltac:(discriminate)). revert N. apply Qle_not_lt. discriminate.
Qed.
Print Assumptions C68_overflow_refuted.

(** ** C69 Correlations and powers *)

(** The values of acfd and xcfd of a converted rawacf record are the correlations times
    32767^2 times the scaling factor, divided by the square of the normalization factor, up to
    an error of 2^-22 in proportion; pwr0 is the magnitude of lag zero. *)
Theorem C69_correlations : forall square ctime sid rs origin k recs, squares square -> -32768 <= k < 65536 -> k <> 0 ->
  converted_records scaled_sample (scaled_acf square) magnitude ctime BRawacf sid rs origin k = Ok recs ->
  exists outs, recs = concat outs /\
    Forall2 (fun p os => forall beams norm nb nr nl main xcfs,
      rawacf_source (snd p) beams norm nb nr nl main xcfs -> usual_norm norm ->
      Forall (fun z => usual_lag norm k (fst z) /\ usual_lag norm k (snd z)) main ->
      Forall (fun z => usual_lag norm k (fst z) /\ usual_lag norm k (snd z)) xcfs ->
      length os = length beams /\
      forall b, (b < length beams)%nat ->
      exists o acfd xcfd pwr0, nth_error os b = Some o /\
        out_array o (str "acfd") DF32 [nr; (nl - 1)%nat; 2%nat] acfd /\
        out_array o (str "xcfd") DF32 [nr; (nl - 1)%nat; 2%nat] xcfd /\
        out_array o (str "pwr0") DF32 [nr] pwr0 /\
        (forall vals data, (vals, data) = (acfd, main) \/ (vals, data) = (xcfd, xcfs) ->
         forall i j, (i < nr)%nat -> (j < nl - 1)%nat ->
         exists z re im, nth_error data ((b * nr + i) * nl + j) = Some z /\
           nth_error vals ((i * (nl - 1) + j) * 2) = Some re /\ nth_error vals ((i * (nl - 1) + j) * 2 + 1) = Some im /\
           finite32 re /\ close_to 22 (real32 re) (lag_value norm k (fst z)) /\
           finite32 im /\ close_to 22 (real32 im) (lag_value norm k (snd z))) /\
        (forall i, (i < nr)%nat ->
         exists z p, nth_error main ((b * nr + i) * nl) = Some z /\ nth_error pwr0 i = Some p /\
           finite32 p /\ magnitude_near (real32 p) (lag_value norm k (fst z)) (lag_value norm k (snd z)))) rs outs.
Proof.
  intros square ctime sid rs origin k recs SQ HK K0 H. apply C46_correlations in H as (outs & E & H). exists outs. split; [exact E|]. clear E.
  eapply BorealisFileProofs.Forall2_impl; [|exact H]. clear H. intros p os H beams norm nb nr nl main xcfs S UN UM UX.
  destruct (H _ _ _ _ _ _ _ S) as [L N]. split; [exact L|]. intros b HB. apply nth_error_Some in HB.
  destruct (nth_error beams b) as [beam|] eqn:EB; [|congruence].
  destruct (N b beam EB) as (o & w & acfd & xcfd & pwr0 & slist & NO & _ & _ & [_ VA] & OA & [_ VX] & OX & [_ VP] & OP & _).
  exists o, acfd, xcfd, pwr0. do 4 (split; [assumption|]).
  assert (G : forall z, usual_lag norm k (fst z) -> usual_lag norm k (snd z) ->
    let s := scaled_acf square norm k z in
    (finite32 (fst s) /\ close_to 22 (real32 (fst s)) (lag_value norm k (fst z))) /\
    (finite32 (snd s) /\ close_to 22 (real32 (snd s)) (lag_value norm k (snd z)))).
  { intros [x y] U1 U2. cbn [fst snd] in *. apply lag_error; (assumption || lia). }
  assert (C : forall vals data, Forall (fun z => usual_lag norm k (fst z) /\ usual_lag norm k (snd z)) data ->
    (forall i j, (i < nr)%nat -> (j < nl - 1)%nat ->
     exists z, nth_error data ((b * nr + i) * nl + j) = Some z /\
       nth_error vals ((i * (nl - 1) + j) * 2) = Some (fst (scaled_acf square norm k z)) /\
       nth_error vals ((i * (nl - 1) + j) * 2 + 1) = Some (snd (scaled_acf square norm k z))) ->
    forall i j, (i < nr)%nat -> (j < nl - 1)%nat ->
    exists z re im, nth_error data ((b * nr + i) * nl + j) = Some z /\
      nth_error vals ((i * (nl - 1) + j) * 2) = Some re /\ nth_error vals ((i * (nl - 1) + j) * 2 + 1) = Some im /\
      finite32 re /\ close_to 22 (real32 re) (lag_value norm k (fst z)) /\
      finite32 im /\ close_to 22 (real32 im) (lag_value norm k (snd z))).
  { intros vals data U V i j Hi Hj. destruct (V i j Hi Hj) as (z & NZ & N1 & N2). exists z. eexists _, _. split; [exact NZ|].
    split; [exact N1|]. split; [exact N2|]. pose proof (proj1 (Forall_forall _ _) U z (nth_error_In _ _ NZ)) as [U1 U2].
    destruct (G z U1 U2) as [[A1 A2] [A3 A4]]. auto. }
  split.
  - intros vals data [E|E]; injection E as -> ->; now apply C.
  - intros i Hi. destruct (VP i Hi) as (z & NZ & NP). exists z. eexists. split; [exact NZ|]. split; [exact NP|].
    pose proof (proj1 (Forall_forall _ _) UM z (nth_error_In _ _ NZ)) as [U1 U2]. destruct (G z U1 U2) as [[A1 A2] [A3 A4]].
    destruct (scaled_acf square norm k z) as [re im]. cbn [fst snd] in *. apply power_near; try assumption; [apply U1|apply U2].
Qed.
Print Assumptions C69_correlations.

(** A square that is rounded to the nearest float64 will do. *)
Theorem C69_square : squares (fun b => make64 0 (f64_val b * f64_val b) (2 ^ 1074)).
Proof. exact squares_nearest. Qed.
Print Assumptions C69_square.

Lemma usual_lags : Forall (fun z => usual_lag norm20 1 (fst z) /\ usual_lag norm20 1 (snd z)) (powers 12).
Proof.
  assert (E : forallb (fun z => finite32b (fst z) && finite32b (snd z) &&
    Qle_bool (Qabs (lag_value norm20 1 (fst z))) (pow2 50) && Qle_bool (Qabs (lag_value norm20 1 (snd z))) (pow2 50)) (powers 12) = true)
    by (vm_compute; reflexivity).
  apply Forall_forall. intros z Hz. rewrite forallb_forall in E. specialize (E z Hz). rewrite !andb_true_iff in E.
  destruct E as [[[A B] C] D]. split; split; (now apply finite32b_ok || now apply Qabs_leb).
Qed.
(** The first correlation, 1 - i, is scaled to 32767^2 / 2^40, which is the float32 with this
    pattern up to rounding. *)
Example C69_case :
  rawacf_source (with_norm conv_raw) [3; 4] norm20 2 2 3 (powers 12) (rev (powers 12)) /\
  Forall (fun z => usual_lag norm20 1 (fst z) /\ usual_lag norm20 1 (snd z)) (rev (powers 12)) /\
  is_ok (scaled_case BRawacf conv_raw) = true /\
  some_values (str "acfd") (scaled_case BRawacf conv_raw) 0 [0%nat] = [Some 981466112] /\
  (lag_value norm20 1 (127 * 2 ^ 23) == (32767 * 32767) # 2 ^ 40)%Q /\
  (Qabs (real32 981466112 - lag_value norm20 1 (127 * 2 ^ 23)) <= (1 # 2 ^ 24) * lag_value norm20 1 (127 * 2 ^ 23))%Q.
Proof.
  split.
  { constructor; try (vm_compute; reflexivity). exists (str "correlation_dimensions"). split; [now left|].
    split; (split; [vm_compute; reflexivity|]; split; [eexists; vm_compute; reflexivity|vm_compute; reflexivity]). }
  split; [apply Forall_rev, usual_lags|]. split; [lazy; reflexivity|]. split; [lazy; reflexivity|].
  split; vm_compute; [reflexivity|discriminate].
Qed.
