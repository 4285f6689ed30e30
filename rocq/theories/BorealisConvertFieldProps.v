(** Properties C60 to C65: the single fields of the converted records.  [each_beam] says
    for which record, beam and converted record. *)
From Coq Require Import String ZArith List Bool Lia.
From Verif Require Import Base Bytes FloatBits FloatSpec DmapTypes SDarnFormats SDarn BorealisTypes BorealisFormats BorealisTime BorealisTimeProofs
  BorealisArrays BorealisFile BorealisCases BorealisArrayProps BorealisConvert BorealisConvertSpec BorealisConvertProofs BorealisConvertSampleProofs
  BorealisConvertProps BorealisConvertFieldSpec BorealisConvertNumberProofs BorealisDateProofs BorealisConvertFieldProofs BorealisConvertTailProofs.
From Verif Require Conversions.
Import ListNotations.
Open Scope list_scope.
Open Scope Z_scope.

(** A record with beams 3 and 4, 3.5 s, ranges of 44.5 km, noise 0.1, azimuths 1.5 and
    -3.25, frequency 90000 kHz, which does not fit, an agc status word and no lp one. *)
Definition rich (r : brecord) : brecord :=
  fold_left (fun r p => dict_set r (fst p) (snd p))
    [(str "int_time", BScalar BF32 (CZ 1080033280)); (str "range_sep", BScalar BF32 (CZ 1110573056));
     (str "first_range_rtt", BScalar BF32 (CZ 1150687232)); (str "freq", BScalar BU32 (CZ 90000));
     (str "noise_at_freq", BArr BF64 [2%nat] [CZ 4591870180066957722; CZ 4609434218613702656]);
     (str "beam_azms", BArr BF64 [2%nat] [CZ 4609434218613702656; CZ 13837872805049270272]);
     (str "agc_status_word", BScalar BU32 (CZ 3))]
    (filter (fun p => negb (str_eqb (fst p) (str "lp_status_word"))) r).
Definition antennas : list (Z * Z) := [(1065353216, 0); (0, 2 ^ 31); (2143289344, 0); (0, 2139095040)].
Definition rich_raw : brecord :=
  dict_set (rich conv_raw) (str "tx_antenna_phases") (BArr BC64 [4%nat] (map (fun c => CC (fst c) (snd c)) antennas)).
Definition rich_bfiq : brecord := rich conv_bfiq.
Definition from_raw : res (list record) := convert_case BRawacf [(str "1558583991060", rich_raw)].
Definition from_bfiq : res (list record) := convert_case Bfiq [(str "1558583991060", rich_bfiq)].
(** The values of a field in the converted records. *)
Definition shorts (l : list Z) : list (option pyval) := map (fun z => Some (VNpInt NI16 z)) l.
Definition ints (l : list Z) : list (option pyval) := map (fun z => Some (VNpInt NI32 z)) l.
Definition floats (l : list Z) : list (option pyval) := map (fun z => Some (VF32 z)) l.
Definition texts (l : list pystr) : list (option pyval) := map (fun s => Some (VStr s)) l.

(** ** C60 Copied, counted and constant fields *)

(** Copied as 16-bit integers. *)
Theorem C60_copied : forall scale_iq scale_acf power ctime t sid rs origin k recs,
  converted_records scale_iq scale_acf power ctime t sid rs origin k = Ok recs ->
  each_beam rs recs (fun key r b beam o =>
    forall f f' ty z, In (f, f') copied_fields -> number_field r f ty z -> short_field o f' z).
Proof.
  intros scale_iq scale_acf power ctime t sid rs origin k recs. apply each_common.
  intros key r b beam tx nr x c rest o E R f f' ty z. exact (copied_field _ _ _ _ _ _ _ _ _ _ _ E R f f' ty z).
Qed.
Print Assumptions C60_copied.

(** The status words, 0 if there are none. *)
Theorem C60_status : forall scale_iq scale_acf power ctime t sid rs origin k recs,
  converted_records scale_iq scale_acf power ctime t sid rs origin k = Ok recs ->
  each_beam rs recs (fun key r b beam o =>
    forall f f', In (f, f') status_fields ->
      (dict_get r f = None -> short_field o f' 0) /\ (forall ty z, number_field r f ty z -> short_field o f' z)).
Proof.
  intros scale_iq scale_acf power ctime t sid rs origin k recs. apply each_common.
  intros key r b beam tx nr x c rest o E R f f'. exact (status_field _ _ _ _ _ _ _ _ _ _ _ E R f f').
Qed.
Print Assumptions C60_status.

(** The slice, the beam, the numbers of pulses and of lags (without the last one). *)
Theorem C60_counts : forall scale_iq scale_acf power ctime t sid rs origin k recs,
  converted_records scale_iq scale_acf power ctime t sid rs origin k = Ok recs ->
  each_beam rs recs (fun key r b beam o =>
    short_field o (str "channel") sid /\ short_field o (str "bmnum") beam /\
    (forall n, array_length r (str "pulses") n -> short_field o (str "mppul") (Z.of_nat n)) /\
    (forall n, array_length r (str "lags") n -> short_field o (str "mplgs") (Z.of_nat n - 1))).
Proof.
  intros scale_iq scale_acf power ctime t sid rs origin k recs. apply each_common.
  intros key r b beam tx nr x c rest o E R. exact (count_fields _ _ _ _ _ _ _ _ _ _ _ E R).
Qed.
Print Assumptions C60_counts.

Theorem C60_constants : forall scale_iq scale_acf power ctime t sid rs origin k recs,
  converted_records scale_iq scale_acf power ctime t sid rs origin k = Ok recs ->
  each_beam rs recs (fun key r b beam o => forall f v, In (f, v) constant_fields -> out_scalar o f v).
Proof.
  intros scale_iq scale_acf power ctime t sid rs origin k recs. apply each_common.
  intros key r b beam tx nr x c rest o E R f v. exact (constant_field _ _ _ _ _ _ _ _ _ _ _ E R f v).
Qed.
Print Assumptions C60_constants.

(** The tables of pulses and lags, of the same shape. *)
Theorem C60_tables : forall scale_iq scale_acf power ctime t sid rs origin k recs,
  converted_records scale_iq scale_acf power ctime t sid rs origin k = Ok recs ->
  each_beam rs recs (fun key r b beam o =>
    (forall pulses, vector_field r (str "pulses") BU32 pulses -> short_array o (str "ptab") [length pulses] pulses) /\
    (forall shape lags, dict_get r (str "lags") = Some (BArr BU32 shape (map CZ lags)) -> short_array o (str "ltab") shape lags)).
Proof.
  intros scale_iq scale_acf power ctime t sid rs origin k recs H. apply converted_beams in H. revert H. apply each_beam_impl.
  intros key r b beam o (raw & BR & R). destruct t; try contradiction.
  - destruct BR as (sh & d & E). exact (iqdat_tables _ _ _ _ _ _ _ _ _ _ _ _ E R).
  - destruct BR as (sh & m & x & E). exact (rawacf_tables _ _ _ _ _ _ _ _ _ _ _ _ _ _ E R).
Qed.
Print Assumptions C60_tables.

(** iqdat: counts; no transmitted power; the interferometer is asked for by the name of an
    antenna array, if the names are texts. *)
Theorem C60_iqdat : forall scale_iq scale_acf power ctime sid rs origin k recs,
  converted_records scale_iq scale_acf power ctime Bfiq sid rs origin k = Ok recs ->
  each_beam rs recs (fun key r b beam o =>
    (out_scalar o (str "iqdata.revision.major") (VNpInt NI32 1) /\ out_scalar o (str "iqdata.revision.minor") (VNpInt NI32 0) /\
     (forall ty z, number_field r (str "num_sequences") ty z -> int_field o (str "seqnum") z /\
        (0 <= z -> out_array o (str "tatten") DI16 [Z.to_nat z] (repeat 0 (Z.to_nat z)))) /\
     (forall n, array_length r (str "antenna_arrays_order") n -> int_field o (str "chnnum") (Z.of_nat n)) /\
     (forall ty z, number_field r (str "num_samps") ty z -> int_field o (str "smpnum") z) /\
     (forall ty z, number_field r (str "num_ranges") ty z -> short_field o (str "nrang") z) /\
     short_field o (str "txpow") (-1)) /\
    (forall shape names, dict_get r (str "antenna_arrays_order") = Some (BArr BNpStr shape (map CS names)) ->
       (In (str "intf") names -> short_field o (str "xcf") 1) /\ (~ In (str "intf") names -> short_field o (str "xcf") 0)) /\
    (forall shape names, dict_get r (str "antenna_arrays_order") = Some (BArr BBytes shape names) -> short_field o (str "xcf") 0)).
Proof.
  intros scale_iq scale_acf power ctime sid rs origin k recs H. apply converted_beams in H. revert H. apply each_beam_impl.
  intros key r b beam o (raw & (sh & d & E) & R).
  split; [exact (iqdat_counts _ _ _ _ _ _ _ _ _ _ _ _ E R)|exact (iqdat_xcf _ _ _ _ _ _ _ _ _ _ _ _ E R)].
Qed.
Print Assumptions C60_iqdat.

(** rawacf: the number of ranges is that of the arrays. *)
Theorem C60_rawacf : forall scale_iq scale_acf power ctime sid rs origin k recs,
  converted_records scale_iq scale_acf power ctime BRawacf sid rs origin k = Ok recs ->
  each_beam rs recs (fun key r b beam o =>
    out_scalar o (str "rawacf.revision.major") (VNpInt NI32 1) /\ out_scalar o (str "rawacf.revision.minor") (VNpInt NI32 0) /\
    out_scalar o (str "thr") (VF32 0) /\ short_field o (str "xcf") 1 /\
    (exists nr n acfd pwr0, short_field o (str "nrang") (Z.of_nat nr) /\
       out_array o (str "acfd") DF32 [nr; n; 2%nat] acfd /\ out_array o (str "pwr0") DF32 [nr] pwr0)).
Proof.
  intros scale_iq scale_acf power ctime sid rs origin k recs H. apply converted_beams in H. revert H. apply each_beam_impl.
  intros key r b beam o (raw & (sh & m & x & E) & R). exact (rawacf_constants _ _ _ _ _ _ _ _ _ _ _ _ _ _ E R).
Qed.
Print Assumptions C60_rawacf.

(** tfreq 90000 - 65536. *)
Example C60_case :
  vector_field rich_raw (str "beam_nums") BU32 [3; 4] /\ vector_field rich_bfiq (str "beam_nums") BU32 [3; 4] /\
  number_field rich_raw (str "freq") BU32 90000 /\ dict_get rich_raw (str "lp_status_word") = None /\
  number_field rich_raw (str "agc_status_word") BU32 3 /\ array_length rich_raw (str "lags") 3 /\
  vector_field rich_bfiq (str "pulses") BU32 [0; 9] /\
  map (fun k => scalars_of k from_raw) [str "cp"; str "nave"; str "scan"; str "txpl"; str "mpinc"; str "tfreq"] =
    map shorts [[3503; 3503]; [2; 2]; [1; 1]; [300; 300]; [2400; 2400]; [24464; 24464]] /\
  map (fun k => scalars_of k from_raw) [str "stat.agc"; str "stat.lopwr"; str "channel"; str "bmnum"; str "mppul"; str "mplgs"] =
    map shorts [[3; 3]; [0; 0]; [0; 0]; [3; 4]; [2; 2]; [2; 2]] /\
  map (fun k => scalars_of k from_raw) [str "nrang"; str "xcf"] = map shorts [[2; 2]; [1; 1]] /\
  map (fun k => scalars_of k from_bfiq) [str "nrang"; str "xcf"; str "txpow"] = map shorts [[75; 75]; [1; 1]; [-1; -1]] /\
  map (fun k => scalars_of k from_bfiq) [str "seqnum"; str "chnnum"; str "smpnum"; str "lvmax"] =
    map ints [[2; 2]; [2; 2]; [3; 3]; [20000; 20000]] /\
  values_of (str "ptab") from_bfiq = [[0; 9]; [0; 9]] /\ values_of (str "ltab") from_raw = [[0; 0; 0; 9; 9; 9]; [0; 0; 0; 9; 9; 9]] /\
  values_of (str "tatten") from_bfiq = [[0; 0]; [0; 0]].
Proof. repeat (split; [first [field | eexists _, _, _; field]|]). field. Qed.

(** ** C61 Time *)

(** The fields of the time are those of the first timestamp, to the microsecond, in the
    Gregorian calendar; origin.time is the text for the same time. *)
Theorem C61_time : forall scale_iq scale_acf power ctime t sid rs origin k recs,
  converted_records scale_iq scale_acf power ctime t sid rs origin k = Ok recs ->
  each_beam rs recs (fun key r b beam o =>
    forall t0 l, vector_field r (str "sqn_timestamps") BF64 (t0 :: l) ->
    exists m yr mo dy hr mt sc us, micros_of t0 m /\ is_time m yr mo dy hr mt sc us /\
      (0 <= t0 -> f64_sign t0 = 0 -> f64_exp t0 = 1053 -> nearest_integer (f64_val t0 * 1000000) (2 ^ 1074) m) /\
      out_scalar o (str "origin.time") (VStr (ctime m)) /\
      out_scalar o (str "time.yr") (VNpInt NI16 yr) /\ out_scalar o (str "time.mo") (VNpInt NI16 mo) /\
      out_scalar o (str "time.dy") (VNpInt NI16 dy) /\ out_scalar o (str "time.hr") (VNpInt NI16 hr) /\
      out_scalar o (str "time.mt") (VNpInt NI16 mt) /\ out_scalar o (str "time.sc") (VNpInt NI16 sc) /\
      out_scalar o (str "time.us") (VNpInt NI32 us)).
Proof.
  intros scale_iq scale_acf power ctime t sid rs origin k recs. apply each_common.
  intros key r b beam tx nr x c rest o E R t0 l N.
  destruct (time_field _ _ _ _ _ _ _ _ _ _ _ E R t0 l N) as (m & yr & mo & dy & hr & mt & sc & us & EM & T & H).
  exists m, yr, mo, dy, hr, mt, sc, us. split; [exact (micros_near _ _ EM)|]. split; [exact T|]. split; [|exact H].
  intros B S X. exact (micros_nearest _ _ B S X EM).
Qed.
Print Assumptions C61_time.

(** Every day has exactly one date. *)
Theorem C61_dates : forall n, exists t, date_of n t /\ valid_date t /\ forall t', date_of n t' -> t' = t.
Proof.
  intros n. exists (civil n). split; [apply civil_date|]. split; [apply civil_next|]. intros t' H. now apply date_civil.
Qed.
Print Assumptions C61_dates.

(** 2019-05-23 03:59:51.06; the day before 2000-03-01. *)
Example C61_case :
  vector_field rich_raw (str "sqn_timestamps") BF64 [t1; t1 + 1] /\ f64_sign t1 = 0 /\ f64_exp t1 = 1053 /\
  map (fun k => scalars_of k from_raw) [str "time.yr"; str "time.mo"; str "time.dy"; str "time.hr"; str "time.mt"; str "time.sc"] =
    map shorts [[2019; 2019]; [5; 5]; [23; 23]; [3; 3]; [59; 59]; [51; 51]] /\
  scalars_of (str "time.us") from_raw = ints [60000; 60000] /\
  scalars_of (str "origin.time") from_raw = texts [some_time 0; some_time 0] /\
  date_of 11016 (2000, 2, 29) /\ date_of (-1) (1969, 12, 31) /\ next_day (1900, 2, 28) = (1900, 3, 1).
Proof.
  repeat (split; [field|]). split; [exact (civil_date 11016)|]. split; [exact (civil_date (-1))|]. field.
Qed.

(** ** C62 Fields from floats *)

(** lagfr: cut off. *)
Theorem C62_lagfr : forall scale_iq scale_acf power ctime t sid rs origin k recs,
  converted_records scale_iq scale_acf power ctime t sid rs origin k = Ok recs ->
  each_beam rs recs (fun key r b beam o =>
    forall x, number_field r (str "first_range_rtt") BF32 x -> f32_exp x <> 255 ->
      - 2 ^ 31 <= Z.quot (f32_val x) (2 ^ 149) < 2 ^ 31 -> short_field o (str "lagfr") (Z.quot (f32_val x) (2 ^ 149))).
Proof.
  intros scale_iq scale_acf power ctime t sid rs origin k recs. apply each_common.
  intros key r b beam tx nr y c rest o E R x. exact (lagfr_field _ _ _ _ _ _ _ _ _ _ _ E R x).
Qed.
Print Assumptions C62_lagfr.

(** smsep: the microseconds between two samples, for at least 1/1000 Hz. *)
Theorem C62_smsep : forall scale_iq scale_acf power ctime t sid rs origin k recs,
  converted_records scale_iq scale_acf power ctime t sid rs origin k = Ok recs ->
  each_beam rs recs (fun key r b beam o =>
    forall x, number_field r (str "rx_sample_rate") BF64 x -> f64_exp x <> 2047 -> 2 ^ 1074 <= 1000 * f64_val x ->
      exists n, cut_quotient 53 (1000000 * 2 ^ 1074) (f64_val x) n /\ short_field o (str "smsep") n).
Proof.
  intros scale_iq scale_acf power ctime t sid rs origin k recs. apply each_common.
  intros key r b beam tx nr y c rest o E R x. exact (smsep_field _ _ _ _ _ _ _ _ _ _ _ E R x).
Qed.
Print Assumptions C62_smsep.

(** intt.sc and intt.us: the integration time, seconds rounded down, the microseconds cut
    off. *)
Theorem C62_intt : forall scale_iq scale_acf power ctime t sid rs origin k recs,
  converted_records scale_iq scale_acf power ctime t sid rs origin k = Ok recs ->
  each_beam rs recs (fun key r b beam o =>
    forall x, number_field r (str "int_time") BF32 x -> f32_exp x <> 255 -> - 2 ^ 31 <= f32_val x / 2 ^ 149 < 2 ^ 31 ->
      short_field o (str "intt.sc") (f32_val x / 2 ^ 149) /\
      out_scalar o (str "intt.us") (VNpInt NI32 (Z.quot (Z.rem (f32_val x) (2 ^ 149) * 1000000) (2 ^ 149)))).
Proof.
  intros scale_iq scale_acf power ctime t sid rs origin k recs. apply each_common.
  intros key r b beam tx nr y c rest o E R x. exact (intt_fields _ _ _ _ _ _ _ _ _ _ _ E R x).
Qed.
Print Assumptions C62_intt.

(** frang and rsep: the nearest integers. *)
Theorem C62_ranges : forall scale_iq scale_acf power ctime t sid rs origin k recs,
  converted_records scale_iq scale_acf power ctime t sid rs origin k = Ok recs ->
  each_beam rs recs (fun key r b beam o =>
    forall f f' x, In (f, f') [(str "first_range", str "frang"); (str "range_sep", str "rsep")] -> number_field r f BF32 x ->
      exists n, nearest_integer (f32_val x) (2 ^ 149) n /\ short_field o f' n).
Proof.
  intros scale_iq scale_acf power ctime t sid rs origin k recs. apply each_common.
  intros key r b beam tx nr y c rest o E R f f' x. exact (range_fields _ _ _ _ _ _ _ _ _ _ _ E R f f' x).
Qed.
Print Assumptions C62_ranges.

(** noise.search and bmazm: the first noise, the azimuth of the beam, as float32. *)
Theorem C62_noise : forall scale_iq scale_acf power ctime t sid rs origin k recs,
  converted_records scale_iq scale_acf power ctime t sid rs origin k = Ok recs ->
  each_beam rs recs (fun key r b beam o =>
    (forall x l, vector_field r (str "noise_at_freq") BF64 (x :: l) -> 0 <= x < 2 ^ 64 -> f64_exp x <> 2047 ->
       exists y, nearest_single x y /\ out_scalar o (str "noise.search") (VF32 y)) /\
    (forall x l, vector_field r (str "beam_azms") BF64 l -> nth_error l b = Some x -> 0 <= x < 2 ^ 64 -> f64_exp x <> 2047 ->
       exists y, nearest_single x y /\ out_scalar o (str "bmazm") (VF32 y))).
Proof.
  intros scale_iq scale_acf power ctime t sid rs origin k recs. apply each_common.
  intros key r b beam tx nr y c rest o E R. split.
  - intros x l. exact (noise_field _ _ _ _ _ _ _ _ _ _ _ E R x l).
  - intros x l. exact (azimuth_field _ _ _ _ _ _ _ _ _ _ _ E R x l).
Qed.
Print Assumptions C62_noise.

(** iqdat: skpnum, the first range in ranges; tnoise. *)
Theorem C62_iqdat : forall scale_iq scale_acf power ctime sid rs origin k recs,
  converted_records scale_iq scale_acf power ctime Bfiq sid rs origin k = Ok recs ->
  each_beam rs recs (fun key r b beam o =>
    (forall x y, number_field r (str "first_range") BF32 x -> number_field r (str "range_sep") BF32 y ->
       f32_exp x <> 255 -> f32_exp y <> 255 -> f32_sign x = 0 -> 0 < f32_val y -> f32_val x < 2 ^ 24 * f32_val y ->
       exists n, cut_quotient 24 (f32_val x) (f32_val y) n /\ out_scalar o (str "skpnum") (VNpInt NI32 n)) /\
    (forall l, vector_field r (str "noise_at_freq") BF64 l ->
       item_array o (str "tnoise") DF32 l (fun x y => 0 <= x < 2 ^ 64 -> f64_exp x <> 2047 -> nearest_single x y))).
Proof.
  intros scale_iq scale_acf power ctime sid rs origin k recs H. apply converted_beams in H. revert H. apply each_beam_impl.
  intros key r b beam o (raw & (sh & d & E) & R). split.
  - intros x y. exact (iqdat_skip _ _ _ _ _ _ _ _ _ _ _ _ E R x y).
  - intros l. exact (iqdat_noise _ _ _ _ _ _ _ _ _ _ _ _ E R l).
Qed.
Print Assumptions C62_iqdat.

(** 1200.75 is cut to 1200, 44.5 rounded to 44, 3.5 seconds are 3 and 500000; bmazm and
    noise.search as float32; skpnum 180 / 44.5. *)
Example C62_case :
  number_field rich_bfiq (str "first_range_rtt") BF32 1150687232 /\ number_field rich_bfiq (str "int_time") BF32 1080033280 /\
  number_field rich_bfiq (str "rx_sample_rate") BF64 4659894508848316416 /\ 2 ^ 1074 <= 1000 * f64_val 4659894508848316416 /\
  vector_field rich_bfiq (str "noise_at_freq") BF64 [4591870180066957722; 4609434218613702656] /\
  map (fun k => scalars_of k from_bfiq) [str "lagfr"; str "smsep"; str "intt.sc"; str "frang"; str "rsep"] =
    map shorts [[1200; 1200]; [286; 286]; [3; 3]; [180; 180]; [44; 44]] /\
  map (fun k => scalars_of k from_bfiq) [str "intt.us"; str "skpnum"] = map ints [[500000; 500000]; [4; 4]] /\
  map (fun k => scalars_of k from_bfiq) [str "noise.search"; str "bmazm"] = map floats [[1036831949; 1036831949]; [1069547520; 3226468352]] /\
  values_of (str "tnoise") from_bfiq = [[1036831949; 1069547520]; [1036831949; 1069547520]].
Proof. repeat (split; [first [field | vm_compute; discriminate]|]). field. Qed.

(** ** C63 The times of the sequences *)

(** The timestamps, in seconds, are taken for milliseconds: tsc is their thousandth part,
    tus the rest times 1000. *)
Theorem C63_times : forall scale_iq scale_acf power ctime sid rs origin k recs,
  converted_records scale_iq scale_acf power ctime Bfiq sid rs origin k = Ok recs ->
  each_beam rs recs (fun key r b beam o =>
    forall times, vector_field r (str "sqn_timestamps") BF64 times ->
      item_array o (str "tsc") DI32 times
        (fun t z => usual_time t -> cut_quotient 53 (f64_val t) (1000 * 2 ^ 1074) z) /\
      item_array o (str "tus") DI32 times
        (fun t z => usual_time t -> cut_quotient 53 ((f64_val t mod (1000 * 2 ^ 1074)) * 1000) (2 ^ 1074) z)).
Proof.
  intros scale_iq scale_acf power ctime sid rs origin k recs H. apply converted_beams in H. revert H. apply each_beam_impl.
  intros key r b beam o (raw & (sh & d & E) & R). intros times. exact (iqdat_times _ _ _ _ _ _ _ _ _ _ _ _ E R times).
Qed.
Print Assumptions C63_times.

(** 1558583991.06 s: tsc should be 1558583991. *)
Example C63_case :
  vector_field rich_bfiq (str "sqn_timestamps") BF64 [t1; t1 + 1] /\ usual_time t1 /\
  values_of (str "tsc") from_bfiq = [[1558583; 1558583]; [1558583; 1558583]] /\
  values_of (str "tus") from_bfiq = [[991059; 991060]; [991059; 991060]].
Proof.
  split; [field|]. split; [split; [vm_compute; congruence|]; split; [field|vm_compute; reflexivity]|]. split; field.
Qed.

(** tsc and tus are the seconds and microseconds of the timestamps. *)
Theorem C63_seconds_refuted : ~ (forall scale_iq scale_acf power ctime sid rs origin k recs,
  converted_records scale_iq scale_acf power ctime Bfiq sid rs origin k = Ok recs ->
  each_beam rs recs (fun key r b beam o =>
    forall times, vector_field r (str "sqn_timestamps") BF64 times ->
      item_array o (str "tsc") DI32 times (fun t z => usual_time t -> cut_quotient 53 (f64_val t) (2 ^ 1074) z))).
Proof.
  intros H. destruct from_bfiq as [recs|] eqn:E; [|vm_compute in E; discriminate E].
  specialize (H same_scale same_scale fst some_time 0 [(str "1558583991060", rich_bfiq)] (str "f") 1 recs E). destruct H as (outs & C & F). inversion F as [|p os r0 outs0 Hp F0 Ep Eo]. subst p r0 outs. inversion F0. subst outs0. clear F F0. cbn [fst snd] in Hp.
  destruct (Hp [3; 4] ltac:(field)) as (_ & P). destruct (P 0%nat 3 eq_refl) as (o & N & Q).
  destruct (Q [t1; t1 + 1] ltac:(field)) as (l & A & L). clear P Q Hp.
  inversion L as [|t z ts l0 Hz L0 Et El]. subst t ts l. specialize (Hz (proj1 (proj2 C63_case))).
  assert (V : values_of (str "tsc") from_bfiq = [[1558583; 1558583]; [1558583; 1558583]]) by field. rewrite E, C in V. clear E C.
  destruct os as [|o' os]; [discriminate N|]. injection N as ->. 
  apply (f_equal (hd [])) in V. change (array_values o (str "tsc") = [1558583; 1558583]) in V.
  unfold array_values in V. destruct A as (a & G & A). rewrite G, A in V. apply (f_equal (hd 0)) in V. change (z = 1558583) in V. subst z.
  destruct Hz as [Hz|[Hz _]]; vm_compute in Hz; discriminate Hz.
Qed.
Print Assumptions C63_seconds_refuted.

(** ** C64 Texts *)

Theorem C64_texts : forall scale_iq scale_acf power ctime t sid rs origin k recs,
  converted_records scale_iq scale_acf power ctime t sid rs origin k = Ok recs ->
  each_beam rs recs (fun key r b beam o =>
    (forall h n, text_field r (str "borealis_git_hash") h -> text_field r (str "experiment_name") n ->
       out_scalar o (str "origin.command") (VStr (str "Borealis " ++ h ++ str " " ++ n))) /\
    (forall n c s, array_length r (str "beam_nums") n -> text_field r (str "experiment_comment") c ->
       text_field r (str "slice_comment") s ->
       exists scaling beams, numeral k scaling /\ numeral (Z.of_nat n) beams /\
         out_scalar o (str "combf") (VStr (comment_text key origin scaling beams c s)))).
Proof.
  intros scale_iq scale_acf power ctime t sid rs origin k recs H.
  apply converted_beams in H. revert H. apply each_beam_impl. intros key r b beam o (raw & BR & R). split.
  - intros h n TH TN. destruct t; try contradiction.
    + destruct BR as (sh & d & E). apply BorealisConvertFileProofs.iqdat_common in E as (tx & nr & x & c & rest & EC & ->). exact (command_field _ _ _ _ _ _ _ _ _ _ _ EC R h n TH TN).
    + destruct BR as (sh & m & x' & E). apply BorealisConvertFileProofs.rawacf_common in E as (tx & nr & x & c & rest & EC & ->). exact (command_field _ _ _ _ _ _ _ _ _ _ _ EC R h n TH TN).
  - intros n c s N C S. exists (dec k), (dec (Z.of_nat n)). split; [apply dec_numeral|]. split; [apply dec_numeral|]. destruct t; try contradiction.
    + destruct BR as (sh & d & E). exact (iqdat_comment _ _ _ _ _ _ _ _ _ _ _ _ _ _ _ E R N C S).
    + destruct BR as (sh & m & x & E). exact (rawacf_comment _ _ _ _ _ _ _ _ _ _ _ _ _ _ E R _ _ _ N C S).
Qed.
Print Assumptions C64_texts.

Example C64_case :
  text_field rich_raw (str "borealis_git_hash") hash06 /\ text_field rich_raw (str "experiment_name") (str "InterleaveNormalScan") /\
  array_length rich_raw (str "beam_nums") 2 /\ text_field rich_raw (str "experiment_comment") (str "none") /\
  scalars_of (str "origin.command") from_raw =
    (let s := str "Borealis v0.6-61-gc13ad17 InterleaveNormalScan" in texts [s; s]) /\
  scalars_of (str "combf") from_raw =
    (let s := str "Converted from Borealis file: f record 1558583991060 with scaling factor = 1 ; Number of beams in record: 2 ; none ; " in
     texts [s; s]) /\
  numeral 1558 (str "1558") /\ numeral (-20) (str "-20").
Proof.
  repeat (split; [first [field | left; field | eexists _, _, _; field]|]). split; [exact (dec_numeral 1558)|exact (dec_numeral (-20))].
Qed.

(** ** C65 Transmitting antennas *)

(** rawacf: bit i of txpow says whether antenna i transmits; without phases it is -1. *)
Theorem C65_antennas : forall scale_iq scale_acf power ctime sid rs origin k recs,
  converted_records scale_iq scale_acf power ctime BRawacf sid rs origin k = Ok recs ->
  each_beam rs recs (fun key r b beam o =>
    (forall l, antenna_phases r l ->
       exists w, out_scalar o (str "txpow") (VNpInt NI16 w) /\
         forall i, (i < 16)%nat ->
           (Z.testbit w (Z.of_nat i) = true <-> exists re im, nth_error l i = Some (re, im) /\ transmitting re im)) /\
    (dict_get r (str "tx_antenna_phases") = None -> short_field o (str "txpow") (-1))).
Proof.
  intros scale_iq scale_acf power ctime sid rs origin k recs H. apply converted_beams in H. revert H. apply each_beam_impl.
  intros key r b beam o (raw & (sh & m & x & E) & R). destruct (rawacf_txpow _ _ _ _ _ _ _ _ _ _ _ _ _ _ E R) as (z & T & P). split.
  - intros l A. exact (antenna_field _ _ _ _ T P A).
  - intros N. rewrite <- (no_antennas _ _ T N). exact P.
Qed.
Print Assumptions C65_antennas.

(** The first and the last antenna; the phases 1, -0i, NaN and infinity. *)
Example C65_case :
  antenna_phases rich_raw antennas /\ dict_get rich_bfiq (str "tx_antenna_phases") = None /\
  scalars_of (str "txpow") from_raw = shorts [9; 9] /\
  scalars_of (str "txpow") (convert_case BRawacf raw_in) = shorts [-1; -1].
Proof.
  split; [split; [field|]|split; [field|]; split; field].
  repeat constructor; vm_compute; congruence.
Qed.
