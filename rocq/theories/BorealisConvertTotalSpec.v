(** Specification of the records that the conversion of Borealis files can convert. *)
From Coq Require Import String ZArith List Bool.
From Verif Require Import Base FloatBits FloatSpec DmapTypes DmapWriteSpec SDarnFormats BorealisTypes BorealisFormats BorealisArrays BorealisConvert BorealisConvertSpec BorealisConvertFieldSpec.
Import ListNotations.
Open Scope list_scope.
Open Scope Z_scope.

(** A version "v<major>.<minor>" with numbers up to 127, alone or before a dot or dash. *)
Definition small_number (s : pystr) : Prop := s <> [] /\ Forall digit s /\ digits_value s <= 127.
Definition small_version (h : pystr) : Prop :=
  exists major minor rest, h = 118 :: major ++ 46 :: minor ++ rest /\
    small_number major /\ small_number minor /\ (rest = [] \/ exists c s, rest = c :: s /\ (c = 45 \/ c = 46)).

(** A number of an integer type or a truth value. *)
Definition integer_field (r : brecord) (k : pystr) : Prop :=
  exists t z, In t [BI8; BI16; BI32; BI64; BU8; BU16; BU32; BU64; BBool] /\ number_field r k t z.
(** ASCII text. *)
Definition ascii_field (r : brecord) (k : pystr) : Prop := exists s, text_field r k s /\ plain_text s.

(** A float64 in seconds between the years 1 and 9999. *)
Definition datable (b : Z) : Prop :=
  f64_exp b <> 2047 /\ - 62135596799 * 2 ^ 1074 < f64_val b < 253402300799 * 2 ^ 1074.
(** A float32 that is finite and within 64 bits. *)
Definition roundable (b : Z) : Prop :=
  f32_exp b <> 255 /\ Z.abs (f32_val b) < 2 ^ 62 * 2 ^ 149.

(** The fields that every record needs, for [nbeams] beams. *)
Record common_source (r : brecord) (nbeams : nat) : Prop := mk_common_source {
  cs_version : exists h, text_field r (str "borealis_git_hash") h /\ plain_text h /\ small_version h;
  cs_texts : forall k, In k [str "experiment_name"; str "experiment_comment"; str "slice_comment"] -> ascii_field r k;
  cs_station : exists s i, text_field r (str "station") s /\ dict_get code_to_stid s = Some i;
  cs_integers : forall k, In k [str "experiment_id"; str "num_sequences"; str "scan_start_marker"; str "tx_pulse_len";
                                str "tau_spacing"; str "freq"] -> integer_field r k;
  cs_status : forall k, In k [str "agc_status_word"; str "lp_status_word"] -> dict_get r k = None \/ integer_field r k;
  cs_times : exists t l, vector_field r (str "sqn_timestamps") BF64 (t :: l) /\ datable t;
  cs_noise : exists x l, vector_field r (str "noise_at_freq") BF64 (x :: l) /\ Forall (fun b => 0 <= b < 2 ^ 64) (x :: l);
  cs_azimuths : exists l, vector_field r (str "beam_azms") BF64 l /\ Forall (fun b => 0 <= b < 2 ^ 64) l /\ (nbeams <= length l)%nat;
  cs_floats : forall k, In k [str "first_range_rtt"; str "int_time"] -> exists x, number_field r k BF32 x;
  cs_rate : exists x, number_field r (str "rx_sample_rate") BF64 x;
  cs_ranges : forall k, In k [str "first_range"; str "range_sep"] -> exists x, number_field r k BF32 x /\ roundable x;
  cs_pulses : exists p l, vector_field r (str "pulses") BU32 (p :: l);
  cs_lags : exists n shape l, dict_get r (str "lags") = Some (BArr BU32 (n :: shape) (map CZ l)) /\
    Forall (fun m => (1 <= m)%nat) (n :: shape) /\ (length shape < 32)%nat /\ length l = size (n :: shape)
}.

(** A bfiq record that can be converted: no count is 0 and the data have all beams and
    sequences. *)
Definition iqdat_able (r : brecord) : Prop :=
  exists beams nseq arrays samps norm na ns nb n data,
    bfiq_source r beams nseq arrays samps norm na ns nb n data /\ common_source r (length beams) /\
    (1 <= length beams <= nb)%nat /\ (1 <= nseq <= ns)%nat /\ (1 <= na)%nat /\ (1 <= n)%nat /\
    integer_field r (str "num_ranges") /\
    (exists t shape names, dict_get r (str "antenna_arrays_order") = Some (BArr t shape names) /\ (t = BNpStr \/ t = BBytes)) /\
    checkable r /\ well_blanked r /\ all_zero_phases r.

(** A rawacf record that can be converted: no count is 0, there are two lags, the data
    have all beams. *)
Definition rawacf_able (r : brecord) : Prop :=
  exists beams norm nb nr nl main xcfs,
    rawacf_source r beams norm nb nr nl main xcfs /\ common_source r (length beams) /\
    (1 <= length beams <= nb)%nat /\ (1 <= nr)%nat /\ (2 <= nl)%nat /\
    (dict_get r (str "intf_acfs") = None \/
     exists shape l, dict_get r (str "intf_acfs") = Some (BArr BC64 shape (map (fun c => CC (fst c) (snd c)) l)) /\
       length l = size [nb; nr; nl]) /\
    (dict_get r (str "tx_antenna_phases") = None \/ exists l, antenna_phases r l /\ (length l <= 62)%nat) /\
    checkable r /\ well_blanked r.

(** A record of type [t] that can be converted. *)
Definition able (t : filetype) (r : brecord) : Prop :=
  match t with Bfiq => iqdat_able r | BRawacf => rawacf_able r | _ => False end.

(** Parts of complex64 values, powers: 32 bits. *)
Definition pair32 (z : Z * Z) : Prop := 0 <= fst z < 2 ^ 32 /\ 0 <= snd z < 2 ^ 32.

(** Texts and arrays of up to 2^25 characters or elements, up to 2^12 beams. *)
Definition value_length (v : bval) : Z :=
  match v with BText s | BScalar _ (CS s) => zlen s | BArr _ _ l => zlen l | _ => 0 end.
Definition moderate (r : brecord) : Prop :=
  (forall k v, dict_get r k = Some v -> value_length v <= 2 ^ 25) /\
  (forall beams, vector_field r (str "beam_nums") BU32 beams -> zlen beams <= 2 ^ 12).
