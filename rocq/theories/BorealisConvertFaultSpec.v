(** Specification of the errors of the conversion of Borealis files: what is looked at in
    a record, which records pass the checks, which can be converted. *)
From Coq Require Import String ZArith List Bool.
From Verif Require Import Base FloatBits FloatSpec DmapTypes SDarnFormats BorealisTypes BorealisFormats BorealisArrays BorealisConvert
  BorealisConvertSpec BorealisConvertFieldSpec BorealisConvertTotalSpec.
Import ListNotations.
Open Scope list_scope.
Open Scope Z_scope.

(** The error that says that a file cannot be converted. *)
Definition convert_error (t : filetype) : exn :=
  match t with Bfiq => BorealisConvert2IqdatError | _ => BorealisConvert2RawacfError end.

(** ** The checks *)

(** Phase offsets for each sequence and pulse: a table of at least one row and two columns. *)
Definition phase_table (r : brecord) : Prop :=
  exists n w data, dict_get r (str "pulse_phase_offset") = Some (BArr BF32 [S n; S (S w)] (map CZ data)) /\
    length data = (S n * S (S w))%nat.

(** A record with the fields that the checks look at. *)
Definition checked_kind (t : filetype) (r : brecord) : Prop :=
  (exists h tau len pulses blanked, timed r h tau len pulses blanked /\ 0 <= len) /\
  (t = Bfiq -> (exists l, phases r l) \/ phase_table r).

(** A record that passes. *)
Definition passes (t : filetype) (r : brecord) : Prop :=
  checkable r /\ well_blanked r /\ (t = Bfiq -> all_zero_phases r).

(** One that does not, and the error. *)
Inductive check_fault (t : filetype) (r : brecord) : exn -> Prop :=
| cf_nothing : forall h pulses blanked, timed r h 0 0 pulses blanked -> check_fault t r ValueError
| cf_zero : forall h tau pulses blanked, timed r h tau 0 pulses blanked -> tau <> 0 -> check_fault t r OverflowError
| cf_version : forall h tau len pulses blanked, timed r h tau len pulses blanked -> 0 < len ->
    ~ tagged h -> ~ untagged h -> check_fault t r IndexError
| cf_blanked : checkable r -> ~ well_blanked r -> check_fault t r (convert_error t)
| cf_phases : forall l, t = Bfiq -> checkable r -> well_blanked r -> phases r l -> ~ Forall zero_phase l ->
    check_fault t r BorealisConvert2IqdatError
| cf_table : t = Bfiq -> checkable r -> well_blanked r -> phase_table r -> check_fault t r ValueError.

(** ** The records *)

(** A version "v<major>.<minor>", alone or before a dot or dash. *)
Definition version_parts (h major minor : pystr) : Prop :=
  ~ In 45 major /\ ~ In 46 major /\ ~ In 45 minor /\ ~ In 46 minor /\
  exists rest, h = 118 :: major ++ 46 :: minor ++ rest /\ (rest = [] \/ exists c s, rest = c :: s /\ (c = 45 \/ c = 46)).
(** A text without any digit. *)
Definition numberless (s : pystr) : Prop := Forall (fun c => ~ digit c) s.

(** A float64 in seconds before the year 1 or after 9999, or none at all. *)
Definition undatable (b : Z) : Prop :=
  f64_exp b = 2047 \/
  Z.abs (f64_val b) < 2 ^ 55 * 2 ^ 1074 /\
  (f64_val b <= - 62135596801 * 2 ^ 1074 \/ 253402300801 * 2 ^ 1074 <= f64_val b).
(** A finite float32 within the range of int64. *)
Definition whole_able (b : Z) : Prop := f32_exp b <> 255 /\ - 2 ^ 63 * 2 ^ 149 <= f32_val b < 2 ^ 63 * 2 ^ 149.

(** What a record says, as far as the success of its conversion depends on it: version,
    station, times, noises, azimuths, first range, range separation, beams, dimensions of
    the data, number of sequences, numbers of elements of the data, and whether there
    are cross-correlations. *)
Record facts : Type := mk_facts {
  fa_hash : pystr;
  fa_station : pystr;
  fa_times : list Z;
  fa_noises : list Z;
  fa_azimuths : list Z;
  fa_first : Z;
  fa_sep : Z;
  fa_beams : list Z;
  fa_dims : list nat;
  fa_sequences : Z;
  fa_sizes : list nat;
  fa_xcfs : bool
}.

Record common_says (r : brecord) (f : facts) : Prop := mk_common_says {
  sy_hash : text_field r (str "borealis_git_hash") (fa_hash f);
  sy_version : tagged (fa_hash f) -> exists major minor, version_parts (fa_hash f) major minor /\
    (small_number major \/ numberless major) /\ (small_number minor \/ numberless minor);
  sy_texts : forall k, In k [str "experiment_name"; str "experiment_comment"; str "slice_comment"] -> exists s, text_field r k s;
  sy_station : text_field r (str "station") (fa_station f);
  sy_integers : forall k, In k [str "experiment_id"; str "scan_start_marker"; str "tx_pulse_len"; str "tau_spacing"; str "freq"] ->
    integer_field r k;
  sy_sequences : number_field r (str "num_sequences") BI64 (fa_sequences f);
  sy_status : forall k, In k [str "agc_status_word"; str "lp_status_word"] -> dict_get r k = None \/ integer_field r k;
  sy_times : vector_field r (str "sqn_timestamps") BF64 (fa_times f);
  sy_time : forall t l, fa_times f = t :: l -> datable t \/ undatable t;
  sy_noises : vector_field r (str "noise_at_freq") BF64 (fa_noises f);
  sy_azimuths : vector_field r (str "beam_azms") BF64 (fa_azimuths f);
  sy_floats : forall k, In k [str "first_range_rtt"; str "int_time"] -> exists x, number_field r k BF32 x;
  sy_rate : exists x, number_field r (str "rx_sample_rate") BF64 x;
  sy_first : number_field r (str "first_range") BF32 (fa_first f);
  sy_sep : number_field r (str "range_sep") BF32 (fa_sep f);
  sy_norm : exists x, number_field r (str "data_normalization_factor") BF64 x;
  sy_pulses : exists l, vector_field r (str "pulses") BU32 l;
  sy_lags : exists n shape l, dict_get r (str "lags") = Some (BArr BU32 (n :: shape) (map CZ l));
  sy_beams : vector_field r (str "beam_nums") BU32 (fa_beams f)
}.

(** The numbers of elements of complex data: none if they are not there. *)
Definition data_size (r : brecord) (k : pystr) (l : list nat) : Prop :=
  dict_get r k = None /\ l = [] \/
  exists shape data, dict_get r k = Some (BArr BC64 shape (map (fun c => CC (fst c) (snd c)) data)) /\ l = [length data].
(** The dimensions. *)
Definition dimensions (r : brecord) (k : pystr) (dims : list nat) : Prop :=
  dict_get r k = Some (BArr BU32 [length dims] (map (fun n => CZ (Z.of_nat n)) dims)).

Definition bfiq_says (r : brecord) (f : facts) : Prop :=
  common_says r f /\
  (exists t n names, dict_get r (str "antenna_arrays_order") = Some (BArr t [n] names) /\ (t = BNpStr \/ t = BBytes)) /\
  integer_field r (str "num_samps") /\ integer_field r (str "num_ranges") /\
  dimensions r (str "data_dimensions") (fa_dims f) /\ (length (fa_dims f) <= 4)%nat /\
  data_size r (str "data") (fa_sizes f) /\ fa_sizes f <> [].

Definition rawacf_says (r : brecord) (f : facts) : Prop :=
  common_says r f /\
  (dimensions r (str "correlation_dimensions") (fa_dims f) \/
   dict_get r (str "correlation_dimensions") = None /\ dimensions r (str "data_dimensions") (fa_dims f)) /\
  (length (fa_dims f) <= 3)%nat /\
  (exists main intf xcfs, data_size r (str "main_acfs") main /\ main <> [] /\ data_size r (str "intf_acfs") intf /\
     data_size r (str "xcfs") xcfs /\ (fa_xcfs f = true <-> xcfs <> []) /\ fa_sizes f = main ++ intf ++ xcfs) /\
  (dict_get r (str "tx_antenna_phases") = None \/ exists l, antenna_phases r l /\ (length l <= 62)%nat).

Definition says (t : filetype) (r : brecord) (f : facts) : Prop :=
  match t with Bfiq => bfiq_says r f | BRawacf => rawacf_says r f | _ => False end.

(** ** Which records can be converted *)

(** What each beam needs: numbers for a version, a time with a date, a known station, a
    noise, an azimuth and ranges that are numbers. *)
Definition common_can (f : facts) : Prop :=
  (untagged (fa_hash f) \/ small_version (fa_hash f)) /\
  (exists t l, fa_times f = t :: l /\ datable t) /\
  (exists i, dict_get code_to_stid (fa_station f) = Some i) /\
  fa_noises f <> [] /\ (length (fa_beams f) <= length (fa_azimuths f))%nat /\
  whole_able (fa_first f) /\ whole_able (fa_sep f).

(** The data have as many elements as the dimensions say; and if there is a beam, the
    dimensions are those of the type and large enough for all beams (and sequences), and
    the rest is there. *)
Definition can (t : filetype) (f : facts) : Prop :=
  Forall (fun n => n = size (fa_dims f)) (fa_sizes f) /\
  (fa_beams f = [] \/
   common_can f /\
   match t with
   | Bfiq => exists na ns nb n, fa_dims f = [na; ns; nb; n] /\ (length (fa_beams f) <= nb)%nat /\
               (na = 0%nat \/ fa_sequences f <= Z.of_nat ns)
   | _ => fa_xcfs f = true /\
          exists nb nr nl, fa_dims f = [nb; nr; nl] /\ (length (fa_beams f) <= nb)%nat /\ nl <> 0%nat
   end).

(** The number of beams. *)
Definition total_beams (fs : list facts) : nat := fold_right (fun f n => (length (fa_beams f) + n)%nat) 0%nat fs.
