(** Concrete Borealis records used as cases of the theorems. *)
From Coq Require Import String ZArith List Bool.
From Verif Require Import Base SDarnFormats BorealisTypes BorealisFormats.
Import ListNotations.
Open Scope list_scope.
Open Scope Z_scope.

(** [n] different elements from [id] on. *)
Definition ints (id : Z) (n : nat) : list cell := map (fun i => CZ (id + Z.of_nat i)) (seq 0 n).
Definition complexes (id : Z) (n : nat) : list cell :=
  map (fun i => CC (id + Z.of_nat i) (id - Z.of_nat i)) (seq 0 n).

(** A rawacf record of version 0.6 with [ns] sequences, [nb] beams, [bl] blanked
    samples, 2 ranges and 3 lags; [id] marks its values. *)
Definition raw6 (id : Z) (ns nb bl : nat) : brecord :=
  [(str "borealis_git_hash", BText (str "v0.6-61-gc13ad17")); (str "experiment_id", BScalar BI16 (CZ 3503));
   (str "experiment_name", BText (str "InterleaveNormalScan")); (str "experiment_comment", BText (str "none"));
   (str "slice_comment", BText (str "")); (str "slice_id", BScalar BU32 (CZ 0));
   (str "slice_interfacing", BText (str "{1: 'SCAN'}")); (str "scheduling_mode", BText (str "common"));
   (str "num_slices", BScalar BI64 (CZ 2)); (str "station", BText (str "sas"));
   (str "samples_data_type", BText (str "complex float")); (str "main_antenna_count", BScalar BU32 (CZ 16));
   (str "intf_antenna_count", BScalar BU32 (CZ 4)); (str "freq", BScalar BU32 (CZ 10500));
   (str "rx_sample_rate", BScalar BF64 (CZ 4659894508848316416)); (str "data_normalization_factor", BScalar BF64 (CZ 0));
   (str "tx_pulse_len", BScalar BU32 (CZ 300)); (str "tau_spacing", BScalar BU32 (CZ 2400));
   (str "pulses", BArr BU32 [2%nat] [CZ 0; CZ 9]);
   (str "lags", BArr BU32 [3%nat; 2%nat] [CZ 0; CZ 0; CZ 0; CZ 9; CZ 9; CZ 9]);
   (str "blanked_samples", BArr BU32 [bl] (ints 0 bl)); (str "first_range", BScalar BF32 (CZ 1127481344));
   (str "first_range_rtt", BScalar BF32 (CZ 1150681088)); (str "range_sep", BScalar BF32 (CZ 1110677500));
   (str "num_sequences", BScalar BI64 (CZ (Z.of_nat ns))); (str "int_time", BScalar BF32 (CZ (id mod 2 ^ 32)));
   (str "scan_start_marker", BScalar BU8 (CZ 1)); (str "sqn_timestamps", BArr BF64 [ns] (ints id ns));
   (str "noise_at_freq", BArr BF64 [ns] (ints (id + 100) ns)); (str "beam_nums", BArr BU32 [nb] (ints 3 nb));
   (str "beam_azms", BArr BF64 [nb] (ints (id + 200) nb)); (str "agc_status_word", BScalar BU32 (CZ 0));
   (str "lp_status_word", BScalar BU32 (CZ 0)); (str "gps_locked", BScalar BU8 (CZ 1));
   (str "gps_to_system_time_diff", BScalar BF64 (CZ 0)); (str "averaging_method", BText (str "mean"));
   (str "main_acfs", BArr BC64 [nb * 2 * 3]%nat (complexes (id + 300) (nb * 2 * 3)));
   (str "intf_acfs", BArr BC64 [nb * 2 * 3]%nat (complexes (id + 400) (nb * 2 * 3)));
   (str "xcfs", BArr BC64 [nb * 2 * 3]%nat (complexes (id + 500) (nb * 2 * 3)));
   (str "correlation_descriptors", BArr BNpStr [3%nat]
      [CS (str "num_beams"); CS (str "num_ranges"); CS (str "num_lags")]);
   (str "correlation_dimensions", BArr BU32 [3%nat] [CZ (Z.of_nat nb); CZ 2; CZ 3])].

(** A version 0.4 antennas_iq array dictionary of 2 records (1 sequence, 1 beam,
    2 antennas, 3 samples). *)
Definition ant4_arrays : brecord :=
  [(str "antenna_arrays_order", BArr BNpStr [2%nat] [CS (str "antenna_0"); CS (str "antenna_1")]);
   (str "borealis_git_hash", BText (str "v0.4-61-gc13ad17")); (str "data_normalization_factor", BScalar BF64 (CZ 0));
   (str "experiment_comment", BEmpty BOther); (str "experiment_id", BScalar BI64 (CZ 3503));
   (str "experiment_name", BText (str "twofsound")); (str "freq", BScalar BU32 (CZ 10500));
   (str "intf_antenna_count", BScalar BU32 (CZ 4)); (str "main_antenna_count", BScalar BU32 (CZ 16));
   (str "num_samps", BScalar BU32 (CZ 3)); (str "pulse_phase_offset", BArr BF32 [0%nat] []);
   (str "pulses", BArr BU32 [2%nat] [CZ 0; CZ 9]); (str "rx_sample_rate", BScalar BF64 (CZ 0));
   (str "samples_data_type", BText (str "complex float")); (str "slice_comment", BText (str ""));
   (str "station", BText (str "sas")); (str "tau_spacing", BScalar BU32 (CZ 2400));
   (str "tx_pulse_len", BScalar BU32 (CZ 300)); (str "num_sequences", BArr BI64 [2%nat] [CZ 1; CZ 1]);
   (str "int_time", BArr BF32 [2%nat] [CZ 5; CZ 6]); (str "sqn_timestamps", BArr BF64 [2%nat; 1%nat] [CZ 7; CZ 8]);
   (str "noise_at_freq", BArr BF64 [2%nat; 1%nat] [CZ 7; CZ 8]);
   (str "data", BArr BC64 [2%nat; 2%nat; 1%nat; 3%nat] (complexes 0 12));
   (str "scan_start_marker", BArr BU8 [2%nat] [CZ 1; CZ 0]); (str "beam_nums", BArr BU32 [2%nat; 1%nat] [CZ 3; CZ 4]);
   (str "beam_azms", BArr BF64 [2%nat; 1%nat] [CZ 0; CZ 1]); (str "num_slices", BArr BI64 [2%nat] [CZ 1; CZ 1]);
   (str "num_beams", BArr BU32 [2%nat] [CZ 1; CZ 1]);
   (str "data_descriptors", BArr BNpStr [4%nat]
      [CS (str "num_records"); CS (str "num_antennas"); CS (str "max_num_sequences"); CS (str "num_samps")])].

(** A bfiq record of version 0.6 with [ns] sequences, [nb] beams, [bl] blanked
    samples, 2 antenna arrays and 3 samples; [ps] and [ph] are shape and elements
    of its pulse_phase_offset. *)
Definition bfiq6 (id : Z) (ns nb bl : nat) (ps : list nat) (ph : list cell) : brecord :=
  [(str "borealis_git_hash", BText (str "v0.6-61-gc13ad17")); (str "experiment_id", BScalar BI16 (CZ 3503));
   (str "experiment_name", BText (str "phase")); (str "experiment_comment", BText (str "none"));
   (str "slice_comment", BText (str "")); (str "slice_id", BScalar BU32 (CZ 0));
   (str "slice_interfacing", BText (str "{}")); (str "scheduling_mode", BText (str "discretionary"));
   (str "num_slices", BScalar BI64 (CZ 1)); (str "station", BText (str "sas"));
   (str "samples_data_type", BText (str "complex float")); (str "main_antenna_count", BScalar BU32 (CZ 16));
   (str "intf_antenna_count", BScalar BU32 (CZ 4));
   (str "antenna_arrays_order", BArr BNpStr [2%nat] [CS (str "main"); CS (str "intf")]);
   (str "freq", BScalar BU32 (CZ 10500)); (str "rx_sample_rate", BScalar BF64 (CZ 4659894508848316416));
   (str "data_normalization_factor", BScalar BF64 (CZ 0)); (str "tx_pulse_len", BScalar BU32 (CZ 300));
   (str "tau_spacing", BScalar BU32 (CZ 2400)); (str "pulses", BArr BU32 [2%nat] [CZ 0; CZ 9]);
   (str "lags", BArr BU32 [3%nat; 2%nat] [CZ 0; CZ 0; CZ 0; CZ 9; CZ 9; CZ 9]);
   (str "pulse_phase_offset", BArr BF32 ps ph); (str "blanked_samples", BArr BU32 [bl] (ints 0 bl));
   (str "first_range", BScalar BF32 (CZ 1127481344)); (str "first_range_rtt", BScalar BF32 (CZ 1150681088));
   (str "range_sep", BScalar BF32 (CZ 1110677500)); (str "num_ranges", BScalar BU32 (CZ 75));
   (str "num_samps", BScalar BU32 (CZ 3)); (str "num_sequences", BScalar BI64 (CZ (Z.of_nat ns)));
   (str "int_time", BScalar BF32 (CZ (id mod 2 ^ 32))); (str "scan_start_marker", BScalar BU8 (CZ 1));
   (str "sqn_timestamps", BArr BF64 [ns] (ints id ns)); (str "noise_at_freq", BArr BF64 [ns] (ints (id + 100) ns));
   (str "beam_nums", BArr BU32 [nb] (ints 3 nb)); (str "beam_azms", BArr BF64 [nb] (ints (id + 200) nb));
   (str "agc_status_word", BScalar BU32 (CZ 0)); (str "lp_status_word", BScalar BU32 (CZ 0));
   (str "gps_locked", BScalar BU8 (CZ 1)); (str "gps_to_system_time_diff", BScalar BF64 (CZ 0));
   (str "data", BArr BC64 [2 * ns * nb * 3]%nat (complexes (id + 300) (2 * ns * nb * 3)));
   (str "data_descriptors", BArr BNpStr [4%nat]
      [CS (str "num_antenna_arrays"); CS (str "num_sequences"); CS (str "num_beams"); CS (str "num_samps")]);
   (str "data_dimensions", BArr BU32 [4%nat] [CZ 2; CZ (Z.of_nat ns); CZ (Z.of_nat nb); CZ 3])].
