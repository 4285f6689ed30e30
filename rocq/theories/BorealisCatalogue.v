(** The fields of Borealis files listed field by field (borealis_formats.py lists
    them class by class, each class changing the tables of the one before). *)
From Coq Require Import String ZArith List Bool.
From Verif Require Import Base SDarnFormats BorealisTypes BorealisFormats.
Import ListNotations.
Open Scope list_scope.
Open Scope nat_scope.

(** One value or an array of values in a site record. *)
Inductive field_kind : Type := One | Many.

(** Equal in all records; different from record to record; made when the
    structure changes, for both structures, for array files only, for site files
    only. *)
Inductive field_role : Type := Common | Varying | MadeBoth | MadeArray | MadeSite.

(** A field: name, kind, type, presence in a file type and role, by generation. *)
Record field_row : Type := mk_row {
  fr_name : pystr;
  fr_kind : field_kind;
  fr_type : generation -> btype;
  fr_in   : filetype -> generation -> bool;
  fr_role : generation -> field_role
}.

(** Generations 4, 5, 6, 7 (borealis_formats.py:2625-2662). *)
Definition gen_num (g : generation) : nat :=
  match g with G4 => 4 | G5 => 5 | G6 => 6 | G7 => 7 end.

(** [b] from generation [n] on, [a] before. *)
Definition until {A} (n : nat) (a b : A) (g : generation) : A :=
  if Nat.ltb (gen_num g) n then a else b.

(** Presence: the generations [fst, snd] of each file type. *)
Definition spans (anten bf raw : nat * nat) (t : filetype) (g : generation) : bool :=
  let n := gen_num g in
  let s := match t with AntennasIq => anten | Bfiq => bf | BRawacf => raw | Rawrf => (0, 0) end in
  Nat.leb (fst s) n && Nat.leb n (snd s).

(** All generations; generations from [n] on; no generation (borealis_formats.py:2625-2662). *)
Definition ever : nat * nat := (4, 7).
Definition since (n : nat) : nat * nat := (n, 7).
Definition never : nat * nat := (0, 0).
Definition all3 := spans ever ever ever.
Definition all3_since (n : nat) := spans (since n) (since n) (since n).
Definition iq := spans ever ever never.

(** Constant over the generations. *)
Definition fixed {A} (a : A) : generation -> A := fun _ => a.

(** The fields (borealis_formats.py:72-568 and the dimension tables of the format
    classes, 593-2569). *)
Definition catalogue : list field_row :=
  [ (* the experiment *)
    mk_row (str "experiment_id") One (until 6 BI64 BI16) all3 (fixed Common);
    mk_row (str "experiment_name") One (fixed BStr) all3 (fixed Common);
    mk_row (str "experiment_comment") One (fixed BStr) all3 (fixed Common);
    mk_row (str "slice_comment") One (fixed BStr) all3 (fixed Common);
    mk_row (str "slice_id") One (fixed BU32) (all3_since 5) (fixed Common);
    mk_row (str "slice_interfacing") One (fixed BStr) (all3_since 5) (fixed Varying);
    mk_row (str "scheduling_mode") One (fixed BStr) (all3_since 5) (fixed Common);
    mk_row (str "num_slices") One (fixed BI64) all3 (fixed Varying);
    mk_row (str "station") One (fixed BStr) all3 (fixed Common);
    mk_row (str "borealis_git_hash") One (fixed BStr) all3 (fixed Common);
    mk_row (str "samples_data_type") One (fixed BStr) all3 (fixed Common);
    (* the radar *)
    mk_row (str "main_antenna_count") One (fixed BU32) all3 (fixed Common);
    mk_row (str "intf_antenna_count") One (fixed BU32) all3 (fixed Common);
    mk_row (str "antenna_arrays_order") Many (until 7 BNpStr BBytes) iq (fixed Common);
    mk_row (str "freq") One (fixed BU32) all3 (fixed Common);
    mk_row (str "rx_sample_rate") One (fixed BF64) all3 (fixed Common);
    mk_row (str "data_normalization_factor") One (fixed BF64) all3 (fixed Common);
    mk_row (str "tx_pulse_len") One (fixed BU32) all3 (fixed Common);
    mk_row (str "tau_spacing") One (fixed BU32) all3 (fixed Common);
    mk_row (str "pulses") Many (fixed BU32) all3 (fixed Common);
    mk_row (str "lags") Many (fixed BU32) (spans (since 7) ever ever) (fixed Common);
    mk_row (str "pulse_phase_offset") Many (fixed BF32) iq (until 6 Common Varying);
    mk_row (str "tx_antenna_phases") Many (fixed BC64) (all3_since 7) (fixed Varying);
    mk_row (str "blanked_samples") Many (fixed BU32) (spans (since 5) ever ever) (until 5 Common Varying);
    mk_row (str "num_blanked_samples") One (fixed BU32) (all3_since 5) (fixed MadeArray);
    (* ranges *)
    mk_row (str "first_range") One (fixed BF32) (spans (since 7) ever ever) (fixed Common);
    mk_row (str "first_range_rtt") One (fixed BF32) (spans (since 7) ever ever) (fixed Common);
    mk_row (str "range_sep") One (fixed BF32) (spans (since 7) ever ever) (fixed Common);
    mk_row (str "num_ranges") One (fixed BU32) (spans (since 7) ever never) (fixed Common);
    mk_row (str "num_samps") One (fixed BU32) iq (fixed Common);
    (* one integration *)
    mk_row (str "num_sequences") One (fixed BI64) all3 (fixed Varying);
    mk_row (str "int_time") One (fixed BF32) all3 (fixed Varying);
    mk_row (str "scan_start_marker") One (until 7 BU8 BBool) all3 (fixed Varying);
    mk_row (str "sqn_timestamps") Many (fixed BF64) all3 (fixed Varying);
    mk_row (str "noise_at_freq") Many (fixed BF64) all3 (fixed Varying);
    mk_row (str "beam_nums") Many (fixed BU32) all3 (fixed Varying);
    mk_row (str "beam_azms") Many (fixed BF64) all3 (fixed Varying);
    mk_row (str "num_beams") One (fixed BU32) all3 (fixed MadeArray);
    mk_row (str "agc_status_word") One (fixed BU32) (all3_since 6) (fixed Varying);
    mk_row (str "lp_status_word") One (fixed BU32) (all3_since 6) (fixed Varying);
    mk_row (str "gps_locked") One (until 7 BU8 BBool) (all3_since 6) (fixed Varying);
    mk_row (str "gps_to_system_time_diff") One (fixed BF64) (all3_since 6) (fixed Varying);
    mk_row (str "averaging_method") One (fixed BStr) (spans never never (since 5)) (fixed Common);
    (* the data *)
    mk_row (str "data") Many (fixed BC64) iq (fixed Varying);
    mk_row (str "main_acfs") Many (fixed BC64) (spans never never ever) (fixed Varying);
    mk_row (str "intf_acfs") Many (fixed BC64) (spans never never ever) (fixed Varying);
    mk_row (str "xcfs") Many (fixed BC64) (spans never never ever) (fixed Varying);
    mk_row (str "data_descriptors") Many (until 7 BNpStr BBytes) (spans ever ever (since 7)) (fixed MadeBoth);
    mk_row (str "data_dimensions") Many (fixed BU32) (spans ever ever (since 7)) (fixed MadeSite);
    mk_row (str "correlation_descriptors") Many (fixed BNpStr) (spans never never (4, 6)) (fixed MadeBoth);
    mk_row (str "correlation_dimensions") Many (fixed BU32) (spans never never (4, 6)) (fixed MadeSite) ].

(** [k] is a field of kind [kd], type [ty] and role [ro] of the files of type [t]
    of generation [g]. *)
Definition listed (g : generation) (t : filetype) (k : pystr) (kd : field_kind) (ty : btype) (ro : field_role) : Prop :=
  exists r, In r catalogue /\ fr_name r = k /\ fr_kind r = kd /\ fr_type r g = ty /\
    fr_in r t g = true /\ fr_role r g = ro.

(** [k] is a field of those files, with role [ro]. *)
Definition role_of (g : generation) (t : filetype) (k : pystr) (ro : field_role) : Prop :=
  exists kd ty, listed g t k kd ty ro.
