(** Tables of pydarnio/borealis/borealis_formats.py, copied entry by entry in
    source order, and the format classes built from them. *)
From Coq Require Import String ZArith List Bool.
From Verif Require Import Base SDarnFormats BorealisTypes.
Import ListNotations.
Open Scope list_scope.

(** The file types of borealis_version_dict (borealis_formats.py:2625-2662). *)
Inductive filetype : Type := AntennasIq | Bfiq | BRawacf | Rawrf.

(** [file_type in v] (borealis_formats.py:266). *)
Definition filetype_eqb (a b : filetype) : bool :=
  match a, b with
  | AntennasIq, AntennasIq | Bfiq, Bfiq | BRawacf, BRawacf | Rawrf, Rawrf => true
  | _, _ => false
  end.

(** ** The field tables *)

(** borealis_formats.py:72-125 BorealisFieldsv0_4.files_with_fields. *)
Definition files_with_fields_4 : dict (list filetype) :=
  [(str "antenna_arrays_order", [AntennasIq; Bfiq]);
   (str "beam_azms", [AntennasIq; Bfiq; BRawacf]);
   (str "beam_nums", [AntennasIq; Bfiq; BRawacf]);
   (str "blanked_samples", [Bfiq; BRawacf]);
   (str "borealis_git_hash", [AntennasIq; Bfiq; BRawacf; Rawrf]);
   (str "correlation_descriptors", [BRawacf]);
   (str "correlation_dimensions", [BRawacf]);
   (str "data", [AntennasIq; Bfiq; Rawrf]);
   (str "data_descriptors", [AntennasIq; Bfiq; Rawrf]);
   (str "data_dimensions", [AntennasIq; Bfiq; Rawrf]);
   (str "data_normalization_factor", [AntennasIq; Bfiq; BRawacf]);
   (str "experiment_id", [AntennasIq; Bfiq; BRawacf; Rawrf]);
   (str "experiment_name", [AntennasIq; Bfiq; BRawacf; Rawrf]);
   (str "experiment_comment", [AntennasIq; Bfiq; BRawacf; Rawrf]);
   (str "first_range", [Bfiq; BRawacf]);
   (str "first_range_rtt", [Bfiq; BRawacf]);
   (str "freq", [AntennasIq; Bfiq; BRawacf]);
   (str "int_time", [AntennasIq; Bfiq; BRawacf; Rawrf]);
   (str "intf_acfs", [BRawacf]);
   (str "intf_antenna_count", [AntennasIq; Bfiq; BRawacf; Rawrf]);
   (str "lags", [Bfiq; BRawacf]); (str "main_acfs", [BRawacf]);
   (str "main_antenna_count", [AntennasIq; Bfiq; BRawacf; Rawrf]);
   (str "noise_at_freq", [AntennasIq; Bfiq; BRawacf]);
   (str "num_beams", [AntennasIq; Bfiq; BRawacf]); (str "num_ranges", [Bfiq]);
   (str "num_samps", [AntennasIq; Bfiq; Rawrf]);
   (str "num_sequences", [AntennasIq; Bfiq; BRawacf; Rawrf]);
   (str "num_slices", [AntennasIq; Bfiq; BRawacf; Rawrf]);
   (str "pulse_phase_offset", [AntennasIq; Bfiq]);
   (str "pulses", [AntennasIq; Bfiq; BRawacf]);
   (str "range_sep", [Bfiq; BRawacf]); (str "rx_center_freq", [Rawrf]);
   (str "rx_sample_rate", [AntennasIq; Bfiq; BRawacf; Rawrf]);
   (str "samples_data_type", [AntennasIq; Bfiq; BRawacf; Rawrf]);
   (str "scan_start_marker", [AntennasIq; Bfiq; BRawacf; Rawrf]);
   (str "slice_comment", [AntennasIq; Bfiq; BRawacf]);
   (str "sqn_timestamps", [AntennasIq; Bfiq; BRawacf; Rawrf]);
   (str "station", [AntennasIq; Bfiq; BRawacf; Rawrf]);
   (str "tau_spacing", [AntennasIq; Bfiq; BRawacf]);
   (str "tx_pulse_len", [AntennasIq; Bfiq; BRawacf]); (str "xcfs", [BRawacf])].

(** borealis_formats.py:356-377 BorealisFieldsv0_5.files_with_fields. *)
Definition files_with_fields_5 : dict (list filetype) :=
  let d := files_with_fields_4 in
  let d := dict_update d
  [(str "averaging_method", [BRawacf]);
   (str "num_blanked_samples", [AntennasIq; Bfiq; BRawacf]);
   (str "scheduling_mode", [AntennasIq; Bfiq; BRawacf; Rawrf]);
   (str "slice_id", [AntennasIq; Bfiq; BRawacf]);
   (str "slice_interfacing", [AntennasIq; Bfiq; BRawacf])] in
  dict_extend d (str "blanked_samples") [AntennasIq; Rawrf].

(** borealis_formats.py:436-455 BorealisFieldsv0_6.files_with_fields. *)
Definition files_with_fields_6 : dict (list filetype) :=
  let d := files_with_fields_5 in
  dict_update d
  [(str "agc_status_word", [AntennasIq; Bfiq; BRawacf; Rawrf]);
   (str "gps_locked", [AntennasIq; Bfiq; BRawacf; Rawrf]);
   (str "gps_to_system_time_diff", [AntennasIq; Bfiq; BRawacf; Rawrf]);
   (str "lp_status_word", [AntennasIq; Bfiq; BRawacf; Rawrf])].

(** borealis_formats.py:499-522 BorealisFields.files_with_fields. *)
Definition files_with_fields_7 : dict (list filetype) :=
  let d := files_with_fields_6 in
  let d := dict_pop d (str "correlation_descriptors") in
  let d := dict_pop d (str "correlation_dimensions") in
  let d := dict_extend d (str "data_descriptors") [BRawacf] in
  let d := dict_extend d (str "data_dimensions") [BRawacf] in
  let d := dict_extend d (str "first_range") [AntennasIq] in
  let d := dict_extend d (str "first_range_rtt") [AntennasIq] in
  let d := dict_extend d (str "lags") [AntennasIq] in
  let d := dict_extend d (str "num_ranges") [AntennasIq] in
  let d := dict_extend d (str "range_sep") [AntennasIq] in
  dict_set d (str "tx_antenna_phases") [AntennasIq; Bfiq; BRawacf; Rawrf].

(** borealis_formats.py:127-192 BorealisFieldsv0_4.all_single_element_types. *)
Definition single_types_4 : dict btype :=
  [(str "borealis_git_hash", BStr); (str "data_normalization_factor", BF64);
   (str "experiment_comment", BStr); (str "experiment_id", BI64);
   (str "experiment_name", BStr); (str "first_range", BF32);
   (str "first_range_rtt", BF32); (str "freq", BU32); (str "int_time", BF32);
   (str "intf_antenna_count", BU32); (str "main_antenna_count", BU32);
   (str "num_beams", BU32); (str "num_ranges", BU32); (str "num_samps", BU32);
   (str "num_sequences", BI64); (str "num_slices", BI64);
   (str "range_sep", BF32); (str "rx_center_freq", BF64);
   (str "rx_sample_rate", BF64); (str "samples_data_type", BStr);
   (str "scan_start_marker", BU8); (str "slice_comment", BStr);
   (str "station", BStr); (str "tau_spacing", BU32); (str "tx_pulse_len", BU32)].

(** borealis_formats.py:379-404 BorealisFieldsv0_5.all_single_element_types. *)
Definition single_types_5 : dict btype :=
  let d := single_types_4 in
  dict_update d
  [(str "averaging_method", BStr); (str "num_blanked_samples", BU32);
   (str "scheduling_mode", BStr); (str "slice_id", BU32);
   (str "slice_interfacing", BStr)].

(** borealis_formats.py:457-490 BorealisFieldsv0_6.all_single_element_types. *)
Definition single_types_6 : dict btype :=
  let d := single_types_5 in
  dict_update d
  [(str "agc_status_word", BU32); (str "experiment_id", BI16);
   (str "gps_locked", BU8); (str "gps_to_system_time_diff", BF64);
   (str "lp_status_word", BU32)].

(** borealis_formats.py:524-544 BorealisFields.all_single_element_types. *)
Definition single_types_7 : dict btype :=
  let d := single_types_6 in
  dict_update d
  [(str "gps_locked", BBool); (str "scan_start_marker", BBool)].

(** borealis_formats.py:194-248 BorealisFieldsv0_4.all_array_types. *)
Definition array_types_4 : dict btype :=
  [(str "antenna_arrays_order", BNpStr); (str "beam_azms", BF64);
   (str "beam_nums", BU32); (str "blanked_samples", BU32);
   (str "correlation_descriptors", BNpStr);
   (str "correlation_dimensions", BU32); (str "data", BC64);
   (str "data_descriptors", BNpStr); (str "data_dimensions", BU32);
   (str "intf_acfs", BC64); (str "lags", BU32); (str "main_acfs", BC64);
   (str "noise_at_freq", BF64); (str "pulse_phase_offset", BF32);
   (str "pulses", BU32); (str "sqn_timestamps", BF64); (str "xcfs", BC64)].

(** Inherited: class BorealisFieldsv0_5 has no all_array_types of its own
    (borealis_formats.py). *)
Definition array_types_5 : dict btype := array_types_4.

(** Inherited: class BorealisFieldsv0_6 has no all_array_types of its own
    (borealis_formats.py). *)
Definition array_types_6 : dict btype := array_types_5.

(** borealis_formats.py:546-568 BorealisFields.all_array_types. *)
Definition array_types_7 : dict btype :=
  let d := array_types_6 in
  let d := dict_update d
  [(str "antenna_arrays_order", BBytes); (str "data_descriptors", BBytes);
   (str "tx_antenna_phases", BC64)] in
  let d := dict_pop d (str "correlation_dimensions") in
  dict_pop d (str "correlation_descriptors").

(** borealis_formats.py:290-323 BorealisFieldsv0_4.all_shared_fields. *)
Definition all_shared_4 : list pystr :=
  [str "antenna_arrays_order"; str "blanked_samples"; str "borealis_git_hash";
   str "data_normalization_factor"; str "experiment_comment";
   str "experiment_id"; str "experiment_name"; str "first_range";
   str "first_range_rtt"; str "freq"; str "intf_antenna_count"; str "lags";
   str "main_antenna_count"; str "num_ranges"; str "num_samps";
   str "pulse_phase_offset"; str "pulses"; str "range_sep";
   str "rx_sample_rate"; str "samples_data_type"; str "slice_comment";
   str "station"; str "tau_spacing"; str "tx_pulse_len"].

(** borealis_formats.py:406-423 BorealisFieldsv0_5.all_shared_fields ([list.remove] deletes the
    first occurrence). *)
Definition all_shared_5 : list pystr :=
  list_remove (all_shared_4 ++ [str "averaging_method"; str "scheduling_mode"; str "slice_id"])
    (str "blanked_samples").


(** A class of the BorealisFields family (borealis_formats.py:61-590). *)
Record fields_class : Type := mk_fields {
  fc_files  : dict (list filetype);   (* files_with_fields() *)
  fc_single : dict btype;             (* all_single_element_types() *)
  fc_array  : dict btype;             (* all_array_types() *)
  fc_shared : list pystr              (* all_shared_fields() *)
}.

(** borealis_formats.py:61-343. *)
Definition fields_4 := mk_fields files_with_fields_4 single_types_4 array_types_4 all_shared_4.
(** borealis_formats.py:345-423. *)
Definition fields_5 := mk_fields files_with_fields_5 single_types_5 array_types_5 all_shared_5.
(** borealis_formats.py:425-490. *)
Definition fields_6 := mk_fields files_with_fields_6 single_types_6 array_types_6 all_shared_5.
(** borealis_formats.py:493-590. *)
Definition fields_7 := mk_fields files_with_fields_7 single_types_7 array_types_7 all_shared_5.

(** [relevant_fields] (borealis_formats.py:266, 286, 341). *)
Definition relevant (c : fields_class) (t : filetype) : list pystr :=
  map fst (filter (fun p => existsb (filetype_eqb t) (snd p)) (fc_files c)).

(** borealis_formats.py:250-268 single_element_types. *)
Definition class_single_types (c : fields_class) (t : filetype) : dict btype :=
  filter (fun p => str_mem (fst p) (relevant c t)) (fc_single c).

(** borealis_formats.py:270-288 array_types. *)
Definition class_array_types (c : fields_class) (t : filetype) : dict btype :=
  filter (fun p => str_mem (fst p) (relevant c t)) (fc_array c).

(** borealis_formats.py:325-343 shared_fields. *)
Definition class_shared_fields (c : fields_class) (t : filetype) : list pystr :=
  filter (fun k => str_mem k (relevant c t)) (fc_shared c).

(** ** Dimension functions, as data *)

(** The functions of unshared_fields_dims_array: they take the dictionary of
    records.
    [AMaxSequences] find_max_sequences (base_format.py:1435-1462);
    [AMaxBeams] find_max_beams (1464-1491);
    [AMaxLen f] find_max_field_len_func(f) (1493-1536);
    [AMaxPpo] find_max_pulse_phase_offset (1538-1571);
    [AFirstItem f i] records[first_key][f][i] (borealis_formats.py:641-643,
    665-667, 967-969, 992-994, 1274-1276, 1299-1301, 2257-2259, 2281-2283);
    [AFirstShape f i] records[first_key][f].shape[i] (589-590). *)
Inductive adim : Type :=
| AMaxSequences
| AMaxBeams
| AMaxLen (f : pystr)
| AMaxPpo
| AFirstItem (f : pystr) (i : nat)
| AFirstShape (f : pystr) (i : nat).

(** The functions of unshared_fields_dims_site: they take the arrays and the
    record number.
    [SItem f] arrays[f][record_num]; [SShape f i] arrays[f].shape[i];
    [SLen f] len(arrays[f][record_num]);
    [SPpo] the function of borealis_formats.py:2102-2107, 2175-2180. *)
Inductive sdim : Type :=
| SItem (f : pystr)
| SShape (f : pystr) (i : nat)
| SLen (f : pystr)
| SPpo.

(** The functions of array_specific_fields_generate: [GCounts f] the lengths of
    field [f] as uint32, [GNames t l] an array of texts of type [t]
    (borealis_formats.py:886-892, 1191-1198, 1497-1504, 1760-1762, 2306-2307). *)
Inductive agen : Type :=
| GCounts (f : pystr)
| GNames (t : btype) (l : list pystr).

(** The functions of site_specific_fields_generate (borealis_formats.py:908-914,
    1214-1222, 1520-1526, 2290-2297, 2563-2569). *)
Inductive sgen : Type :=
| HNames (t : btype) (l : list pystr)
| HDims (l : list sdim).

(** ** The format classes *)

(** A format class (borealis_formats.py:593-2621, base_format.py:216-551).
    [fm_dims_array] is the result of calling unshared_fields_dims_array():
    the body may raise.  [fm_flat]: the field holding the dimensions and the
    fields that reshape_site_arrays / flatten_site_arrays work on. *)
Record format : Type := mk_format {
  fm_restructureable : bool;
  fm_single     : dict btype;
  fm_array      : dict btype;
  fm_shared     : list pystr;
  fm_dims_array : res (dict (list adim));
  fm_dims_site  : dict (list sdim);
  fm_array_gen  : dict agen;
  fm_site_gen   : dict sgen;
  fm_flat       : option (pystr * list pystr)
}.

(** *** Rawacf *)

(** borealis_formats.py:821-841 BorealisRawacfv0_4.unshared_fields_dims_array;
    [cd] is the field that find_num_ranges and find_num_lags read
    (641-643, 665-667: correlation_dimensions; 2257-2259, 2281-2283:
    data_dimensions). *)
Definition rawacf_dims_array_4 (cd : pystr) : dict (list adim) :=
  let acf := [AMaxBeams; AFirstItem cd 1; AFirstItem cd 2] in
  [(str "num_sequences", []); (str "int_time", []);
   (str "sqn_timestamps", [AMaxSequences]); (str "noise_at_freq", [AMaxSequences]);
   (str "main_acfs", acf); (str "intf_acfs", acf); (str "xcfs", acf);
   (str "scan_start_marker", []); (str "beam_nums", [AMaxBeams]);
   (str "beam_azms", [AMaxBeams]); (str "num_slices", [])].

(** borealis_formats.py:843-879 BorealisRawacfv0_4.unshared_fields_dims_site. *)
Definition rawacf_dims_site_4 : dict (list sdim) :=
  let acf := [SItem (str "num_beams"); SShape (str "main_acfs") 2; SShape (str "main_acfs") 3] in
  [(str "num_sequences", []); (str "int_time", []);
   (str "sqn_timestamps", [SItem (str "num_sequences")]);
   (str "noise_at_freq", [SItem (str "num_sequences")]);
   (str "main_acfs", acf); (str "intf_acfs", acf); (str "xcfs", acf);
   (str "scan_start_marker", []); (str "beam_nums", [SItem (str "num_beams")]);
   (str "beam_azms", [SItem (str "num_beams")]); (str "num_slices", [])].

(** borealis_formats.py:881-892 array_specific_fields_generate. *)
Definition rawacf_array_gen_4 : dict agen :=
  [(str "num_beams", GCounts (str "beam_nums"));
   (str "correlation_descriptors",
    GNames BNpStr [str "num_records"; str "max_num_beams"; str "num_ranges"; str "num_lags"])].

(** borealis_formats.py:903-914 site_specific_fields_generate. *)
Definition rawacf_site_gen_4 : dict sgen :=
  [(str "correlation_descriptors",
    HNames BNpStr [str "num_beams"; str "num_ranges"; str "num_lags"]);
   (str "correlation_dimensions",
    HDims [SItem (str "num_beams"); SShape (str "main_acfs") 2; SShape (str "main_acfs") 3])].

(** The three fields of borealis_formats.py:700, 733. *)
Definition acf_fields : list pystr := [str "main_acfs"; str "intf_acfs"; str "xcfs"].

(** borealis_formats.py:593-914 BorealisRawacfv0_4. *)
Definition rawacf_4 : format :=
  mk_format true (class_single_types fields_4 BRawacf) (class_array_types fields_4 BRawacf)
    (class_shared_fields fields_4 BRawacf)
    (Ok (rawacf_dims_array_4 (str "correlation_dimensions"))) rawacf_dims_site_4
    rawacf_array_gen_4 rawacf_site_gen_4 (Some (str "correlation_dimensions", acf_fields)).

(** *** Bfiq *)

(** borealis_formats.py:1141-1158 unshared_fields_dims_array (967-969, 992-994). *)
Definition bfiq_dims_array_4 : dict (list adim) :=
  [(str "num_sequences", []); (str "int_time", []);
   (str "sqn_timestamps", [AMaxSequences]); (str "noise_at_freq", [AMaxSequences]);
   (str "data", [AFirstItem (str "data_dimensions") 0; AMaxSequences; AMaxBeams;
                 AFirstItem (str "data_dimensions") 3]);
   (str "scan_start_marker", []); (str "beam_nums", [AMaxBeams]);
   (str "beam_azms", [AMaxBeams]); (str "num_slices", [])].

(** borealis_formats.py:1160-1184 unshared_fields_dims_site. *)
Definition bfiq_dims_site_4 : dict (list sdim) :=
  [(str "num_sequences", []); (str "int_time", []);
   (str "sqn_timestamps", [SItem (str "num_sequences")]);
   (str "noise_at_freq", [SItem (str "num_sequences")]);
   (str "data", [SShape (str "data") 1; SItem (str "num_sequences");
                 SItem (str "num_beams"); SShape (str "data") 4]);
   (str "scan_start_marker", []); (str "beam_nums", [SItem (str "num_beams")]);
   (str "beam_azms", [SItem (str "num_beams")]); (str "num_slices", [])].

(** borealis_formats.py:1186-1198 array_specific_fields_generate. *)
Definition bfiq_array_gen_4 : dict agen :=
  [(str "num_beams", GCounts (str "beam_nums"));
   (str "data_descriptors",
    GNames BNpStr [str "num_records"; str "num_antenna_arrays"; str "max_num_sequences";
                   str "max_num_beams"; str "num_samps"])].

(** borealis_formats.py:1209-1222 site_specific_fields_generate. *)
Definition bfiq_site_gen_4 : dict sgen :=
  [(str "data_descriptors",
    HNames BNpStr [str "num_antenna_arrays"; str "num_sequences"; str "num_beams";
                   str "num_samps"]);
   (str "data_dimensions",
    HDims [SShape (str "data") 1; SItem (str "num_sequences");
           SItem (str "num_beams"); SShape (str "data") 4])].

(** borealis_formats.py:1023-1024, 1057, 1330-1331, 1364. *)
Definition flat_data : option (pystr * list pystr) :=
  Some (str "data_dimensions", [str "data"]).

(** borealis_formats.py:917-1222 BorealisBfiqv0_4. *)
Definition bfiq_4 : format :=
  mk_format true (class_single_types fields_4 Bfiq) (class_array_types fields_4 Bfiq)
    (class_shared_fields fields_4 Bfiq) (Ok bfiq_dims_array_4) bfiq_dims_site_4
    bfiq_array_gen_4 bfiq_site_gen_4 flat_data.

(** *** AntennasIq *)

(** borealis_formats.py:1450-1466 unshared_fields_dims_array (1274-1276,
    1299-1301). *)
Definition antennas_dims_array_4 : dict (list adim) :=
  [(str "num_sequences", []); (str "int_time", []);
   (str "sqn_timestamps", [AMaxSequences]); (str "noise_at_freq", [AMaxSequences]);
   (str "data", [AFirstItem (str "data_dimensions") 0; AMaxSequences;
                 AFirstItem (str "data_dimensions") 2]);
   (str "scan_start_marker", []); (str "beam_nums", [AMaxBeams]);
   (str "beam_azms", [AMaxBeams]); (str "num_slices", [])].

(** borealis_formats.py:1468-1490 unshared_fields_dims_site. *)
Definition antennas_dims_site_4 : dict (list sdim) :=
  [(str "num_sequences", []); (str "int_time", []);
   (str "sqn_timestamps", [SItem (str "num_sequences")]);
   (str "noise_at_freq", [SItem (str "num_sequences")]);
   (str "data", [SShape (str "data") 1; SItem (str "num_sequences"); SShape (str "data") 3]);
   (str "scan_start_marker", []); (str "beam_nums", [SItem (str "num_beams")]);
   (str "beam_azms", [SItem (str "num_beams")]); (str "num_slices", [])].

(** borealis_formats.py:1492-1504 array_specific_fields_generate. *)
Definition antennas_array_gen_4 : dict agen :=
  [(str "num_beams", GCounts (str "beam_nums"));
   (str "data_descriptors",
    GNames BNpStr [str "num_records"; str "num_antennas"; str "max_num_sequences";
                   str "num_samps"])].

(** borealis_formats.py:1515-1526, 2558-2569 site_specific_fields_generate; the
    type of the texts differs between the two. *)
Definition antennas_site_gen (t : btype) : dict sgen :=
  [(str "data_descriptors",
    HNames t [str "num_antennas"; str "num_sequences"; str "num_samps"]);
   (str "data_dimensions",
    HDims [SShape (str "data") 1; SItem (str "num_sequences"); SShape (str "data") 3])].

(** borealis_formats.py:1225-1526 BorealisAntennasIqv0_4. *)
Definition antennas_4 : format :=
  mk_format true (class_single_types fields_4 AntennasIq) (class_array_types fields_4 AntennasIq)
    (class_shared_fields fields_4 AntennasIq) (Ok antennas_dims_array_4) antennas_dims_site_4
    antennas_array_gen_4 (antennas_site_gen BNpStr) flat_data.

(** *** Rawrf *)

(** borealis_formats.py:1529-1686 BorealisRawrfv0_4, 1954-1972, 2185-2205: the
    remaining methods are those of BaseFormat (base_format.py:292-480), which
    return empty lists and dictionaries. *)
Definition rawrf_of (c : fields_class) : format :=
  mk_format false (class_single_types c Rawrf) (class_array_types c Rawrf) []
    (Ok []) [] [] [] flat_data.

(** *** Version 0.5 *)

(** borealis_formats.py:1731-1737, 1820-1826, 1908-1914. *)
Definition dims_array_5 (d : dict (list adim)) : dict (list adim) :=
  dict_update d [(str "blanked_samples", [AMaxLen (str "blanked_samples")]);
                 (str "slice_interfacing", [])].

(** borealis_formats.py:1744-1751, 1833-1840 (rawacf, bfiq: [si] is the length
    of the text) and 1921-1927 (antennas_iq: [si] is empty). *)
Definition dims_site_5 (si : list sdim) (d : dict (list sdim)) : dict (list sdim) :=
  dict_update d [(str "blanked_samples", [SItem (str "num_blanked_samples")]);
                 (str "slice_interfacing", si)].

(** borealis_formats.py:1758-1764, 1847-1853, 1934-1940. *)
Definition array_gen_5 (d : dict agen) : dict agen :=
  dict_update d [(str "num_blanked_samples", GCounts (str "blanked_samples"))].

(** [lambda arrays, record_num: len(arrays['slice_interfacing'][record_num])]
    (borealis_formats.py:1748-1749, 1837-1838). *)
Definition si_len : list sdim := [SLen (str "slice_interfacing")].

(** borealis_formats.py:1689-1775 BorealisRawacfv0_5. *)
Definition rawacf_5 : format :=
  mk_format true (class_single_types fields_5 BRawacf) (class_array_types fields_5 BRawacf)
    (class_shared_fields fields_5 BRawacf)
    (Ok (dims_array_5 (rawacf_dims_array_4 (str "correlation_dimensions"))))
    (dims_site_5 si_len rawacf_dims_site_4)
    (array_gen_5 rawacf_array_gen_4) rawacf_site_gen_4
    (Some (str "correlation_dimensions", acf_fields)).

(** borealis_formats.py:1778-1864 BorealisBfiqv0_5. *)
Definition bfiq_5 : format :=
  mk_format true (class_single_types fields_5 Bfiq) (class_array_types fields_5 Bfiq)
    (class_shared_fields fields_5 Bfiq) (Ok (dims_array_5 bfiq_dims_array_4))
    (dims_site_5 si_len bfiq_dims_site_4)
    (array_gen_5 bfiq_array_gen_4) bfiq_site_gen_4 flat_data.

(** borealis_formats.py:1867-1951 BorealisAntennasIqv0_5. *)
Definition antennas_5 : format :=
  mk_format true (class_single_types fields_5 AntennasIq) (class_array_types fields_5 AntennasIq)
    (class_shared_fields fields_5 AntennasIq) (Ok (dims_array_5 antennas_dims_array_4))
    (dims_site_5 [] antennas_dims_site_4)
    (array_gen_5 antennas_array_gen_4) (antennas_site_gen BNpStr) flat_data.

(** *** Version 0.6 *)

(** borealis_formats.py:2015-2022 (rawacf), 2081-2089, 2154-2162 (bfiq and
    antennas_iq: with pulse_phase_offset, [ppo]). *)
Definition dims_array_6 (ppo : bool) (d : dict (list adim)) : dict (list adim) :=
  dict_update d ([(str "agc_status_word", []); (str "lp_status_word", []);
                  (str "gps_locked", []); (str "gps_to_system_time_diff", [])]
                 ++ if ppo then [(str "pulse_phase_offset", [AMaxPpo])] else []).

(** borealis_formats.py:2029-2036, 2096-2109, 2169-2182. *)
Definition dims_site_6 (ppo : bool) (d : dict (list sdim)) : dict (list sdim) :=
  dict_update d ([(str "agc_status_word", []); (str "lp_status_word", []);
                  (str "gps_locked", []); (str "gps_to_system_time_diff", [])]
                 ++ if ppo then [(str "pulse_phase_offset", [SPpo])] else []).

(** borealis_formats.py:1975-2036 BorealisRawacfv0_6. *)
Definition rawacf_6 : format :=
  mk_format true (class_single_types fields_6 BRawacf) (class_array_types fields_6 BRawacf)
    (class_shared_fields fields_6 BRawacf)
    (Ok (dims_array_6 false (dims_array_5 (rawacf_dims_array_4 (str "correlation_dimensions")))))
    (dims_site_6 false (dims_site_5 si_len rawacf_dims_site_4))
    (array_gen_5 rawacf_array_gen_4) rawacf_site_gen_4
    (Some (str "correlation_dimensions", acf_fields)).

(** borealis_formats.py:2039-2109 BorealisBfiqv0_6. *)
Definition bfiq_6 : format :=
  mk_format true (class_single_types fields_6 Bfiq) (class_array_types fields_6 Bfiq)
    (class_shared_fields fields_6 Bfiq)
    (Ok (dims_array_6 true (dims_array_5 bfiq_dims_array_4)))
    (dims_site_6 true (dims_site_5 si_len bfiq_dims_site_4))
    (array_gen_5 bfiq_array_gen_4) bfiq_site_gen_4 flat_data.

(** borealis_formats.py:2112-2182 BorealisAntennasIqv0_6. *)
Definition antennas_6 : format :=
  mk_format true (class_single_types fields_6 AntennasIq) (class_array_types fields_6 AntennasIq)
    (class_shared_fields fields_6 AntennasIq)
    (Ok (dims_array_6 true (dims_array_5 antennas_dims_array_4)))
    (dims_site_6 true (dims_site_5 [] antennas_dims_site_4))
    (array_gen_5 antennas_array_gen_4) (antennas_site_gen BNpStr) flat_data.

(** *** Version 0.7 *)

(** borealis_formats.py:2285-2297 BorealisRawacf.site_specific_fields_generate. *)
Definition rawacf_site_gen_7 : dict sgen :=
  let d := dict_pop rawacf_site_gen_4 (str "correlation_dimensions") in
  let d := dict_set d (str "data_dimensions")
             (HDims [SItem (str "num_beams"); SShape (str "main_acfs") 2;
                     SShape (str "main_acfs") 3]) in
  let d := dict_pop d (str "correlation_descriptors") in
  dict_set d (str "data_descriptors")
    (HNames BBytes [str "num_beams"; str "num_ranges"; str "num_lags"]).

(** borealis_formats.py:2299-2308 BorealisRawacf.array_specific_fields_generate. *)
Definition rawacf_array_gen_7 : dict agen :=
  let d := dict_pop (array_gen_5 rawacf_array_gen_4) (str "correlation_descriptors") in
  dict_set d (str "data_descriptors")
    (GNames BBytes [str "num_records"; str "max_num_beams"; str "num_ranges"; str "num_lags"]).

(** borealis_formats.py:2210-2433 BorealisRawacf; reshaping and flattening do
    nothing (2310-2363). *)
Definition rawacf_7 : format :=
  mk_format true (class_single_types fields_7 BRawacf) (class_array_types fields_7 BRawacf)
    (class_shared_fields fields_7 BRawacf)
    (Ok (dict_update
           (dims_array_6 false (dims_array_5 (rawacf_dims_array_4 (str "data_dimensions"))))
           [(str "tx_antenna_phases", [AFirstShape (str "tx_antenna_phases") 0])]))
    (dict_update (dims_site_6 false (dims_site_5 si_len rawacf_dims_site_4))
       [(str "tx_antenna_phases", [SShape (str "tx_antenna_phases") 1])])
    rawacf_array_gen_7 rawacf_site_gen_7 None.

(** borealis_formats.py:2436-2491 BorealisBfiq. *)
Definition bfiq_7 : format :=
  mk_format true (class_single_types fields_7 Bfiq) (class_array_types fields_7 Bfiq)
    (class_shared_fields fields_7 Bfiq)
    (Ok (dict_update (dims_array_6 true (dims_array_5 bfiq_dims_array_4))
           [(str "tx_antenna_phases", [AFirstShape (str "tx_antenna_phases") 0])]))
    (dict_update (dims_site_6 true (dims_site_5 si_len bfiq_dims_site_4))
       [(str "tx_antenna_phases", [SShape (str "tx_antenna_phases") 1])])
    (array_gen_5 bfiq_array_gen_4) bfiq_site_gen_4 flat_data.

(** borealis_formats.py:2494-2569 BorealisAntennasIq. *)
Definition antennas_7 : format :=
  mk_format true (class_single_types fields_7 AntennasIq) (class_array_types fields_7 AntennasIq)
    (class_shared_fields fields_7 AntennasIq)
    (Ok (dict_update (dims_array_6 true (dims_array_5 antennas_dims_array_4))
           [(str "tx_antenna_phases", [AFirstItem (str "data_dimensions") 0])]))
    (dict_update (dims_site_6 true (dims_site_5 [] antennas_dims_site_4))
       [(str "tx_antenna_phases", [SShape (str "data") 1])])
    (array_gen_5 antennas_array_gen_4) (antennas_site_gen BBytes) flat_data.

(** borealis_formats.py:2571-2621 BorealisRawrf: [cls.find_num_antennas] in
    unshared_fields_dims_array does not exist for this class, AttributeError. *)
Definition rawrf_7 : format :=
  mk_format false (class_single_types fields_7 Rawrf) (class_array_types fields_7 Rawrf) []
    (Raise AttributeError) [(str "tx_antenna_phases", [SShape (str "data") 1])] [] [] flat_data.

(** ** Versions *)

(** The versions of borealis_version_dict (borealis_formats.py:2625-2662). *)
Definition versions : list pystr :=
  [str "v0.2"; str "v0.3"; str "v0.4"; str "v0.5"; str "v0.6"; str "v0.7"].

(** The four generations of format classes (borealis_formats.py:2625-2662). *)
Inductive generation : Type := G4 | G5 | G6 | G7.

(** borealis_formats.py:2625-2662 borealis_version_dict, first level; [None] is
    KeyError. *)
Definition version_generation (v : pystr) : option generation :=
  dict_get [(str "v0.2", G4); (str "v0.3", G4); (str "v0.4", G4); (str "v0.5", G5);
            (str "v0.6", G6); (str "v0.7", G7)] v.

(** borealis_formats.py:2625-2662 borealis_version_dict, second level. *)
Definition format_class (g : generation) (t : filetype) : format :=
  match g, t with
  | G4, Bfiq => bfiq_4 | G4, BRawacf => rawacf_4 | G4, AntennasIq => antennas_4
  | G4, Rawrf => rawrf_of fields_4
  | G5, Bfiq => bfiq_5 | G5, BRawacf => rawacf_5 | G5, AntennasIq => antennas_5
  | G5, Rawrf => rawrf_of fields_5
  | G6, Bfiq => bfiq_6 | G6, BRawacf => rawacf_6 | G6, AntennasIq => antennas_6
  | G6, Rawrf => rawrf_of fields_6
  | G7, Bfiq => bfiq_7 | G7, BRawacf => rawacf_7 | G7, AntennasIq => antennas_7
  | G7, Rawrf => rawrf_7
  end.

(** ** Derived lists (base_format.py) *)

(** base_format.py:632-655 unshared_fields. *)
Definition unshared_fields (F : format) : res (list pystr) :=
  rlet d := fm_dims_array F in Ok (map fst d).

(** base_format.py:657-680 array_specific_fields. *)
Definition array_specific_fields (F : format) : list pystr := map fst (fm_array_gen F).

(** base_format.py:682-705 site_specific_fields. *)
Definition site_specific_fields (F : format) : list pystr := map fst (fm_site_gen F).

(** base_format.py:707-732 site_fields. *)
Definition site_fields (F : format) : res (list pystr) :=
  rlet u := unshared_fields F in Ok (fm_shared F ++ u ++ site_specific_fields F).

(** base_format.py:734-759 array_fields. *)
Definition array_fields (F : format) : res (list pystr) :=
  rlet u := unshared_fields F in Ok (fm_shared F ++ u ++ array_specific_fields F).

(** [{k: table[k] for k in l}], all of [l] being keys (base_format.py:761-985). *)
Fixpoint type_dict (table : dict btype) (l : list pystr) : res (dict btype) :=
  match l with
  | [] => Ok []
  | k :: l' =>
      rlet t := dict_item table k in
      rlet rest := type_dict table l' in
      Ok (dict_update [(k, t)] rest)
  end.

(** base_format.py:761-795 site_single_element_fields, site_single_element_types. *)
Definition site_single_element_types (F : format) : res (dict btype) :=
  rlet fs := site_fields F in
  type_dict (fm_single F) (filter (fun k => str_mem k (map fst (fm_single F))) fs).

(** base_format.py:797-833 site_array_dtypes_fields, site_array_dtypes. *)
Definition site_array_dtypes (F : format) : res (dict btype) :=
  rlet fs := site_fields F in
  type_dict (fm_array F) (filter (fun k => str_mem k (map fst (fm_array F))) fs).

(** base_format.py:835-884 array_single_element_fields,
    array_single_element_types. *)
Definition array_single_element_types (F : format) : res (dict btype) :=
  rlet fs := array_fields F in
  type_dict (fm_single F)
    (filter (fun k => str_mem k (map fst (fm_single F)) && str_mem k (fm_shared F)) fs).

(** base_format.py:886-954 array_array_dtypes_fields, array_array_dtypes. *)
Definition array_array_dtypes (F : format) : res (dict btype) :=
  rlet fs := array_fields F in
  rlet u := unshared_fields F in
  let in_arrays k := str_mem k (map fst (fm_array F)) in
  let in_single k := str_mem k (map fst (fm_single F)) in
  let names :=
    filter in_arrays fs
    ++ filter (fun k => in_single k && (str_mem k u || str_mem k (array_specific_fields F))) fs in
  rlet d1 := type_dict (fm_array F) (filter in_arrays names) in
  rlet d2 := type_dict (fm_single F) (filter in_single names) in
  Ok (dict_update d1 d2).
