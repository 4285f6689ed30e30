{
 "claims": [
  {
   "property": "C01",
   "status": "proved",
   "theorems": [
    "C01_exact",
    "C01_round_trip",
    "C01_stable"
   ],
   "note": "Representable records as defined by block_back in DmapWriteSpec.v; numpy scalars come back as the equal Python number."
  },
  {
   "property": "C02",
   "status": "proved",
   "theorems": [
    "C02_plain",
    "C02_accepted"
   ],
   "note": "C02_plain: files described by the grammar with the listed conditions (quiet NaNs allowed). C02_accepted: stated on any accepted byte string, excluding every NaN in single-float scalars."
  },
  {
   "property": "C03",
   "status": "proved",
   "theorems": [
    "C03_outcomes",
    "C03_struct_overflow"
   ],
   "note": "All byte strings; names the exceptions a read can raise."
  },
  {
   "property": "C04",
   "status": "proved",
   "theorems": [
    "C04_sound",
    "C04_sound_trace",
    "C04_trace"
   ],
   "note": "Soundness against the wire grammar of DmapSpec.v; C101 says it for all files"
  },
  {
   "property": "C05",
   "status": "proved",
   "theorems": [
    "C05_complete",
    "C05_unambiguous"
   ],
   "note": "Completeness for the wire grammar, and the grammar is unambiguous."
  },
  {
   "property": "C06",
   "status": "proved",
   "theorems": [
    "C06_integrity"
   ],
   "note": ""
  },
  {
   "property": "C07",
   "status": "proved",
   "theorems": [
    "C07_read_integrity"
   ],
   "note": ""
  },
  {
   "property": "C08",
   "status": "proved",
   "theorems": [
    "C08_truncation",
    "C08_detected"
   ],
   "note": ""
  },
  {
   "property": "C09",
   "status": "proved",
   "theorems": [
    "C09_concat",
    "C09_remainder"
   ],
   "note": ""
  },
  {
   "property": "C10",
   "status": "proved",
   "theorems": [
    "C10_repeat",
    "C10_file_stream"
   ],
   "note": ""
  },
  {
   "property": "C11",
   "status": "proved",
   "theorems": [
    "C11_header",
    "C11_integrity"
   ],
   "note": "C11_integrity covers every stream output after any sequence of calls on the object."
  },
  {
   "property": "C12",
   "status": "proved",
   "theorems": [
    "C12_write",
    "C12_read",
    "C12_position"
   ],
   "note": ""
  },
  {
   "property": "C13",
   "status": "proved",
   "theorems": [
    "C13_duplicates"
   ],
   "note": ""
  },
  {
   "property": "C14",
   "status": "proved",
   "theorems": [
    "C14_one_sided",
    "C14_rejected"
   ],
   "note": ""
  },
  {
   "property": "C15",
   "status": "proved",
   "theorems": [
    "C15_char",
    "C15_not_same",
    "C15_dict_char"
   ],
   "note": "C15_not_same needs the other text of the record to be ASCII."
  },
  {
   "property": "C16",
   "status": "proved",
   "theorems": [
    "C16_ascii",
    "C16_truncated",
    "C16_name",
    "C16_not_same"
   ],
   "note": ""
  },
  {
   "property": "C17",
   "status": "proved",
   "theorems": [
    "C17_accumulates",
    "C17_sdarn"
   ],
   "note": "DmapWrite and SDarnWrite objects."
  },
  {
   "property": "C18",
   "status": "proved",
   "theorems": [
    "C18_failed_write",
    "C18_written",
    "C18_sdarn_failed",
    "C18_sdarn_written"
   ],
   "note": "For write_dmap; opening the file is assumed not to fail."
  },
  {
   "property": "C19",
   "status": "proved",
   "theorems": [
    "C19_last_name",
    "C19_sdarn"
   ],
   "note": ""
  },
  {
   "property": "C20",
   "status": "proved",
   "theorems": [
    "C20_order_needed",
    "C20_order_suffices"
   ],
   "note": ""
  },
  {
   "property": "C21",
   "status": "proved",
   "theorems": [
    "C21_range",
    "C21_never_wrapped"
   ],
   "note": ""
  },
  {
   "property": "C22",
   "status": "proved",
   "theorems": [
    "C22_bits",
    "C22_value"
   ],
   "note": ""
  },
  {
   "property": "C23",
   "status": "proved",
   "theorems": [
    "C23_there_and_back",
    "C23_wrapped",
    "C23_float"
   ],
   "note": "64-bit arrays ('q', 'Q') are the exception: dict2dmap raises KeyError."
  },
  {
   "property": "C24",
   "status": "proved",
   "theorems": [
    "C24_detection",
    "C24_converted",
    "C24_plain_later",
    "C24_dmap_later"
   ],
   "note": ""
  },
  {
   "property": "C25",
   "status": "proved",
   "theorems": [
    "C25_native",
    "C25_big_endian",
    "C25_swapped"
   ],
   "note": "Python floats must be float32-representable."
  },
  {
   "property": "C26",
   "status": "proved",
   "theorems": [
    "C26_reader",
    "C26_writer",
    "C26_nonempty",
    "C26_sdarn",
    "C26_sdarn_read"
   ],
   "note": "DMAP and SuperDARN reader and writer objects."
  },
  {
   "property": "C27",
   "status": "proved",
   "theorems": [
    "C27_read_accepts",
    "C27_write_accepts",
    "C27_read_errors",
    "C27_write_errors",
    "C27_files"
   ],
   "note": "Error theorems for records of DMAP fields (every record read, and every record SDarnWrite was given in DMAP form or converted)."
  },
  {
   "property": "C28",
   "status": "proved",
   "theorems": [
    "C28_same_verdict",
    "C28_files"
   ],
   "note": ""
  },
  {
   "property": "C29",
   "status": "proved",
   "theorems": [
    "C29_round_trip",
    "C29_dictionaries"
   ],
   "note": "Representable as in C01/C02 (block_back, dict_back)."
  },
  {
   "property": "C30",
   "status": "proved",
   "theorems": [
    "C30_whole_groups",
    "C30_no_mandatory_field",
    "C30_iqdat"
   ],
   "note": "Iqdat has a single group, so only the empty record lacks it."
  },
  {
   "property": "C31",
   "status": "proved",
   "theorems": [
    "C31_read",
    "C31_prefix",
    "C31_write",
    "C31_write_rejects"
   ],
   "note": "C31_prefix covers files that cannot be read to the end."
  },
  {
   "property": "C32",
   "status": "proved",
   "theorems": [
    "C32_retry",
    "C32_numbers_restart"
   ],
   "note": ""
  },
  {
   "property": "C33",
   "status": "proved",
   "theorems": [
    "C33_no_checks",
    "C33_history"
   ],
   "note": ""
  },
  {
   "property": "C34",
   "status": "proved",
   "theorems": [
    "C34_only_formats"
   ],
   "note": ""
  },
  {
   "property": "C35",
   "status": "proved",
   "theorems": [
    "C35_disjoint",
    "C35_formats",
    "C35_order"
   ],
   "note": "The order of the names inside a missing-field error may change with the order of the groups; everything else may not."
  },
  {
   "property": "C36",
   "status": "proved",
   "theorems": [
    "C36_accepts",
    "C36_report",
    "C36_fields"
   ],
   "note": ""
  },
  {
   "property": "C37",
   "status": "proved",
   "theorems": [
    "C37_accepts",
    "C37_verdict",
    "C37_fields"
   ],
   "note": ""
  },
  {
   "property": "C38",
   "status": "proved",
   "theorems": [
    "C38_tables",
    "C38_one_role",
    "C38_versions",
    "C38_disjoint_refuted"
   ],
   "note": "Strict disjointness is refuted by C38_disjoint_refuted; the claim is stated with the exception."
  },
  {
   "property": "C39",
   "status": "proved",
   "theorems": [
    "C39_array_version",
    "C39_site_version",
    "C39_one_version",
    "C39_patch",
    "C39_structure",
    "C39_file_version",
    "C39_attribute_refuted"
   ],
   "note": ""
  },
  {
   "property": "C40",
   "status": "proved",
   "theorems": [
    "C40_round_trip",
    "C40_blanked_refuted",
    "C40_pulses_refuted"
   ],
   "note": "The conditions on blanked samples and on pulse phase offsets are needed: the _refuted theorems drop them."
  },
  {
   "property": "C41",
   "status": "proved",
   "theorems": [
    "C41_arrays"
   ],
   "note": ""
  },
  {
   "property": "C42",
   "status": "proved",
   "theorems": [
    "C42_names",
    "C42_merge",
    "C42_milliseconds",
    "C42_collide",
    "C42_exact_refuted"
   ],
   "note": "The exact-millisecond form for all times is refuted by C42_exact_refuted."
  },
  {
   "property": "C43",
   "status": "proved",
   "theorems": [
    "C43_type",
    "C43_structure",
    "C43_overwrite",
    "C43_nothing",
    "C43_version",
    "C43_only_output",
    "C43_output_refuted"
   ],
   "note": ""
  },
  {
   "property": "C44",
   "status": "proved",
   "theorems": [
    "C44_rawacf",
    "C44_iqdat",
    "C44_refused",
    "C44_version",
    "C44_leaks",
    "C44_phases_matrix"
   ],
   "note": ""
  },
  {
   "property": "C45",
   "status": "proved",
   "theorems": [
    "C45_samples",
    "C45_sequences"
   ],
   "note": "the scaling of a sample is a parameter of the model; C68 and C69 give it"
  },
  {
   "property": "C46",
   "status": "proved",
   "theorems": [
    "C46_correlations"
   ],
   "note": "the scaling of a sample and its power are parameters of the model; C68 and C69 give them"
  },
  {
   "property": "C47",
   "status": "proved",
   "theorems": [
    "C47_acceptable"
   ],
   "note": ""
  },
  {
   "property": "C48",
   "status": "proved",
   "theorems": [
    "C48_failed",
    "C48_written",
    "C48_same_name",
    "C48_errors",
    "C48_slice",
    "C48_stations",
    "C48_codes"
   ],
   "note": ""
  },
  {
   "property": "C49",
   "status": "proved",
   "theorems": [
    "C49_untagged",
    "C49_revision"
   ],
   "note": "numpy 1.x conventions; in numpy 2 np.int8(255) itself is an OverflowError"
  },
  {
   "property": "C50",
   "status": "proved",
   "theorems": [
    "C50_read",
    "C50_exclusive",
    "C50_no_hash",
    "C50_hash_and_groups",
    "C50_write_records",
    "C50_write_arrays"
   ],
   "note": ""
  },
  {
   "property": "C51",
   "status": "proved",
   "theorems": [
    "C51_leftover"
   ],
   "note": ""
  },
  {
   "property": "C52",
   "status": "proved",
   "theorems": [
    "C52_nearest_single"
   ],
   "note": "The NaN cases and the widening direction are in C22; infinities are covered there too."
  },
  {
   "property": "C53",
   "status": "proved",
   "theorems": [
    "C53_rawrf"
   ],
   "note": ""
  },
  {
   "property": "C54",
   "status": "proved",
   "theorems": [
    "C54_arrays_pass",
    "C54_records_pass"
   ],
   "note": ""
  },
  {
   "property": "C55",
   "status": "proved",
   "theorems": [
    "C55_site_file",
    "C55_array_file"
   ],
   "note": "h5py is modelled at the level of groups, datasets and attributes"
  },
  {
   "property": "C56",
   "status": "proved",
   "theorems": [
    "C56_default_compression"
   ],
   "note": "that HDF5 has no filter \"zlib\" is a hypothesis"
  },
  {
   "property": "C57",
   "status": "proved",
   "theorems": [
    "C57_offsets_lost",
    "C57_kept_refuted"
   ],
   "note": ""
  },
  {
   "property": "C58",
   "status": "proved",
   "theorems": [
    "C58_kept",
    "C58_added",
    "C58_clash",
    "C58_twice",
    "C58_mixed"
   ],
   "note": ""
  },
  {
   "property": "C59",
   "status": "proved",
   "theorems": [
    "C59_missing",
    "C59_no_hash",
    "C59_restructure_empty",
    "C59_type",
    "C59_structure",
    "C59_default_site",
    "C59_library_attributes",
    "C59_compression"
   ],
   "note": ""
  },
  {
   "property": "C60",
   "status": "proved",
   "theorems": [
    "C60_copied",
    "C60_status",
    "C60_counts",
    "C60_constants",
    "C60_tables",
    "C60_iqdat",
    "C60_rawacf"
   ],
   "note": ""
  },
  {
   "property": "C61",
   "status": "proved",
   "theorems": [
    "C61_time",
    "C61_dates"
   ],
   "note": ""
  },
  {
   "property": "C62",
   "status": "proved",
   "theorems": [
    "C62_lagfr",
    "C62_smsep",
    "C62_intt",
    "C62_ranges",
    "C62_noise",
    "C62_iqdat"
   ],
   "note": ""
  },
  {
   "property": "C63",
   "status": "proved",
   "theorems": [
    "C63_times",
    "C63_seconds_refuted"
   ],
   "note": "C63_seconds_refuted: tsc is not the second of the timestamp (bug in the code)"
  },
  {
   "property": "C64",
   "status": "proved",
   "theorems": [
    "C64_texts",
    "C64_revisions",
    "C64_needed"
   ],
   "note": ""
  },
  {
   "property": "C65",
   "status": "proved",
   "theorems": [
    "C65_antennas"
   ],
   "note": ""
  },
  {
   "property": "C66",
   "status": "proved",
   "theorems": [
    "C66_to_site",
    "C66_phases_refuted",
    "C66_clash_refuted"
   ],
   "note": "the _refuted theorems show that the two extra conditions are needed"
  },
  {
   "property": "C67",
   "status": "proved",
   "theorems": [
    "C67_to_array",
    "C67_beams_refuted",
    "C67_phases_refuted",
    "C67_lost_refuted",
    "C67_text_refuted"
   ],
   "note": "the _refuted theorems show that the extra conditions are needed"
  },
  {
   "property": "C68",
   "status": "proved",
   "theorems": [
    "C68_samples",
    "C68_unit",
    "C68_overflow_refuted"
   ],
   "note": "the _refuted theorem shows that the bound on samples is needed"
  },
  {
   "property": "C69",
   "status": "proved",
   "theorems": [
    "C69_correlations",
    "C69_square"
   ],
   "note": ""
  },
  {
   "property": "C70",
   "status": "proved",
   "theorems": [
    "C70_reads",
    "C70_moderate"
   ],
   "note": ""
  },
  {
   "property": "C71",
   "status": "proved",
   "theorems": [
    "C71_output",
    "C71_clash",
    "C71_millisecond",
    "C71_empty"
   ],
   "note": "OutOfModel marks the data types and shapes the model does not follow."
  },
  {
   "property": "C72",
   "status": "proved",
   "theorems": [
    "C72_round",
    "C72_bfiq",
    "C72_bfiq_refuted",
    "C72_names_refuted"
   ],
   "note": "The refuted theorems show that the two conditions are needed. OutOfModel marks the data types and shapes the model does not follow."
  },
  {
   "property": "C73",
   "status": "proved",
   "theorems": [
    "C73_errors",
    "C73_dicts",
    "C73_reported",
    "C73_unique",
    "C73_kept",
    "C73_truncated",
    "C73_integrity"
   ],
   "note": "The direction from faults to exceptions (C73_reported) needs no hypothesis about slist; C102 says it for all files"
  },
  {
   "property": "C74",
   "status": "proved",
   "theorems": [
    "C74_text",
    "C74_weekdays",
    "C74_second",
    "C74_reads"
   ],
   "note": "strftime of glibc in the C locale, see DESIGN.md."
  },
  {
   "property": "C75",
   "status": "proved",
   "theorems": [
    "C75_reader",
    "C75_sdarn_reader",
    "C75_dmap_writer",
    "C75_sdarn_writer",
    "C75_site_reader",
    "C75_borealis_write_refuted",
    "C75_borealis_write",
    "C75_patterns",
    "C75_numbered",
    "C75_borealis_write_cause"
   ],
   "note": "C75_borealis_write_refuted is the witness against the expectation that every object has a text; the property states what holds instead."
  },
  {
   "property": "C76",
   "status": "proved",
   "theorems": [
    "C76_records",
    "C76_plain",
    "C76_rest",
    "C76_truncated"
   ],
   "note": "C76_truncated assumes no negative slist size in the good part (as C04) and, when the first call is a read_<type>, that the good records are acceptable to it."
  },
  {
   "property": "C77",
   "status": "proved",
   "theorems": [
    "C77_round",
    "C77_samples",
    "C77_phases_refuted",
    "C77_order_refuted"
   ],
   "note": "The hypotheses ask for records of which the arrays are made (arrays_of); C40-C42 show that the arrays pyDARNio itself makes are of this kind."
  },
  {
   "property": "C78",
   "status": "proved",
   "theorems": [
    "C78_phases"
   ],
   "note": ""
  },
  {
   "property": "C79",
   "status": "proved",
   "theorems": [
    "C79_shapes",
    "C79_same_refuted"
   ],
   "note": ""
  },
  {
   "property": "C80",
   "status": "proved",
   "theorems": [
    "C80_after"
   ],
   "note": ""
  },
  {
   "property": "C81",
   "status": "proved",
   "theorems": [
    "C81_wide",
    "C81_exact"
   ],
   "note": ""
  },
  {
   "property": "C82",
   "status": "proved",
   "theorems": [
    "C82_site_checked",
    "C82_array_checked",
    "C82_write_checked",
    "C82_site_refused",
    "C82_array_refused",
    "C82_documented_refuted",
    "C82_records_as_arrays",
    "C82_arrays_as_records"
   ],
   "note": ""
  },
  {
   "property": "C83",
   "status": "proved",
   "theorems": [
    "C83_rawacf",
    "C83_bfiq",
    "C83_rows",
    "C83_seven",
    "C83_same_refuted"
   ],
   "note": ""
  },
  {
   "property": "C84",
   "status": "proved",
   "theorems": [
    "C84_scalar",
    "C84_array",
    "C84_record",
    "C84_left",
    "C84_stream",
    "C84_file",
    "C84_refused"
   ],
   "note": "excepted: 's' with floats, lists and arrays; 'f' with a text, a numpy integer of more than 53 bits, a list or array of one element or an array of texts; 'd' with an array of one element; rank-0 arrays and unknown objects as scalar values"
  },
  {
   "property": "C85",
   "status": "proved",
   "theorems": [
    "C85_missing",
    "C85_extra",
    "C85_types"
   ],
   "note": ""
  },
  {
   "property": "C86",
   "status": "proved",
   "theorems": [
    "C86_checks",
    "C86_write",
    "C86_success"
   ],
   "note": "the exceptions of C84 (record_known)"
  },
  {
   "property": "C87",
   "status": "proved",
   "theorems": [
    "C87_read",
    "C87_block",
    "C87_check"
   ],
   "note": "C103 says it for all files"
  },
  {
   "property": "C88",
   "status": "proved",
   "theorems": [
    "C88_site",
    "C88_array",
    "C88_read",
    "C88_shown"
   ],
   "note": "datasets are met in the order in which the file lists them"
  },
  {
   "property": "C89",
   "status": "proved",
   "theorems": [
    "C89_double",
    "C89_one",
    "C89_single",
    "C89_single_large",
    "C89_single_refuted",
    "C89_text",
    "C89_many",
    "C89_same",
    "C89_back"
   ],
   "note": "the stronger form (a float field always gets the nearest single) is refuted by C89_single_refuted"
  },
  {
   "property": "C90",
   "status": "proved",
   "theorems": [
    "C90_blocked",
    "C90_after",
    "C90_long",
    "C90_integrity",
    "C90_files"
   ],
   "note": ""
  },
  {
   "property": "C91",
   "status": "proved",
   "theorems": [
    "C91_apart",
    "C91_one",
    "C91_own",
    "C91_again",
    "C91_read",
    "C91_refuted",
    "C91_returned"
   ],
   "note": "the stronger form (records read back as given also when objects are shared) is refuted by C91_refuted"
  },
  {
   "property": "C92",
   "status": "proved",
   "theorems": [
    "C92_normal",
    "C92_accepted",
    "C92_sdarn",
    "C92_refuted"
   ],
   "note": "C92_refuted shows that the conditions are needed"
  },
  {
   "property": "C93",
   "status": "proved",
   "theorems": [
    "C93_checks",
    "C93_fault",
    "C93_records",
    "C93_source",
    "C93_file_fault",
    "C93_file"
   ],
   "note": "times of 2^55 s and more in size, and version parts that mix digits and other characters, are outside `says`"
  },
  {
   "property": "C94",
   "status": "proved",
   "theorems": [
    "C94_records_total",
    "C94_records",
    "C94_records_one",
    "C94_arrays_total",
    "C94_arrays"
   ],
   "note": "group names are plain (no paths); np.str_ scalars and empty texts are outside the model"
  },
  {
   "property": "C95",
   "status": "proved",
   "theorems": [
    "C95_arrays",
    "C95_records",
    "C95_none",
    "C95_reader",
    "C95_hash_named"
   ],
   "note": "OutOfModel marks numpy calls on data that are not modelled (for example a data_dimensions field that is not a vector); everything else is Ok or BorealisRestructureError"
  },
  {
   "property": "C96",
   "status": "proved",
   "theorems": [
    "C96_dmap",
    "C96_borealis",
    "C96_fields",
    "C96_superdarn_told",
    "C96_bad_records_told",
    "C96_missing_reported",
    "C96_type_error_silent",
    "C96_char_tuple",
    "C96_every_name_refuted",
    "C96_record_told_refuted",
    "C96_warnings"
   ],
   "note": "which characters beyond ASCII Python prints unescaped is a parameter; sets are shown in the order of the list; the log is not modelled"
  },
  {
   "property": "C97",
   "status": "proved",
   "theorems": [
    "C97_missing",
    "C97_extra",
    "C97_two",
    "C97_record_types",
    "C97_array_types",
    "C97_array_types_once",
    "C97_counts",
    "C97_no_field_refuted"
   ],
   "note": "lists stand for sets and for the keys of the dictionaries"
  },
  {
   "property": "C98",
   "status": "proved",
   "theorems": [
    "C98_literals",
    "C98_literal_once",
    "C98_shown",
    "C98_dmap",
    "C98_superdarn",
    "C98_borealis_fields",
    "C98_bad_records",
    "C98_borealis",
    "C98_warnings",
    "C98_formats_once"
   ],
   "note": "the order in which a set is shown is a parameter, as is which characters beyond ASCII are printable"
  },
  {
   "property": "C99",
   "status": "proved",
   "theorems": [
    "C99_there_and_back",
    "C99_again",
    "C99_refused",
    "C99_plain_given"
   ],
   "note": "lists of integers only; lists with an integer from 2^63 to 2^64 - 1 and none beyond are not modelled"
  },
  {
   "property": "C100",
   "status": "proved",
   "theorems": [
    "C100_number",
    "C100_char",
    "C100_text",
    "C100_text_over",
    "C100_beyond",
    "C100_array"
   ],
   "note": "the file of C100_case is an example of the whole reader; the theorems are about single calls"
  },
  {
   "property": "C101",
   "status": "proved",
   "theorems": [
    "C101_exact",
    "C101_once",
    "C101_tame"
   ],
   "note": "C101_case derives the file of C100_case, whose bytes are used twice, by the rules of the specification alone"
  },
  {
   "property": "C102",
   "status": "proved",
   "theorems": [
    "C102_errors",
    "C102_dicts",
    "C102_either",
    "C102_elements",
    "C102_tame"
   ],
   "note": "C102_case derives the struct.error of a concrete file by the rules of the specification alone"
  },
  {
   "property": "C103",
   "status": "proved",
   "theorems": [
    "C103_read",
    "C103_darn",
    "C103_chain",
    "C103_stop",
    "C103_past"
   ],
   "note": "objects whose cursor a fault has left at a negative place are not covered"
  },
  {
   "property": "C104",
   "status": "proved",
   "theorems": [
    "C104_texts",
    "C104_errors",
    "C104_values",
    "C104_dimensions",
    "C104_shape"
   ],
   "note": "no code of the library calls this method"
  },
  {
   "property": "C105",
   "status": "proved",
   "theorems": [
    "C105_boundary",
    "C105_detected",
    "C105_same",
    "C105_kept",
    "C105_refuted"
   ],
   "note": "C105_refuted: C08 without its hypothesis on slist is false"
  },
  {
   "property": "C106",
   "status": "proved",
   "theorems": [
    "C106_concat",
    "C106_remainder",
    "C106_back_refuted",
    "C106_rest_refuted"
   ],
   "note": "extends C09; the refuted theorems show that neither condition can be left out"
  },
  {
   "property": "C107",
   "status": "proved",
   "theorems": [
    "C107_groups",
    "C107_loose",
    "C107_rows",
    "C107_one_format",
    "C107_grid_map",
    "C107_one_type",
    "C107_files",
    "C107_refuted"
   ],
   "note": "C107_refuted: without a main field a record can be acceptable as Grid and as Map"
  },
  {
   "property": "C108",
   "status": "proved",
   "theorems": [
    "C108_name",
    "C108_near",
    "C108_order",
    "C108_apart",
    "C108_text",
    "C108_site",
    "C108_file",
    "C108_same_refuted",
    "C108_whole_refuted",
    "C108_text_refuted",
    "C108_before",
    "C108_before_refuted",
    "C108_read",
    "C108_read_refuted",
    "C108_none",
    "C108_none_site",
    "C108_none_file"
   ],
   "note": "C108_whole_refuted: 0.9999997 s and 1.001 s have the same name; C108_text_refuted: 999999999 s and 1000000001 s; C108_before_refuted: 0.0009 s before and after 1970; C108_read_refuted: a site file of records at 999999999 s and 1000000001 s; C108_none leaves out finite times from 2^55 s on"
  },
  {
   "property": "C109",
   "status": "proved",
   "theorems": [
    "C109_site",
    "C109_arrays",
    "C109_structure",
    "C109_iq",
    "C109_site_file",
    "C109_array_file",
    "C109_structure_file",
    "C109_iq_site_file",
    "C109_iq_array_file",
    "C109_refuted",
    "C109_wrong_bfiq",
    "C109_wrong_antennas",
    "C109_wrong_bfiq_array",
    "C109_records_refuted"
   ],
   "note": "C109_refuted: a file of version 0.7 written as antennas_iq is read as bfiq; C109_records_refuted: records of a bfiq array file read as antennas_iq have 12 samples and data_dimensions 2, 1, 2"
  }
 ]
}
