{"id": "C01", "title": "DMAP write-then-read returns the same records", "statement": "For every list of DMAP records that is representable in the format (each record has at least one scalar and one array, scalars come before arrays, names and strings are ASCII without NUL, integers fit their declared type, chars are 0..127, array shape matches its data and every size is at least 1 and below the block size), DmapWrite.write_dmap_stream succeeds and DmapRead on those bytes returns exactly the same records: same fields in the same order, same type codes, shapes and values.", "quantifier": "all lists of representable records: any number of records and fields, any names, any values, any array rank and shape", "why_tests_cant": "Tests round-trip a few sample files; the claim is about every record, including every boundary value, rank and shape, and interactions between adjacent fields.", "anchors": ["pydarnio/dmap/dmap.py: DmapWrite.write_dmap_stream, _dmap_record_to_bytes, dmap_scalar_to_bytes, dmap_array_to_bytes", "pydarnio/dmap/dmap.py: DmapRead.read_records, read_record, read_scalar, read_array, read_data, read_numerical_array"]}
{"id": "C02", "title": "DMAP read-then-write reproduces the file byte for byte", "statement": "If DmapRead accepts a byte string whose blocks carry the encoding identifier 65537, have no field name twice in one block, ASCII text, char scalars below 128, no signalling-NaN float scalar and no negative or zero array size, then writing the returned records with a fresh DmapWrite yields exactly the input bytes.", "quantifier": "all byte strings accepted by the reader that satisfy the listed conditions", "why_tests_cant": "Needs every accepted byte string; the reader may ignore or normalise bytes in ways no sample file exercises.", "anchors": ["pydarnio/dmap/dmap.py: DmapRead.read_records", "pydarnio/dmap/dmap.py: DmapWrite.dmap_records_to_bytes"]}
{"id": "C03", "title": "The DMAP reader is total with a known set of failures", "statement": "For every byte string, constructing DmapRead and calling read_records terminates and either returns records or raises one of: EmptyFileError, CursorError, ZeroByteError, NegativeByteError, MismatchByteError, DmapDataTypeError, DmapDataError, or one of the built-in exceptions IndexError, UnicodeDecodeError, ValueError, OverflowError, struct.error. The built-in ones do occur (they are not DMAP exceptions), the last two only after an array called slist with a negative size.", "quantifier": "all byte strings", "why_tests_cant": "A fuzzer samples inputs; termination and the exception set are claims about all of them.", "anchors": ["pydarnio/dmap/dmap.py: DmapRead.__init__, read_records, read_record, read_data, read_numerical_array", "pydarnio/exceptions/dmap_exceptions.py"]}
{"id": "C04", "title": "Accepted DMAP input is exactly a sequence of well-formed blocks", "statement": "If DmapRead accepts a byte string (and no slist array in it has a negative size), the byte string is the concatenation of blocks, one per returned record, each being: 4 ignored bytes, a positive 32-bit size equal to the length of the block, positive scalar and array counts, then exactly that many scalar encodings followed by exactly that many array encodings, with the returned fields; no byte is skipped, read twice or left over, and no field extends past its own block.", "quantifier": "all byte strings accepted by the reader", "why_tests_cant": "Acceptance of malformed input is a statement about an infinite set of malformed inputs.", "anchors": ["pydarnio/dmap/dmap.py: DmapRead.read_record, read_scalar, read_array, read_numerical_array"]}
{"id": "C05", "title": "Every well-formed DMAP byte string is accepted", "statement": "Conversely, every non-empty concatenation of blocks in the DMAP wire format (at least one scalar and one array per block, numeric arrays of rank at most 32 with sizes at least 1 and smaller than the block, valid UTF-8 text) is accepted by DmapRead and yields exactly the fields that were encoded, whatever the encoding identifier.", "quantifier": "all byte strings generated by the wire grammar", "why_tests_cant": "Tests cover a handful of radar files; false rejections can hide in any combination of sizes and offsets.", "anchors": ["pydarnio/dmap/dmap.py: DmapRead.read_records, bytes_check, zero_negative_check"]}
{"id": "C06", "title": "The integrity check accepts exactly the files whose block sizes tile the file", "statement": "On a fresh reader, test_initial_data_integrity succeeds if and only if walking the file by the 32-bit sizes stored 4 bytes into each block visits positive sizes that add up exactly to the file length; it never reaches its final 'total block size' error, and on success leaves the cursor at 0 so a following read_records behaves as if it had not been called.", "quantifier": "all non-empty byte strings", "why_tests_cant": "The final error branch contains a reference to a non-existing attribute; only a proof shows it can never be executed.", "anchors": ["pydarnio/dmap/dmap.py: DmapRead.test_initial_data_integrity"]}
{"id": "C07", "title": "A successful read implies a successful integrity check", "statement": "If read_records succeeds on a byte string then test_initial_data_integrity on the same bytes succeeds, and the number of returned records equals the number of blocks the integrity check walks over.", "quantifier": "all byte strings accepted by the reader", "why_tests_cant": "Relates two independent traversals on every input.", "anchors": ["pydarnio/dmap/dmap.py: DmapRead.test_initial_data_integrity, read_records"]}
{"id": "C08", "title": "Truncation is always detected unless it falls on a record boundary", "statement": "If a byte string is accepted (no negative slist size) with records r1..rn, and a non-empty proper prefix of it is also accepted, then the prefix ends exactly at the end of some block k and yields exactly r1..rk; every other truncation point makes the reader raise.", "quantifier": "all accepted byte strings and all truncation points", "why_tests_cant": "Tests can truncate one file at some places; the claim quantifies over every file and every offset.", "anchors": ["pydarnio/dmap/dmap.py: DmapRead.read_records, read_record"]}
{"id": "C09", "title": "Concatenating files concatenates records; reading is compositional", "statement": "If byte strings A and B are both accepted (no negative slist size) then A followed by B is accepted and yields the records of A followed by the records of B; conversely if A and A followed by B are accepted and B is non-empty, then B is accepted and supplies the remaining records (so trailing garbage after a valid file is never silently ignored).", "quantifier": "all pairs of byte strings", "why_tests_cant": "Compositionality over all pairs, with absolute offsets changing in the second half.", "anchors": ["pydarnio/dmap/dmap.py: DmapRead.read_records"]}
{"id": "C10", "title": "Reading twice gives the same records", "statement": "Calling read_records again on the same reader after a success returns the same records again (no duplicates, nothing lost), and the result does not depend on whether the bytes came from a file or a stream.", "quantifier": "all byte strings, all numbers of repeated calls", "why_tests_cant": "Behaviour over all histories of calls.", "anchors": ["pydarnio/dmap/dmap.py: DmapRead.read_records, __init__"]}
{"id": "C11", "title": "Every block written carries a correct header", "statement": "For every record the writer converts without raising, the bytes appended are a block whose first four 32-bit words are 65537, the exact total length of the block, the number of scalars and the number of arrays in the record; hence the integrity check accepts every file produced by the DMAP writer, even when read_records would reject it.", "quantifier": "all records the writer accepts, including ones that cannot be read back", "why_tests_cant": "Header correctness must hold for every record content.", "anchors": ["pydarnio/dmap/dmap.py: DmapWrite._dmap_record_to_bytes"]}
{"id": "C12", "title": "Multi-dimensional arrays keep their element order", "statement": "For every array of any rank, the writer emits the sizes in reverse order followed by the elements in row-major order, and the reader restores the original shape, so that the element at any index tuple is the same before and after; the element with index (i1..ik) sits at byte offset ((i1*s2+i2)*s3+...+ik)*itemsize of the data section.", "quantifier": "all ranks, shapes and index tuples", "why_tests_cant": "Index arithmetic over all ranks; a transposition bug is invisible on square or one-dimensional samples.", "anchors": ["pydarnio/dmap/dmap.py: DmapWrite.dmap_array_to_bytes", "pydarnio/dmap/dmap.py: DmapRead.read_array, read_numerical_array"]}
{"id": "C13", "title": "Repeated field names in a block: the last value wins in the first position", "statement": "When a block contains the same field name more than once (scalar or array), the returned record contains that name once, at the position of its first occurrence, with the value of its last occurrence; all other fields are unaffected.", "quantifier": "all blocks with arbitrary repetitions", "why_tests_cant": "All patterns of repetition.", "anchors": ["pydarnio/dmap/dmap.py: DmapRead.read_record"]}
{"id": "C14", "title": "Records without scalars or without arrays are written but can never be read back", "statement": "For every record that has no array field (or no scalar field) the DMAP writer produces a block without complaint, yet any file starting with that block is rejected by read_records with ZeroByteError.", "quantifier": "all records lacking scalars or lacking arrays, followed by any bytes", "why_tests_cant": "Universal negative result about all such records.", "anchors": ["pydarnio/dmap/dmap.py: DmapWrite._dmap_record_to_bytes", "pydarnio/dmap/dmap.py: DmapRead.read_record, zero_negative_check"]}
{"id": "C15", "title": "Char scalars survive exactly when they are 0..127", "statement": "Writing a char scalar with a value 0..127 emits exactly that one byte; a value from 128 to 1114111 that is not a surrogate emits its UTF-8 encoding of two to four bytes, which shifts everything after it, so a record with such a char (and otherwise ASCII text) is never read back as written; values -2^31..-1 and 1114112..2^31-1 raise ValueError, values outside 32 bits OverflowError, surrogates UnicodeEncodeError. Therefore int8 values below 0, which the reader's dictionary output produces for bytes 128..255, can never be written back.", "quantifier": "all integer char values", "why_tests_cant": "All values of the type and their effect on the following bytes.", "anchors": ["pydarnio/dmap/dmap.py: DmapWrite.dmap_scalar_to_bytes", "pydarnio/utils/conversions.py: DMAP_CASTING_TYPES, dmap2dict"]}
{"id": "C16", "title": "Non-ASCII names or strings always lose their terminator", "statement": "For every field name or string value containing a non-ASCII character, the bytes written are a prefix of its UTF-8 encoding, one byte longer than its number of characters, without the terminating NUL; a printable name followed by its type code is therefore never read as itself, and a record with such a text and no char scalar above 127 is never read back as written. For ASCII text without NUL the bytes are the text followed by one NUL.", "quantifier": "all Unicode strings", "why_tests_cant": "All strings; tests use ASCII only.", "anchors": ["pydarnio/dmap/dmap.py: DmapWrite.dmap_scalar_to_bytes, dmap_array_to_bytes"]}
{"id": "C17", "title": "A writer object accumulates: writing twice duplicates, and flips multi-dimensional shapes", "statement": "On one DmapWrite/SDarnWrite object, each further successful write call emits everything written before followed by all records again; the k-th copy of an array of rank 2 or more carries its sizes in original order instead of reversed order for even k, so a second write is only faithful (up to duplication) when every array is one-dimensional or has a palindromic shape.", "quantifier": "all record lists and all numbers of write calls", "why_tests_cant": "Behaviour over all histories of calls on one object.", "anchors": ["pydarnio/dmap/dmap.py: DmapWrite.write_dmap, write_dmap_stream, dmap_array_to_bytes", "pydarnio/dmap/superdarn.py: SDarnWrite.superDARN_file_structure_to_bytes"]}
{"id": "C18", "title": "A failed write never creates or alters a file", "statement": "If write_dmap or any write_<type> raises (missing filename, empty records, field errors, value errors), no file has been created, truncated or changed; if it returns, exactly the requested file was changed and its content is the byte stream of the writer.", "quantifier": "all record lists, filenames and prior file-system contents", "why_tests_cant": "All failure points in the middle of a conversion.", "anchors": ["pydarnio/dmap/dmap.py: DmapWrite.write_dmap, _filename_check", "pydarnio/dmap/superdarn.py: SDarnWrite.write_iqdat, write_rawacf, write_fitacf, write_snd, write_grid, write_map"]}
{"id": "C19", "title": "The filename used is the last non-empty one given", "statement": "A write call uses its own filename argument if it is non-empty, otherwise the most recent non-empty filename given to the object (constructor or an earlier call); if there never was one it raises FilenameRequiredError.", "quantifier": "all sequences of constructor and write calls", "why_tests_cant": "All histories.", "anchors": ["pydarnio/dmap/dmap.py: DmapWrite._filename_check"]}
{"id": "C20", "title": "Only scalars-before-arrays order is preserved by a round trip", "statement": "The writer emits fields in dictionary order, while the reader expects all scalars first: for records whose fields are in scalars-first order the round trip is exact, and there are records with an array before a scalar that the writer accepts and the reader rejects.", "quantifier": "all interleavings of scalar and array fields", "why_tests_cant": "Needs every interleaving and arbitrary content.", "anchors": ["pydarnio/dmap/dmap.py: DmapWrite._dmap_record_to_bytes", "pydarnio/dmap/dmap.py: DmapRead.read_record"]}
{"id": "C21", "title": "Integer scalars are range-checked, never wrapped", "statement": "For every integer format and every integer value, writing a scalar succeeds if and only if the value lies in the range of the format, and then the bytes are its little-endian two's complement representation; out-of-range values raise struct.error and are never silently wrapped.", "quantifier": "all integers and all integer formats", "why_tests_cant": "Unbounded integers.", "anchors": ["pydarnio/dmap/dmap.py: DmapWrite.dmap_scalar_to_bytes", "pydarnio/dmap/dmap.py: DmapRead.read_data"]}
{"id": "C22", "title": "32-bit float scalars are preserved bit for bit (except signalling NaNs)", "statement": "Every 32-bit float scalar read from a file, returned to the user as a double, and written again, has the same 32 bits, for all finite values, zeros, infinities, subnormals and quiet NaNs; signalling NaNs are quieted.", "quantifier": "all 2^32 bit patterns", "why_tests_cant": "2^32 patterns through two rounding conversions.", "anchors": ["pydarnio/dmap/dmap.py: DmapRead.read_data", "pydarnio/dmap/dmap.py: DmapWrite.dmap_scalar_to_bytes"]}
{"id": "C23", "title": "dmap2dict followed by dict2dmap preserves fields, types and shapes", "statement": "For every record returned by the reader, converting it to plain values (dmap2dict) and back (dict2dmap) gives the same field names in the same order with the same type codes, kinds and shapes; values are equal too except char scalars of 128..255, which come back negative. The only failure is an array of format 'q' or 'Q': numpy reads it as longlong/ulonglong, which dict2dmap does not know, so it raises KeyError. Integers out of range of their format (which only hand-made DMAP structures hold) are wrapped by dmap2dict modulo the range of the numpy type, unless they are Python ints beyond a C long (an unsigned long for 'I' and 'Q'), which is an OverflowError; an 'i' is kept, whatever its size. A Python int in a float or double field becomes the nearest double, or an OverflowError if it is beyond the largest.", "quantifier": "all records a reader can return", "why_tests_cant": "All values and types.", "anchors": ["pydarnio/utils/conversions.py: dict2dmap, dmap2dict, FORMAT_CONVERSION, DMAP_FORMAT_TYPES, DMAP_CASTING_TYPES"]}
{"id": "C24", "title": "Plain-dictionary detection looks only at the first value of the first record", "statement": "DmapWrite treats its input as plain dictionaries exactly when the first record has a first value that is not a DmapScalar/DmapArray; in particular a list whose first record is empty is never converted (and a later plain value then raises DmapTypeError), and a list whose first value is already DMAP is passed through untouched.", "quantifier": "all record lists, mixed or not", "why_tests_cant": "All mixtures of converted and unconverted values.", "anchors": ["pydarnio/dmap/dmap.py: DmapWrite.__check_dmap_dict", "pydarnio/utils/conversions.py: dict2dmap"]}
{"id": "C25", "title": "Native arrays written through the dictionary interface keep their values; big-endian arrays are corrupted", "statement": "For every list of plain dictionaries whose values have supported Python/numpy types and are representable (Python floats exactly representable in 32 bits, since they are written as float), the written bytes decode to the same values when every array is in native (little-endian) byte order; for a big-endian numpy array the written bytes are those of the byte-swapped values although the type code is the same.", "quantifier": "all arrays of all supported dtypes and byte orders", "why_tests_cant": "All element values.", "anchors": ["pydarnio/utils/conversions.py: dict2dmap", "pydarnio/dmap/dmap.py: DmapWrite.dmap_array_to_bytes"]}
{"id": "C26", "title": "Empty input is rejected on both sides", "statement": "DmapRead/SDarnRead on zero bytes raises EmptyFileError; DmapWrite with no records raises DmapDataError on every write (FilenameRequiredError if no filename was ever given) and SDarnWrite raises it at construction; a successful write therefore never produces an empty file and a successful read never returns zero records.", "quantifier": "all call sequences starting from empty inputs", "why_tests_cant": "All histories.", "anchors": ["pydarnio/dmap/dmap.py: DmapRead.__init__, DmapWrite._empty_record_check", "pydarnio/dmap/superdarn.py: SDarnWrite.__init__"]}
{"id": "C27", "title": "SuperDARN record acceptance is exactly: no unknown field, right types, groups complete or absent", "statement": "For each SuperDARN type, a record passes the field checks if and only if (a) every field name belongs to one of the type's field groups, (b) its format equals the declared one, and (c) each group that is not optional is either completely present or completely absent. The error raised otherwise depends on which of these fails first (read: missing, extra, type; write: extra, missing, type).", "quantifier": "all records (any set of names, any formats) and all six file types", "why_tests_cant": "Subsets of ~100 names times formats cannot be enumerated.", "anchors": ["pydarnio/dmap/superdarn.py: SDarnUtilities.missing_field_check, extra_field_check, incorrect_types_check", "pydarnio/dmap/superdarn_formats.py"]}
{"id": "C28", "title": "What read_<type> accepts, write_<type> accepts, and vice versa", "statement": "For every SuperDARN type, a record passes the checks of read_<type> if and only if it passes the checks of write_<type>, even though the group lists and check orders differ in the two functions.", "quantifier": "all records, all six types", "why_tests_cant": "All subsets of fields.", "anchors": ["pydarnio/dmap/superdarn.py: SDarnRead.read_iqdat..read_map, SDarnWrite.write_iqdat..write_map"]}
{"id": "C29", "title": "SuperDARN write-then-read round trip", "statement": "For every SuperDARN type and every non-empty list of representable records that satisfy the type's field rules, write_<type> succeeds and read_<type> on the result returns the same records.", "quantifier": "all representable record lists, all six types", "why_tests_cant": "Infinite input space.", "anchors": ["pydarnio/dmap/superdarn.py: SDarnWrite.write_*, SDarnRead.read_*"]}
{"id": "C30", "title": "A record may lack every mandatory field and still be accepted", "statement": "The field checks never reject a record for lacking a whole group: for every type but iqdat (which has one group only) there are files read without error whose records contain none of the fields of the main 'types' group; adding completely a group that is wholly absent, or removing a whole present group, never changes the verdict of the checks.", "quantifier": "all records and groups", "why_tests_cant": "Invariance over all records.", "anchors": ["pydarnio/dmap/superdarn.py: SDarnUtilities.missing_field_check"]}
{"id": "C31", "title": "Reading errors name the first bad record, and earlier records were all good", "statement": "If read_<type> on a fresh reader raises a SuperDARN field error, the record number in the error is the zero-based index of the first record in the file that violates the rules, and all earlier ones satisfy them, even if the rest of the file is not readable; write_<type> likewise, and it does raise such an error when a record violates the rules and those before it can be written.", "quantifier": "all files and all positions of bad records", "why_tests_cant": "All positions and combinations.", "anchors": ["pydarnio/dmap/superdarn.py: SDarnRead._read_darn_records, SDarnWrite.superDARN_file_structure_to_bytes"]}
{"id": "C32", "title": "Retrying after a field error silently skips the bad record", "statement": "If read_<type> raises a field error on record k of a file and the same call is repeated on the same reader, the second call continues after record k; with m bad records the first m calls raise and the next one returns all good records without a hint that others were skipped. Record numbers in later errors count from the record after the previous bad one.", "quantifier": "all files with a record failing the field checks", "why_tests_cant": "Behaviour over call histories.", "anchors": ["pydarnio/dmap/superdarn.py: SDarnRead._read_darn_record, _read_darn_records"]}
{"id": "C33", "title": "A second read_<type> call on an exhausted reader performs no checks", "statement": "After any successful read on an SDarnRead object, calling read_<other type> returns the same records without error, whatever the other type is.", "quantifier": "all files, all pairs of types", "why_tests_cant": "All histories.", "anchors": ["pydarnio/dmap/superdarn.py: SDarnRead._read_darn_records"]}
{"id": "C34", "title": "Field checks do not see whether a field is a scalar or an array", "statement": "The SuperDARN field checks depend only on field names and formats: replacing any scalar by an array of the same format (or changing shapes and values) never changes the verdict.", "quantifier": "all records", "why_tests_cant": "Invariance over all records.", "anchors": ["pydarnio/dmap/superdarn.py: SDarnUtilities.incorrect_types_check"]}
{"id": "C35", "title": "SuperDARN format tables are consistent", "statement": "In every SuperDARN type the field groups are pairwise disjoint, no group lists a name twice, and all formats are legal DMAP formats with a unique type code; hence the outcome of the checks (up to the order of the names listed in a missing-field error) does not depend on the order of the groups.", "quantifier": "all groups of all six types and all permutations of the group lists", "why_tests_cant": "Order independence is over all records and permutations.", "anchors": ["pydarnio/dmap/superdarn_formats.py: Rawacf, Fitacf, Grid, Map, Iqdat, Snd", "pydarnio/utils/conversions.py: DMAP_FORMAT_TYPES"]}
{"id": "C36", "title": "Borealis site records are accepted exactly when every record has exactly the right fields and types", "statement": "For every version and every file type but rawrf, check_records accepts a dictionary of records if and only if each record has exactly the fields of the catalogue for site files and each value has the declared type (attributes: that exact Python or numpy type, or an h5py.Empty; datasets: that dtype). Otherwise it raises BorealisBadRecordsError whose three lists name exactly the records with missing, else extra, else mistyped fields and those fields; or, at the first record that has none of the fields, BorealisStructureError; or, at the first record with all fields and a value that has no dtype, AttributeError.", "quantifier": "all dictionaries of records for all format versions", "why_tests_cant": "Infinite space of records and mixtures of good and bad ones.", "anchors": ["pydarnio/borealis/borealis_utilities.py: check_records, missing_field_check, extra_field_check, record_incorrect_types_check"]}
{"id": "C37", "title": "Borealis arrays are accepted exactly when fields, types and record counts agree", "statement": "For every version and every file type but rawrf, check_arrays accepts an array dictionary if and only if it has exactly the fields of the catalogue for array files, attributes have the declared type (or are h5py.Empty), datasets are arrays of the declared type or of np.str_ (and a pulse_phase_offset of shape (2,) and dtype int64 passes), and all fields that vary from record to record have the same first dimension; each way to fail has its own exception, in a fixed order.", "quantifier": "all array dictionaries for all format versions", "why_tests_cant": "Infinite space.", "anchors": ["pydarnio/borealis/borealis_utilities.py: check_arrays, array_num_records_check, array_incorrect_types_check"]}
{"id": "C38", "title": "Borealis format tables agree with one catalogue of fields", "statement": "For every Borealis version and every file type but rawrf, the tables built up class by class are those of a catalogue in which each field has one kind (single or array), one type and one role; shared, unshared, array-specific and site-specific fields are the fields of the respective roles, so they are disjoint, with the one exception that pulse_phase_offset is both shared and unshared from version 0.6 on (bfiq, antennas_iq); together they are all fields of the site and array files; the dimension tables of both structures have the same fields.", "quantifier": "all versions and file types in the version table", "why_tests_cant": "A table error only shows for the version affected; restructuring correctness for all inputs rests on it.", "anchors": ["pydarnio/borealis/borealis_formats.py: BorealisFields*, borealis_version_dict", "pydarnio/borealis/base_format.py: shared_fields, unshared_fields, array_specific_fields, site_specific_fields"]}
{"id": "C39", "title": "Borealis version and structure detection", "statement": "The version of a hash is the part before its first '-', cut before its second '.'; every hash has exactly one version and patch releases have that of their minor release. Both readers and BorealisRestructure use the version of the hash (of the root for arrays, of the first group by name for site files); if there is no format for it both readers raise BorealisVersionError whatever else the file holds. A file counts as 'array' exactly when borealis_git_hash is the name of an attribute or of a member of its root, not only an attribute.", "quantifier": "all hash strings and all files", "why_tests_cant": "All strings.", "anchors": ["pydarnio/borealis/borealis_utilities.py: get_borealis_version, get_borealis_structure", "pydarnio/borealis/borealis_site.py: BorealisSiteRead.__init__", "pydarnio/borealis/borealis_array.py: BorealisArrayRead.__init__"]}
{"id": "C40", "title": "Site to array to site returns the original records", "statement": "For every non-empty dictionary of antennas_iq, bfiq or rawacf site records (every version) with distinct keys that are the names of their first timestamps, holding the fields of the format with consistent dimensions, whose shared fields agree, converting to arrays and back gives the same keys and the same value in every field, however the numbers of sequences, beams and blanked samples vary; only the names of the dimensions come back in a standard form. Two more conditions are needed and are shown to be: either no record has blanked samples or all have some, and the pulse phase offsets have a first dimension the slicing respects (one per sequence, or a number of pulses P with P <= sequences <= records*P).", "quantifier": "all numbers of records, all varying dimensions and contents", "why_tests_cant": "Padding and slicing over all combinations of maximal and actual dimensions.", "anchors": ["pydarnio/borealis/base_format.py: _site_to_array, _array_to_site"]}
{"id": "C41", "title": "Array dimensions are the maxima and unused cells hold the fill value", "statement": "The arrays made from consistent records hold each shared field once, and for an unshared field an array whose first dimension is the number of records and whose further dimensions are the maxima over the records; every record's data occupies the leading corner of its row, and every other cell holds the fill value (NaN for floating types, -1 for int64, 0 for unsigned integers, True for bool, 'nan' for text); the numbers of sequences, beams and blanked samples are given per record.", "quantifier": "all records with varying dimensions", "why_tests_cant": "All combinations.", "anchors": ["pydarnio/borealis/base_format.py: _site_to_array, find_max_sequences, find_max_beams"]}
{"id": "C42", "title": "Array to site: records with the same millisecond timestamp are silently merged", "statement": "Converting arrays to site records names each record by its first sequence timestamp; between November 2004 and January 2038 the name is the timestamp rounded to microseconds and then down to milliseconds (outside it can be a millisecond less). If records get the same name only the last survives, so the names returned are the distinct names, in the order of their first occurrences; two such records collide exactly if they start in the same millisecond.", "quantifier": "all timestamp sequences", "why_tests_cant": "All collisions.", "anchors": ["pydarnio/borealis/base_format.py: _array_to_site"]}
{"id": "C43", "title": "Restructuring to the structure a file already has writes nothing", "statement": "BorealisRestructure raises BorealisFileTypeError for every type but bfiq, antennas_iq and rawacf, BorealisStructureError for every structure but site and array, and ConvertFileOverWriteError for equal names, before looking at the input. When the input already has the requested structure the call returns normally and no file is written (the documentation promises an output file). An unsupported version is a KeyError. Whatever happens, no file but the output file changes; the input file never does.", "quantifier": "all files, file systems and arguments", "why_tests_cant": "All argument combinations and file contents.", "anchors": ["pydarnio/borealis/borealis_restructure.py: BorealisRestructure.__init__, restructure"]}
{"id": "C44", "title": "Conversion is refused unless the blanked samples are those of the pulses", "statement": "For records with 32-bit pulses, spacings and blanked samples, a positive pulse length and a version text that either does not start with v or is v<major>.<rest> with the dot before the first dash: the file is convertible to rawacf exactly when in every record the blanked samples are the pulse positions (pulse times tau spacing divided by pulse length, in 32-bit arithmetic) in pulse order, or these positions together with each position plus one, sorted; for iqdat, given one phase offset per pulse, additionally all phase offsets must be zero. Otherwise the conversion ends in BorealisConvert2RawacfError/BorealisConvert2IqdatError. The version plays no role: the branch for major revision 0 minor up to 5 is never taken. Other version texts (IndexError), a pulse length of 0 (OverflowError or ValueError) and two-dimensional phase offsets (ValueError, even if all zero) escape as other exceptions.", "quantifier": "all pulse tables, spacings, blanked-sample lists and version strings", "why_tests_cant": "All integer lists and strings.", "anchors": ["pydarnio/borealis/borealis_convert.py: _is_convertible_to_rawacf, _is_convertible_to_iqdat"]}
{"id": "C45", "title": "bfiq conversion: one record per beam, samples interleaved and clipped", "statement": "Converting bfiq records of na arrays, ns sequences, nb beams and n samples yields for each record one iqdat record per beam, in order, with the beam number (as int16); its data array holds, for every sequence, antenna array and sample, the real then imaginary part of that sample of that beam, scaled, cut off towards zero and limited to the int16 range (infinities become the limits, NaN 0), in sequence-major order; when the fields num_sequences, antenna_arrays_order and num_samps agree with the data and there are fewer than 2^31 values, toff/tsze partition it into equal consecutive sequences.", "quantifier": "all data arrays, numbers of sequences, arrays, beams and samples", "why_tests_cant": "Index permutation over all shapes.", "anchors": ["pydarnio/borealis/borealis_convert.py: __convert_bfiq_record"]}
{"id": "C46", "title": "rawacf conversion: lag table and correlations line up", "statement": "Converting rawacf records of nb beams, nr ranges and nl lags yields per record one rawacf record per beam whose acfd and xcfd have shape nr x (nl-1) x 2: the scaled main and cross correlations of that beam with the last (alternate lag-zero) lag dropped, real and imaginary parts in that order; slist is 0..nr-1 (as int16) and pwr0 the power of the scaled lag zero of each range.", "quantifier": "all correlation arrays and shapes", "why_tests_cant": "Index arithmetic over all shapes.", "anchors": ["pydarnio/borealis/borealis_convert.py: __convert_rawacf_record"]}
{"id": "C47", "title": "Converted records satisfy the SuperDARN field rules", "statement": "Every record produced by the Borealis converter has exactly the fields of the iqdat group, or of the rawacf group and its correlation and cross-correlation groups, in their formats, so the field checks of write_iqdat/write_rawacf never reject it.", "quantifier": "all convertible Borealis records", "why_tests_cant": "All inputs.", "anchors": ["pydarnio/borealis/borealis_convert.py: __convert_bfiq_record, __convert_rawacf_record", "pydarnio/dmap/superdarn_formats.py: Iqdat, Rawacf"]}
{"id": "C48", "title": "Converter guards, station ids and what is written", "statement": "BorealisConvert never writes when source and target names are equal (ConvertFileOverWriteError for a readable file of an accepted type) and accepts only bfiq and rawacf (else BorealisConversionTypesError). A failed conversion leaves all files unchanged; a successful one changes only the target file, which then has exactly the bytes of the converted records. The slice id comes from the first record, else from the argument, else BorealisStructureError. Each converted record has the station id of its station code; the 39 codes have distinct ids; a record with a beam and an unknown code is not converted.", "quantifier": "all argument combinations and all station codes", "why_tests_cant": "All combinations.", "anchors": ["pydarnio/borealis/borealis_convert.py: BorealisConvert.__init__, code_to_stid"]}
{"id": "C49", "title": "Untagged Borealis versions cannot be written as SuperDARN files", "statement": "A record whose git hash does not start with v and that has a beam is given the revision np.int8(255) = -1, which the DMAP writer can never write as a char scalar (ValueError), so converting a file with such a record always ends in an exception and writes nothing. (Such a record can only be a later one: a file whose first record has no tagged version is already refused on reading.)", "quantifier": "all records from untagged builds", "why_tests_cant": "All such inputs.", "anchors": ["pydarnio/borealis/borealis_convert.py: borealis_major_revision handling", "pydarnio/dmap/dmap.py: DmapWrite.dmap_scalar_to_bytes"]}
{"id": "C50", "title": "BorealisRead without a structure falls back from array to site exactly on structure errors", "statement": "Without a structure the reader's outcome is that of the array reader, but if this raised BorealisExtraFieldError, BorealisFieldMissingError or BorealisStructureError it is that of the site reader. No file can be read in both structures. A file without a root hash is read as a site file; a site file that also has a root hash is a TypeError. Records written without a structure are written as a site file; arrays refused for their structure are then tried as records, which replaces the error by BorealisStructureError or TypeError and writes nothing more.", "quantifier": "all files, records and arrays", "why_tests_cant": "All files.", "anchors": ["pydarnio/borealis/borealis.py: BorealisRead.return_reader, BorealisWrite.return_writer"]}
{"id": "C51", "title": "A failed SuperDARN write poisons the writer object", "statement": "When a write_<type> call fails at some record (field error or value error), no file changes, but the bytes of all records before it stay in the writer object, followed by the first header word (65537) if the failing record is of 2 GiB or more: every later successful write of the object begins with these bytes, so the earlier records appear twice.", "quantifier": "all record lists, failure points and later calls", "why_tests_cant": "Behaviour over all histories and failure positions.", "anchors": ["pydarnio/dmap/superdarn.py: SDarnWrite.superDARN_file_structure_to_bytes", "pydarnio/dmap/dmap.py: DmapWrite.dmap_bytearr"]}
{"id": "C52", "title": "Doubles given for 32-bit float scalars are written as the nearest single", "statement": "A finite double given as the value of a float scalar is written as the 32-bit float nearest to it (of two equally near ones the one with even mantissa), keeping its sign; exactly from half a unit in the last place above the largest single on, it is written as infinity.", "quantifier": "all finite doubles (2^64 patterns) against all 2^32 singles", "why_tests_cant": "Rounding is wrong only at ties, subnormals or the overflow threshold; no sample covers 2^64 patterns.", "anchors": ["pydarnio/dmap/dmap.py: DmapWrite.dmap_scalar_to_bytes"]}
{"id": "C53", "title": "Raw RF files never pass the checks", "statement": "For rawrf, no non-empty dictionary of records and no array dictionary passes the field checks, whatever it contains: always BorealisStructureError (version 0.7: AttributeError, from a method that does not exist).", "quantifier": "all record and array dictionaries, all versions", "why_tests_cant": "All contents.", "anchors": ["pydarnio/borealis/borealis_formats.py: BorealisRawrf*", "pydarnio/borealis/borealis_utilities.py: missing_field_check"]}
{"id": "C54", "title": "Restructured data pass the field checks, except bfiq 0.7 records", "statement": "If consistent site records pass the field check, the arrays made from them pass the array check; the records made back from those arrays pass the site check, except for bfiq of version 0.7, where they are always refused because the dimension names come back with a type the format does not list.", "quantifier": "all consistent records, all versions and the three types with both structures", "why_tests_cant": "All records and dimensions.", "anchors": ["pydarnio/borealis/base_format.py: _site_to_array, _array_to_site", "pydarnio/borealis/borealis_formats.py: BorealisBfiqv0_7", "pydarnio/borealis/borealis_utilities.py: check_records, check_arrays"]}
{"id": "C55", "title": "Borealis files keep what is written to them", "statement": "Records that pass the checks, with ASCII texts, known version and plain group names, written by BorealisSiteWrite to a new file, are read back by BorealisSiteRead and by BorealisRead without structure: sorted by name, with exactly the same fields and values, except for phase offsets that are not one per pulse. The same holds for arrays and BorealisArrayWrite, except for phase offsets of shape (2,). No other file changes.", "quantifier": "all checked records and arrays of all versions and types with two structures, all file systems, all available filters", "why_tests_cant": "All dictionaries of records and arrays.", "anchors": ["pydarnio/borealis/base_format.py: read_records, write_records, read_arrays, write_arrays", "pydarnio/borealis/borealis_site.py: BorealisSiteRead, BorealisSiteWrite", "pydarnio/borealis/borealis_array.py: BorealisArrayRead, BorealisArrayWrite"]}
{"id": "C56", "title": "Arrays cannot be written with the default compression", "statement": "BorealisArrayWrite's default compression is a filter named 'zlib'. Where HDF5 offers no filter of that name, writing good arrays without a compression argument always raises ValueError, with or without a given structure, and leaves a file without any dataset behind.", "quantifier": "all good arrays, all file systems", "why_tests_cant": "All arrays; the effect on the file system.", "anchors": ["pydarnio/borealis/borealis_array.py: BorealisArrayWrite.__init__", "pydarnio/borealis/base_format.py: write_arrays", "pydarnio/borealis/borealis.py: BorealisWrite.return_writer"]}
{"id": "C57", "title": "Phase offsets that are not one per pulse are lost on reading a site file", "statement": "If a record's pulse_phase_offset has another shape than its pulses, for example one phase per sequence and pulse, then after writing and reading the site file it is an array of zeros of the shape of pulses. So the statement that site files keep all good records is false.", "quantifier": "all good records", "why_tests_cant": "All shapes and values.", "anchors": ["pydarnio/borealis/borealis_utilities.py: pulse_phase_offset_site_fix", "pydarnio/borealis/borealis_site.py: BorealisSiteRead.read_file"]}
{"id": "C58", "title": "Writing to an existing Borealis file adds to it and never loses data", "statement": "Whatever data are handed to BorealisWrite and however it ends, no file but the named one changes, and no group or dataset that is in the named file is changed or removed; a file that is not HDF5 stays as it is. Acceptable records whose names are new are added after the existing groups and read back with the same fields. If a record name is already a member of the file, the write ends in ValueError (nothing is changed if it is the first name), so the same records cannot be written to the same file twice. Acceptable arrays can be written to a site file without an error; afterwards the file cannot be read without naming the structure (TypeError).", "quantifier": "all file systems, file contents, data, file types, structures and compressions", "why_tests_cant": "the tests delete the file before every write; contents of an existing file and partial failures are not enumerable", "anchors": ["pydarnio/borealis/base_format.py:1362-1433", "pydarnio/borealis/borealis.py:320-365"]}
{"id": "C59", "title": "Which errors files and arguments that cannot be handled give", "statement": "Reading a missing file is FileNotFoundError and a file that is not HDF5 OSError, with every reader and structure. A file without members, or whose first group has no hash, is BorealisStructureError for the site reader, and without a root hash also when no structure is named; restructuring such a file without members leaks IndexError. Unknown file types are BorealisFileTypeError, but AttributeError from BorealisSiteWrite; unknown structures are BorealisStructureError; neither changes a file. Records can be written without a compression argument whatever HDF5 filters exist. With compression a write of records succeeds only if the filter exists and every dataset is an array with at least one dimension. Attributes added by PyTables or deepdish do not affect reading.", "quantifier": "all file systems, file contents, names, types, structures and data", "why_tests_cant": "error cases are tested for a few files only", "anchors": ["pydarnio/borealis/borealis_site.py:112-149", "pydarnio/borealis/borealis_array.py:108-138", "pydarnio/borealis/borealis.py:98-146", "pydarnio/borealis/borealis_utilities.py:568-617", "pydarnio/borealis/base_format.py:1276-1294"]}
{"id": "C60", "title": "Copied, counted and constant fields of converted records", "statement": "In every record that bfiq_to_iqdat or rawacf_to_rawacf makes for a beam: cp, nave, scan, txpl, mpinc and tfreq hold the corresponding Borealis number modulo 2^16; stat.agc and stat.lopwr hold the status words, or 0 when the record has none; channel is the slice, bmnum the beam, mppul the number of pulses and mplgs one less than the number of lags; ptab and ltab have the values (modulo 2^16) and shape of pulses and lags; the fields without a Borealis counterpart have their fixed values. In iqdat seqnum, chnnum, smpnum and nrang are the numbers of sequences, arrays, samples and ranges, tatten is as many zeros as there are sequences, txpow is -1, and xcf says whether 'intf' is among the array names, except that it is 0 when the names are bytes. In rawacf nrang is the first length of acfd and pwr0.", "quantifier": "all records, beams, slices and file names for which the conversion succeeds", "why_tests_cant": "the conversion tests compare key sets of one file each; the values for arbitrary records are not enumerable", "anchors": ["pydarnio/borealis/borealis_convert.py:626-747", "pydarnio/borealis/borealis_convert.py:912-1016"]}
{"id": "C61", "title": "The time of a converted record is its first timestamp in the Gregorian calendar", "statement": "time.yr, time.mo, time.dy, time.hr, time.mt, time.sc and time.us of a converted record are the date and time of day, in the proleptic Gregorian calendar, of a number of microseconds that differs by at most half a microsecond (and 2^-34) from the first timestamp; for timestamps from 2004 to 2038 it is exactly the nearest number of microseconds, ties to even. origin.time is the text for the same time. Every day has exactly one date.", "quantifier": "all records with at least one timestamp, any year the conversion accepts", "why_tests_cant": "leap years, month ends and rounding need all days and all float64 values", "anchors": ["pydarnio/borealis/borealis_convert.py:631-654", "pydarnio/borealis/borealis_convert.py:925-948"]}
{"id": "C62", "title": "Fields of converted records that are computed from floats", "statement": "lagfr is first_range_rtt with the fraction cut off; smsep is the integer part of 10^6 / rx_sample_rate up to the rounding of the quotient to 53 bits; intt.sc is the integration time rounded down and intt.us the microseconds of its fraction, cut off; frang and rsep are the integers nearest to first_range and range_sep, ties to even; noise.search and bmazm are the float32 nearest to the first noise value and to the azimuth of the beam; in iqdat skpnum is the integer part of first_range / range_sep up to the rounding of the quotient to 24 bits, and tnoise holds the nearest float32 of every noise value. All modulo 2^16 where the field is a short.", "quantifier": "all finite float values in the stated ranges", "why_tests_cant": "rounding, cutting and overflow depend on all float values", "anchors": ["pydarnio/borealis/borealis_convert.py:671-707", "pydarnio/borealis/borealis_convert.py:730-743", "pydarnio/borealis/borealis_convert.py:966-1000"]}
{"id": "C63", "title": "tsc and tus of converted iqdat records take the timestamps for milliseconds", "statement": "For every sequence tsc is the integer part of a thousandth of the timestamp and tus the integer part of 1000 times the rest, up to rounding to 53 bits. Since Borealis timestamps are seconds, tsc is not the second of the sequence and tus not its microsecond (a record with timestamp 1558583991.06 gets tsc 1558583 and tus 991059).", "quantifier": "all records; timestamps from 1970 up to 2^40 s", "why_tests_cant": "the tests do not look at tsc and tus; rounding depends on all float values", "anchors": ["pydarnio/borealis/borealis_convert.py:734-740"]}
{"id": "C64", "title": "Texts of converted records", "statement": "origin.command is 'Borealis ', the git hash, a space and the experiment name. combf names the source file, the record, the scaling factor and the number of beams as decimal numerals, and the two comments, in this order. For a hash 'v<major>.<minor>', alone or before a dot or dash, with numbers up to 127, radar.revision.major and .minor are these numbers. A record with a beam that lacks one of the texts hash, experiment name, station, experiment comment and slice comment (for example has an h5py.Empty there) is not converted.", "quantifier": "all texts and numbers", "why_tests_cant": "arbitrary texts and numbers are not enumerable", "anchors": ["pydarnio/borealis/borealis_convert.py:635-637", "pydarnio/borealis/borealis_convert.py:708-718", "pydarnio/borealis/borealis_convert.py:929-931", "pydarnio/borealis/borealis_convert.py:1001-1008"]}
{"id": "C65", "title": "txpow of converted rawacf records says which antennas transmit", "statement": "When a Borealis rawacf record has antenna phases, bit i (i < 16) of txpow is set exactly when antenna i has a phase that is not 0 (a NaN does not count unless the other part is infinite). Without phases txpow is -1.", "quantifier": "all lists of phases", "why_tests_cant": "no test file has antenna phases; all float patterns matter", "anchors": ["pydarnio/borealis/borealis_convert.py:912-922", "pydarnio/borealis/borealis_convert.py:962"]}
{"id": "C66", "title": "Restructuring an array file gives the site file of the records in it", "statement": "BorealisRestructure(in, out, type, 'site') reads an array file one record at a time. For a file laid out as its format says (shared single fields as attributes, the other fields as datasets, texts and only texts with an item size; the names of the dimensions either way), whose counts are not negative, whose phase offsets, if they vary, are at least as many as the sequences of a record and whose records have distinct names, it succeeds, touches no other file, and the new file reads back (by BorealisSiteRead and by BorealisRead without a structure) with the same version and exactly the records that the array reader produces in memory, up to the replacement of phase offsets that do not fit the pulses. Both extra conditions are needed: with fewer phase offsets than sequences the records differ, and with two records in one millisecond restructuring fails and leaves a partial file while the array reader silently keeps one of them.", "quantifier": "all file systems, file names, array files (any number of records, any dimensions), compressions that are available", "why_tests_cant": "the tests restructure a few recorded files with equal dimensions; the two code paths differ only on unusual sizes", "anchors": ["pydarnio/borealis/borealis_restructure.py:190-300", "pydarnio/borealis/base_format.py:1145-1233", "pydarnio/borealis/borealis_formats.py:2102-2108"]}
{"id": "C67", "title": "Restructuring a site file gives the array file of its records", "statement": "BorealisRestructure(in, out, type, 'array') reads a site file one record at a time and fills arrays whose sizes it takes from the HDF5 file. For a file laid out as its format says (single fields as attributes, the others as datasets, texts as byte strings of fixed length) whose records fit together in size, with no record wider in beams than the first and phase offsets that are one for each pulse of each sequence, it succeeds, touches no other file, and the new file reads back (by BorealisArrayRead and by BorealisRead without a structure) with the same version and exactly the arrays that the site reader makes of the records in memory. The extra conditions are needed although reading the file and making the arrays in memory work without them: a later record with more beams ends in a ValueError, and so does a file that BorealisSiteWrite itself wrote with one phase offset for each pulse and several sequences; with a single pulse the phase offsets are lost without an error; a text stored as a string of variable length ends in BorealisRestructureError.", "quantifier": "all file systems, file names, site files (any number of records, any dimensions), compressions that are available", "why_tests_cant": "the tests restructure a few recorded files; the failing combinations of beams, sequences and pulses do not occur in them", "anchors": ["pydarnio/borealis/borealis_restructure.py:302-452", "pydarnio/borealis/base_format.py:553-629", "pydarnio/borealis/borealis_formats.py:738-774", "pydarnio/borealis/borealis_formats.py:1062-1094", "pydarnio/borealis/borealis_formats.py:1369-1403", "pydarnio/borealis/borealis_formats.py:2365-2404"]}
{"id": "C68", "title": "Converted iqdat samples are the scaled samples, up to one unit", "statement": "Converting a bfiq record divides the samples by the normalization factor and multiplies them with 32767 and the scaling factor, in single precision, then cuts them to int16. For a normalization factor from 2^-30 to 2^30 in magnitude, finite samples up to 2^40 times as large and a scaling factor from -32768 to 65535, every int16 in `data` is the exact real value x / norm * 32767 * scaling of its sample, with an error of at most 2^-21 in proportion before the fraction is cut off and the limits of int16 are applied. So it is off by less than 1 + 1/32 where the exact value is at most 32767 in magnitude, it is 32767 from 32768 on and -32768 from -32769 down. The bound on samples is needed: when one part of a sample overflows single precision, the other part of the same sample becomes NaN and is written as 0.", "quantifier": "all bfiq records (any dimensions, all samples and normalization factors in the range), all scaling factors in the range", "why_tests_cant": "rounding happens for every one of 2^64 samples and 2^64 normalization factors; the tests compare only that a file is written", "anchors": ["pydarnio/borealis/borealis_convert.py:565-567", "pydarnio/borealis/borealis_convert.py:594-610"]}
{"id": "C69", "title": "Converted correlations and powers are the scaled ones, up to rounding", "statement": "Converting a rawacf record multiplies the correlations, in single precision, with 32767^2 * scaling / norm^2, which is computed in double precision. For a normalization factor from 2^-30 to 2^30 in magnitude, a scaling factor from -32768 to 65535 other than 0, and finite correlations whose scaled value is at most 2^50, the values of acfd and xcfd are the exact real values x * 32767^2 * scaling / norm^2 with an error of at most 2^-22 in proportion (and 2^-100), and pwr0 is the magnitude of the scaled lag zero: its square is off by at most 2^-20 in proportion. All are finite. The square norm**2 may have a relative error of 2^-52.", "quantifier": "all rawacf records (any dimensions, all correlations and normalization factors in the range), all scaling factors in the range, all square functions with that error", "why_tests_cant": "rounding happens for every one of 2^64 correlations and 2^64 normalization factors; the tests compare only that a file is written", "anchors": ["pydarnio/borealis/borealis_convert.py:824-842", "pydarnio/borealis/borealis_convert.py:866", "pydarnio/borealis/borealis_convert.py:868-890"]}
{"id": "C70", "title": "Converting a file of well-formed records succeeds and the result can be read", "statement": "If a Borealis site or array file can be read as bfiq or rawacf, and each of its records has the fields its format requires with the right types, a version v<major>.<minor> with numbers up to 127, a known station, plain ASCII texts, timestamps between the years 1 and 9999, finite range values, normal blanking, (bfiq) zero phase offsets, (rawacf) at least two lags, and at least one beam, range and sample, then BorealisConvert to another, non-empty file name raises no exception, as long as no converted record takes 2^31 bytes; texts and arrays of up to 2^25 characters or elements, 2^12 beams per record, 2^20 records and a scaling factor of up to 64 bits are always small enough. SDarnRead reads the file it wrote without an exception, as iqdat or rawacf, and the records it shows are the records converted.", "quantifier": "all such files with any number of records, beams, sequences, ranges and lags, all values of samples and correlations (including infinities and NaN), all normalization and scaling factors, all slices", "why_tests_cant": "unboundedly many records, shapes and values; the tests convert a few files of real data", "anchors": ["pydarnio/borealis/borealis_convert.py:160-242", "pydarnio/borealis/borealis_convert.py:299-336", "pydarnio/borealis/borealis_convert.py:338-478", "pydarnio/borealis/borealis_convert.py:480-752", "pydarnio/borealis/borealis_convert.py:754-970", "pydarnio/dmap/superdarn.py:328-448", "pydarnio/dmap/superdarn.py:612-681"]}
{"id": "C71", "title": "Restructuring an array file appends one new group per row of timestamps, or fails", "statement": "Restructuring an array file to site structure leaves the members and attributes of an existing output file as they are and appends groups to it: in order, one for each row of sqn_timestamps, named by the first timestamp of the row in milliseconds; with an exception it stops early, and the groups up to that point stay. All new names differ from each other and from the names the file had. If two rows get the same name (start in the same millisecond), or a row's name is in the output file already, it raises BorealisRestructureError and overwrites nothing, unlike the array reader, which silently merges such records (C42). Without rows no file changes, so no output file is made.", "quantifier": "all array files (any members, data types, shapes), all output files, all compressions, all versions", "why_tests_cant": "unboundedly many timestamps and existing output files; the tests restructure a few files with distinct times into new files", "anchors": ["pydarnio/borealis/borealis_restructure.py:190-300", "pydarnio/borealis/borealis_restructure.py:237-294", "pydarnio/borealis/base_format.py:1362-1397"]}
{"id": "C72", "title": "A site file restructured to an array file and back reads as before", "statement": "If a site file of consistent records (of a supported version, first record with the most beams, phase offsets one per pulse and sequence, groups named by the first timestamps) is restructured to an array file and that array file to a site file, both steps succeed, no other file changes, and the last file reads as the first: same version, same record names in the same order, every field of every record equal, but the field naming the dimensions holds the standard names. The single exception is bfiq of version 0.7, where the way back always fails: restructuring any bfiq array file of version 0.7 that has a record raises BorealisRestructureError and writes nothing, since the dimension names are made as texts while the check wants bytes. Groups named otherwise come back under the names of their first timestamps.", "quantifier": "all file systems, site files of antennas_iq, bfiq and rawacf (any number of records, any dimensions), all available compressions in each step; for the bfiq part all array files", "why_tests_cant": "unboundedly many files; the tests restructure a few recorded files and compare in one direction, and none of them is bfiq 0.7", "anchors": ["pydarnio/borealis/borealis_restructure.py:190-300", "pydarnio/borealis/borealis_restructure.py:302-480", "pydarnio/borealis/borealis_formats.py:1209-1223", "pydarnio/borealis/borealis_formats.py:556-566", "pydarnio/borealis/borealis_formats.py:2436-2493"]}
{"id": "C73", "title": "The exception for rejected DMAP bytes is that of the first fault", "statement": "A byte string without a negative slist size is rejected with exactly the exception of its first fault, where the faults are described by the shape of the bytes alone: nothing at all (EmptyFileError); a header cut off (CursorError); a block size, rank or count that is zero (ZeroByteError), negative (NegativeByteError) or too large (MismatchByteError); a name or text with no terminator (IndexError) or no UTF-8 (UnicodeDecodeError); an unknown type code (DmapDataTypeError); a DMAP type, a string array or a size out of range (DmapDataError); more elements than the block may hold (MismatchByteError); missing elements or more than 32 dimensions (ValueError); values cut off or fields that do not end with the block (CursorError). The object then holds the records of the blocks before the fault and their number. A file cut inside a block gives CursorError when less than 8 bytes of the block are left and MismatchByteError otherwise, from reading and from the integrity check; the integrity check raises the exception of the first bad size it walks to.", "quantifier": "all byte strings of all lengths, all positions of the fault, any number of good blocks and fields before it", "why_tests_cant": "the faults can stand in any field of any block at any depth; the tests corrupt a few recorded files in a few places", "anchors": ["pydarnio/dmap/dmap.py:228-310", "pydarnio/dmap/dmap.py:312-373", "pydarnio/dmap/dmap.py:375-478", "pydarnio/dmap/dmap.py:480-523", "pydarnio/dmap/dmap.py:525-634", "pydarnio/dmap/dmap.py:636-722", "pydarnio/dmap/dmap.py:775-810"]}
{"id": "C74", "title": "origin.time is the C text of the first timestamp", "statement": "The field origin.time of every converted record is the day of the week, the month, the day in two places filled with a space, hours, minutes and seconds in two digits and the year of the first timestamp in UTC, as in 'Thu May 23 03:59:51 2019'; the numbers are those in the fields time.yr to time.sc, the day of the week is that of the Gregorian calendar. Two times have the same text exactly if they are in the same second; from the year 1000 on the text has 24 characters. It is plain ASCII, so a conversion of convertible records of moderate size always writes a file that can be read.", "quantifier": "all timestamps datetime accepts (years 1 to 9999), all records, beams and file types; the C locale", "why_tests_cant": "tests compare a few timestamps of recorded files; leap years, days of the week and padding matter at all dates", "anchors": ["pydarnio/borealis/borealis_convert.py:631-634", "pydarnio/borealis/borealis_convert.py:640-663", "pydarnio/borealis/borealis_convert.py:925-928", "pydarnio/borealis/borealis_convert.py:934-957"]}
{"id": "C75", "title": "The texts of reader and writer objects show where they stand", "statement": "repr() and str() of a DmapRead object name the source (the file, or 'stream'), the cursor, the record number and the number of bytes: 0 and 0 for a new object; the number of bytes and the number of records read after a successful read; after a failure the number of records before it. The same holds for SDarnRead, where after a field error the number is that of the unacceptable record. The record number of a DmapWrite or SDarnWrite object is that of the last record after a successful conversion to bytes and that of the record that failed otherwise. The text of a BorealisSiteRead object counts its records. BorealisWrite and BorealisArrayWrite objects have no text: repr() and str() always raise AttributeError, since current_record_name does not exist. The texts of the other objects are their patterns with the fields filled in.", "quantifier": "all files and streams of all sizes, all lists of records, all file types; all file and record names", "why_tests_cant": "the tests never look at the texts of objects, and a failure can be at any record of any file", "anchors": ["pydarnio/dmap/dmap.py:189-212", "pydarnio/dmap/dmap.py:899-916", "pydarnio/borealis/borealis.py:148-162", "pydarnio/borealis/borealis.py:367-381", "pydarnio/borealis/borealis_site.py:151-166", "pydarnio/borealis/borealis_site.py:381-392", "pydarnio/borealis/borealis_array.py:140-154", "pydarnio/borealis/borealis_array.py:349-363", "pydarnio/borealis/borealis_restructure.py:135-151", "pydarnio/borealis/borealis_convert.py:252-259"]}
{"id": "C76", "title": "Getters of readers, and reading a truncated file again", "statement": "After any calls of read methods on one object, with exceptions caught, SDarnRead.get_records gives the result of the last read_<type> that returned and raises AttributeError when none has (also after a successful read_records); DmapRead.get_records gives the result of the last read_records that returned and [] when none has. When the first call on an object has returned, every further call of any read method gives the same list, without checks, and get_dmap_records stays the same. A file of good records followed by 1 to 7 stray bytes makes the first call raise CursorError, but a further read_<type> call on the same object returns the records before the cut as if nothing was missing, for any type whatever the records are: at the second call when at most 4 bytes are left and at the third otherwise.", "quantifier": "all sources, all sequences of calls of the seven read methods, all numbers and kinds of records, all stray bytes", "why_tests_cant": "the tests call one method once per object; the sequences of calls and the possible files are unbounded", "anchors": ["pydarnio/dmap/dmap.py:127-187", "pydarnio/dmap/dmap.py:214-226", "pydarnio/dmap/dmap.py:375-407", "pydarnio/dmap/superdarn.py:300-325", "pydarnio/dmap/superdarn.py:373-413", "pydarnio/dmap/superdarn.py:415-543"]}
{"id": "C77", "title": "Array files restructured to site files and back", "statement": "An array file restructured to a site file, and that file restructured to an array file, reads as before: same version, format and type, and every array equal. This is for files laid out as the format says whose rows are the records of a consistent file in increasing order of name, the first record having the most beams (except antennas_iq), with phase offsets that are one for each pulse, and not bfiq of version 0.7 (C72). Rows in another order come back in the order of their names (refuted form). Where every record has its own phase offsets (antennas_iq and bfiq from version 0.6 on) and some record has several pulses and several sequences, the first step succeeds and the second is always a ValueError that writes nothing.", "quantifier": "all array files meeting the layout, all file types with structures, all versions, all numbers and sizes of records, all compressions available", "why_tests_cant": "the tests restructure a few sample files and compare only the forward direction; the sizes, versions and contents are unbounded and the failing way back is not tested", "anchors": ["pydarnio/borealis/borealis_restructure.py:79-133", "pydarnio/borealis/borealis_restructure.py:168-188", "pydarnio/borealis/borealis_restructure.py:190-300", "pydarnio/borealis/borealis_restructure.py:302-452", "pydarnio/borealis/base_format.py:553-629"]}
{"id": "C78", "title": "Wrong numbers of phase offsets stop restructuring", "statement": "A site file of antennas_iq or bfiq from version 0.6 on, laid out as the format says, in which some record has two or more phase offsets that are not one for each pulse of each sequence, is never restructured to an array file: the outcome is a ValueError and no file is written or changed. A single phase offset is not an error.", "quantifier": "all such files, all numbers and sizes of records, wherever the record is in the file, whatever output name and compression", "why_tests_cant": "no test has a file with such phase offsets; the place of the record and the sizes are unbounded", "anchors": ["pydarnio/borealis/base_format.py:553-629", "pydarnio/borealis/borealis_restructure.py:302-452"]}
{"id": "C79", "title": "Shape of the arrays read from any file", "statement": "Every array in a record read from any file has the number type of its type code, between 1 and 32 sizes, and as many elements as the product of its shape. Either its shape is the one in the file, with sizes of at least 1 (0 only for slist) and elements that stand somewhere in the file; or it is slist with exactly one negative size, the others being at least 1: then its elements are all the bytes from some position to the very end of the file, across the records that follow, and the negative size is replaced by the size that makes the product right. That the shape is always the one in the file is refuted.", "quantifier": "all byte strings that are read, all records, all arrays, including files whose slist has a negative size", "why_tests_cant": "no test file has an slist of negative size, and the number of byte strings is unbounded", "anchors": ["pydarnio/dmap/dmap.py:525-634", "pydarnio/dmap/dmap.py:775-810"]}
{"id": "C80", "title": "The integrity check after another call", "statement": "Once the records of a DMAP file were read, and once the integrity check has failed, calling the integrity check on the same object raises CursorError and changes nothing.", "quantifier": "all files and streams a reader can be made from", "why_tests_cant": "the tests call the check once, on a new object; the files are unbounded", "anchors": ["pydarnio/dmap/dmap.py:312-373", "pydarnio/dmap/dmap.py:375-407"]}
{"id": "C81", "title": "A later record with more beams than the first is never restructured", "statement": "BorealisRestructure(in, out, type, 'array') takes the number of beams of the data arrays from the first record of the site file. For a bfiq or rawacf site file laid out as its format says, whose records fit together in size and in which some later record has more beams than the first, it always ends in a ValueError and no file is touched, although the site reader reads the file and makes the arrays in memory. Together with the property that all other such files are restructured, this gives the exact condition: the file type is antennas_iq, or no record has more beams than the first.", "quantifier": "all file systems, file names, site files (any number of records, any dimensions, the wider record in any position), compressions", "why_tests_cant": "the recorded files of the tests have one number of beams; positions and dimensions are unbounded", "anchors": ["pydarnio/borealis/base_format.py:553-629", "pydarnio/borealis/borealis_formats.py:738-774", "pydarnio/borealis/borealis_formats.py:1062-1094", "pydarnio/borealis/borealis_restructure.py:302-452"]}
{"id": "C82", "title": "Only checked data reach a Borealis file, and a refusal leaves the files as they are", "statement": "When BorealisSiteWrite or BorealisArrayWrite is called, either it raises and no file is changed, or the file type is known, the version read from the hash of the first record (or of the arrays) has formats, and every record (or the array dictionary) fits the format of that version: all checks come before the first write. The refusals are: for records, BorealisStructureError for no records, KeyError for a first record without a hash (not the documented BorealisStructureError), AttributeError for a hash that is no text, BorealisVersionError for a version without formats, and otherwise the report of all bad records, or the verdict on the first record that ends the check; for arrays the same with BorealisStructureError for a missing hash and the one verdict of the array check. BorealisWrite given records and not told to write arrays obeys the same rule. Records handed to the array writer are a BorealisStructureError; arrays that fit a format handed to the site writer are a BorealisStructureError too, except those of version 0.5 rawacf files, which are a TypeError (their first field by name is a text).", "quantifier": "all file systems, file names, dictionaries of records and of arrays, file types, structures, compressions and sets of available filters", "why_tests_cant": "the tests try a few bad records; which records are refused, that each refusal leaves every file alone, and which error comes first are statements about all of them", "anchors": ["pydarnio/borealis/borealis_site.py:314-379", "pydarnio/borealis/borealis_site.py:460-491", "pydarnio/borealis/borealis_array.py:290-347", "pydarnio/borealis/borealis_array.py:428-458", "pydarnio/borealis/borealis.py:320-365", "pydarnio/borealis/borealis.py:447-504"]}
{"id": "C83", "title": "A site file and the array file made of it convert to the same SuperDARN file", "statement": "Let a rawacf site file be restructured to an array file. BorealisConvert given the array file under the name of the site file does exactly what it does with the site file: it writes the same bytes or raises the same exception, whatever the slice, the scaling, the earlier files and whether the structure is given or found out. For bfiq files up to version 0.6 the same holds when the phase offsets of every record are none or one for each pulse (but not two common ones). It does not hold for phase offsets in rows, one row of two or more for each sequence: converting the array file raises ValueError, since a row has no truth value, while the site reader gives zeros for them, so that the phase-coded site file converts as if it had no phase offsets. The array file made of a bfiq file of version 0.7 can never be converted: BorealisRestructureError.", "quantifier": "all file systems, site files with records that fit their format and each other, versions, compressions, scaling functions, scaling factors, slice numbers and file names", "why_tests_cant": "the tests convert given site files and given array files; that the two structures of every file lead to the same output is a statement about pairs of runs over all files", "anchors": ["pydarnio/borealis/borealis_convert.py:160-241", "pydarnio/borealis/borealis_convert.py:338-408", "pydarnio/borealis/borealis_convert.py:526-752", "pydarnio/borealis/borealis_convert.py:789-1021", "pydarnio/borealis/borealis_restructure.py:302-452", "pydarnio/borealis/borealis.py:180-194"]}
{"id": "C84", "title": "Which error a DMAP writer raises, and what it leaves behind", "statement": "Writing DMAP structures fails exactly when something in them is at fault, with the error of the first fault met. In a scalar: a name with a surrogate (UnicodeEncodeError); a type code that is no character (OverflowError beyond 32 bits, ValueError, UnicodeEncodeError for surrogates) or not one byte (StructError); a value its format cannot take (a text, float, list or array for an integer, an integer out of range, a text or a float for a character, a text, a list or an array for a double, a list or an array for a float, an integer too large for a double). In an array: format 's' (DmapDataError); format 'c' without a first element (IndexError) or with texts (DmapCharError); its name and type; a number of dimensions or a size beyond 32 bits (StructError). In a record: the first faulty field in order (a value that is no DMAP structure: DmapTypeError), then a length of 2 GiB or more (StructError); without fault the bytes have the length that the fields add up to. A writer object fails with its first faulty record; the bytes of the records before it stay in its buffer (followed by the four bytes of the first header word, 65537, if the fault is a length of 2 GiB or more), the shapes of the arrays written up to the fault stay reversed and those after it do not; no file is touched.", "quantifier": "all names, type codes, values, shapes, records, lists of records, buffers, file systems; excepted are floats, lists and arrays given for texts, texts given for floats, lists and arrays of one element and numpy integers of more than 53 bits given for floats, arrays of rank 0", "why_tests_cant": "the tests provoke a few of these errors one at a time; which of several faults decides, that there are no other failures, and what a failed write leaves in the object are statements about all records", "anchors": ["pydarnio/dmap/dmap.py:944-1160"]}
{"id": "C85", "title": "The field checks of SDarnUtilities for any groups of fields", "statement": "For any list of field groups, any optional groups and any record: missing_field_check raises SuperDARNFieldMissingError exactly when some group, not equal as a dictionary to an optional one, is there in part, and reports exactly the fields lacking in such groups; extra_field_check raises SuperDARNExtraFieldError exactly when the record has fields of no group and reports exactly these, but TypeError when there is no group at all; incorrect_types_check compares in the order of the record with the format of the last group that has the field: the first field that is no DMAP structure or of no group ends it with AttributeError or KeyError, otherwise SuperDARNDataFormatTypeError reports exactly the fields of other formats, in order, and nothing is raised when there are none.", "quantifier": "all lists of groups (dictionaries), optional groups, records, record numbers", "why_tests_cant": "the tests check a few records against the tables of the file types; the public static methods take any tables", "anchors": ["pydarnio/dmap/superdarn.py:80-248"]}
{"id": "C86", "title": "Which error write_<type> raises, and what it leaves behind", "statement": "write_<type> (any of the six types) succeeds exactly when every record obeys the rules of the type and has no fault of its own (C84); the file is then as long as the buffer and the records add up to. Otherwise the first record that does not decides. A record that breaks the rules: SuperDARNExtraFieldError with exactly its unknown fields; without these SuperDARNFieldMissingError with exactly the fields missing from partly present groups; without these AttributeError if some value is no DMAP structure; otherwise SuperDARNDataFormatTypeError with exactly the fields of other formats; each with the number of the record. A record that obeys the rules: the error of its first fault. No file is touched; the bytes of the records before it are left in the buffer of the object (followed by the first header word if the record is of 2 GiB or more), their shapes reversed.", "quantifier": "all types, file systems, writer objects with records, names; with the exceptions of C84", "why_tests_cant": "the tests write one record with one defect; which of several defects in several records decides, and that there are no other failures, are statements about all lists of records", "anchors": ["pydarnio/dmap/superdarn.py:594-900", "pydarnio/dmap/superdarn.py:80-248"]}
{"id": "C87", "title": "Which error read_<type> raises on any input, and what it leaves behind", "statement": "For any bytes (without a negative size of an array called slist) read_<type> either returns the dictionaries of a well-formed file all of whose records obey the rules of the type, the same as read_records does, or raises the error of the first block that is no block (C73) or whose record breaks the rules: SuperDARNFieldMissingError with exactly the missing fields; without these SuperDARNExtraFieldError with exactly the unknown fields; otherwise SuperDARNDataFormatTypeError with exactly the fields of other formats; each with the number of the record. Errors of the rules are raised whatever bytes follow the record, also when they are no DMAP at all. The object keeps the records before, their number, and after an error of the rules stands behind the record.", "quantifier": "all types, all byte strings up to 2^63-1 bytes, file systems, sources", "why_tests_cant": "the tests read a few broken files; for all byte strings the order of the two kinds of errors and the completeness of the list cannot be tested", "anchors": ["pydarnio/dmap/superdarn.py:326-413", "pydarnio/dmap/dmap.py:226-700"]}
{"id": "C88", "title": "Which error reading a Borealis file raises, and what leaves a reader", "statement": "Reading any HDF5 file as a site file either gives records that all fit the format of the version in the hash of the first member, and these are, by name, exactly what the file shows (datasets, texts cut from bytes, decoded attributes, zeros for empty ones, attributes over datasets of the same name) with phase offsets corrected; or raises the error of the first fault in this order: no member or no hash (BorealisStructureError), a hash that is no byte string (AttributeError) or not UTF-8 (UnicodeDecodeError), an unknown version (BorealisVersionError), by name the first member that is no group (AttributeError) or has a dataset without dimensions or of a size that cannot be cut into texts (ValueError) or an attribute that is not UTF-8, by name the first record with phase offsets that have no shape (AttributeError) or with no pulses to compare them with (KeyError, AttributeError), then the verdict on the fields (C36). As an array file the same with its own faults: a group (TypeError), short phase offsets without num_sequences (KeyError), with a scalar (IndexError) or a text (AttributeError) in its place, then the verdict of C37. BorealisRead without a structure raises the error as an array file unless this is one that says the structure is another, and then the one as a site file.", "quantifier": "all HDF5 files (members, datasets, attributes) whose text datasets hold bytes and whose empty attributes are numbers or byte strings, all file systems and names, file types with structures", "why_tests_cant": "the tests read a few valid files and one with each of some wrong fields; which of several defects decides and that no other data can leave a reader is a statement about all files", "anchors": ["pydarnio/borealis/base_format.py:1234-1360", "pydarnio/borealis/borealis_site.py:112-149", "pydarnio/borealis/borealis_site.py:234-275", "pydarnio/borealis/borealis_array.py:108-138", "pydarnio/borealis/borealis_array.py:219-252", "pydarnio/borealis/borealis.py:215-263"]}
{"id": "C89", "title": "Integers given for float, double and text fields", "statement": "An int or numpy integer given for a double field is written as the one double nearest to it (of two equally near ones the one with an even mantissa), exactly if it has at most 53 bits, and is a struct.error from half way between the largest double and 2^1024 on. Given for a float field it is written, with at most 53 bits, as the nearest single, exactly with at most 24 bits; a larger int is made a double first (OverflowError if there is none), so that the single stored need not be the nearest. Given for a text field it is written as its decimal numeral. Records with such integers are written as the same bytes as the records with these floats and texts in their places, and read back as those. Lists and arrays that do not have one element are no floats: struct.error.", "quantifier": "all integers (texts: below 10^4300; numpy integers for float fields: at most 53 bits), all lists of records of DMAP structures", "why_tests_cant": "no test gives an integer for a float field; that the result is the nearest number, also in ties, and that one more rounding happens above 53 bits, is a statement about all integers", "anchors": ["pydarnio/dmap/dmap.py:1091-1107"]}
{"id": "C90", "title": "A record that cannot be converted blocks its writer", "statement": "Once a writer object (DmapWrite or SDarnWrite) has a record that cannot be converted to bytes, every call of write_dmap, write_dmap_stream and write_<type> raises, with whatever arguments and however often, and no file is touched; so it is after every write_dmap that failed in the conversion of a record. A record of 2 GiB or more leaves the first word of its header in the buffer at every attempt. Nevertheless everything a writer object hands out or writes to a file, after any sequence of calls, failed or not, is a sequence of whole blocks that the integrity check of a reader accepts.", "quantifier": "all record lists, file names, file systems, sequences of calls of any length with any arguments", "why_tests_cant": "the tests make one call per object; the claim is about any sequence of calls, and about records of 2 GiB", "anchors": ["pydarnio/dmap/dmap.py:928-1065", "pydarnio/dmap/superdarn.py:612-900"]}
{"id": "C91", "title": "Records that share shape lists; the byte array handed out", "statement": "Writing DMAP structures of which some share a shape list (the same record twice, a DmapArray in two records, one list for two arrays) is the same as writing records that share nothing, in which each array has its list reversed once for every array of more than one dimension with the same list before it; on success the lists are left reversed as often as they were used. If no two arrays share a list the records are written as they are. The same representable record given n times is read back alternately as it is and with the sizes of its arrays in the other order (the elements in the same order in memory), so the claim that records are always read back as given is false when objects are shared. The bytearray returned by write_dmap_stream is the buffer of the object: after any further calls it still begins with the bytes returned, and what those calls added follows.", "quantifier": "all records, all ways of sharing lists, all numbers of repetitions (file of at most 2^63-1 bytes), all sequences of further calls", "why_tests_cant": "no test gives one record twice; which arrays come out reversed depends on all arrays before them", "anchors": ["pydarnio/dmap/dmap.py:1114-1160", "pydarnio/dmap/dmap.py:1010-1065", "pydarnio/dmap/dmap.py:964-983", "pydarnio/dmap/datastructures.py:47-74"]}
{"id": "C92", "title": "Once read and written, a file comes out the same", "statement": "If a well-formed DMAP byte string has ASCII texts, chars below 128, no name that is both a scalar and an array, and no array without elements except of zero sizes and not of chars (identifiers, repeated names and NaNs are free), then the records read from it are written by DmapWrite to a byte string that is no longer (as long if no name is repeated) and that is read as exactly the same records; reading and writing from then on changes nothing. For files that read_<type> accepts the same holds with write_<type> and read_<type>. Without the conditions it is false: a name used for a scalar and an array, or an slist with a size between the new and the old length of the block, gives a file that is refused.", "quantifier": "all byte strings of at most 2^63-1 bytes with these conditions, all six SuperDARN types, all file systems and names", "why_tests_cant": "the tests round-trip a few files without repeated names, other identifiers or NaNs; the claim is about all of them and about lengths", "anchors": ["pydarnio/dmap/dmap.py:375-760", "pydarnio/dmap/dmap.py:964-1160", "pydarnio/dmap/superdarn.py:312-900"]}
{"id": "C93", "title": "Which error a conversion raises", "statement": "The errors of BorealisConvert come in this order, and no file is changed before the last: those of reading; IndexError for no records; BorealisStructureError without a slice id; for the first record that fails a check ValueError (tau_spacing and tx_pulse_len 0), OverflowError (tx_pulse_len 0), IndexError (a version that is neither v<x>.<y> nor hexadecimal), BorealisConvert2RawacfError/BorealisConvert2IqdatError (wrong blanked samples or phase offsets), ValueError (a table of phase offsets); then BorealisConvert2<type>Error if any record cannot be converted - which for records with fields of the expected kinds is exactly: numbers of elements that differ from the dimensions, or a beam and (a version without numbers, no time or one without a date, an unknown station, no noise, fewer azimuths than beams, infinite or huge ranges, wrong number of dimensions, too few beams, sequences or lags, no cross-correlations); DmapDataError if there are no beams; then what the SuperDARN writer raises for the records, one per beam.", "quantifier": "all HDF5 file systems, file names, types, slice ids, records with the fields of the expected kinds, scaling, power and ctime functions", "why_tests_cant": "the tests convert a handful of good files and check two blanked-sample errors; the order and completeness of causes over all records is not enumerable", "anchors": ["pydarnio/borealis/borealis_convert.py:100-460", "pydarnio/borealis/borealis_convert.py:500-1010"]}
{"id": "C94", "title": "What a Borealis write puts into a file, and what it leaves there when it fails", "statement": "For records that pass the checks (texts of attributes arbitrary) BorealisSiteWrite to a new or existing HDF5 file adds one group for each, in order, and ends well: ASCII attributes without trailing NULs, numbers as they are, arrays of numbers as datasets, arrays of texts as bytes, four for each character, of the width of the longest text. Or it stops at the first record whose name is taken (ValueError) or that has a field that cannot be stored (UnicodeEncodeError for a text that is not ASCII, TypeError for compressed data without dimensions, ValueError for texts without dimensions or a filter that is not there); the groups before it stay, and of its own group the fields before the bad one. A file that is not HDF5 is an OSError and stays. The same holds for arrays and BorealisArrayWrite, with the attributes of the file replaced up to the fault. There is always exactly one such outcome, and no other file changes.", "quantifier": "all records and arrays that pass the checks with values of the modelled kinds, all HDF5 files, filters and compressions", "why_tests_cant": "the tests write good records to new files only; which part of which record is left after a fault at any field is not enumerable", "anchors": ["pydarnio/borealis/base_format.py:1362-1429", "pydarnio/borealis/borealis_site.py:314-491", "pydarnio/borealis/borealis_array.py:290-458"]}
{"id": "C95", "title": "The other structure of Borealis data fits the format or is a BorealisRestructureError", "statement": "The arrays property of site data and the records property of array data, of a reader or a writer, either give data that fit the format of the same version and file type exactly (all fields, no others, each of its type; records with distinct names), or raise BorealisRestructureError, whatever went wrong inside. Rawrf data, no records, and arrays without sqn_timestamps always raise it. So both properties of whatever BorealisRead has read fit the format, or the one that is not in the file raises BorealisRestructureError. Records handed to the array writer with one named borealis_git_hash are an AttributeError and no file changes.", "quantifier": "all generations, file types, records, arrays and readable files", "why_tests_cant": "the tests restructure a few good files; that no other exception escapes for any data, and that a result always fits, is a statement about all of them", "anchors": ["pydarnio/borealis/borealis_site.py:186-217", "pydarnio/borealis/borealis_array.py:166-194", "pydarnio/borealis/borealis.py:180-194", "pydarnio/borealis/base_format.py:1013-1232"]}
{"id": "C96", "title": "What the messages of the exceptions say", "statement": "The message of every DMAP, SuperDARN and Borealis exception contains in full the file name, field, element, type and record number it was given; except DmapTypeError, which is given the file name and never says it, and DmapCharError, which shows the field as a tuple. Every reported field stands in the message in quotes. From a SuperDARN message the record number, the fields and the kind of fault can be told, for any field names; from the message about bad records of a Borealis file all records with their faults; but not always the record and the file from a message about one record. The message of the missing field check names the record and every missing field, and no other fields. The standard form of a warning has the place, the other form not.", "quantifier": "all file names, field names, record numbers and sets of fields", "why_tests_cant": "the tests only look at the class of an exception; that a message is complete and unambiguous for any names is not testable by examples", "anchors": ["pydarnio/exceptions/dmap_exceptions.py:23-230", "pydarnio/exceptions/superdarn_exceptions.py:18-97", "pydarnio/exceptions/borealis_exceptions.py:53-433", "pydarnio/exceptions/warning_formatting.py:9-67"]}
{"id": "C97", "title": "The Borealis field checks for any tables", "statement": "For any list of tables of field names: the missing field check reports exactly the declared fields that are not there, raising BorealisStructureError instead exactly when no field is there and no two tables share one (also when the tables are empty), and the extra field check reports exactly the names no table has; with no table both raise TypeError. For any tables of types, the type check of a record ends at the first field in the order of the tables that is absent (KeyError) or has no type (AttributeError) and otherwise reports exactly the fields of another type; the type check of an array dictionary says the first that applies of seven cases; the check of the number of records passes exactly when all fields are arrays with equally many entries; a field that is absent (KeyError), has no shape (AttributeError) or, when all have one, has an empty value before any single value (TypeError) ends it, and anything else is BorealisNumberOfRecordsError.", "quantifier": "all lists of tables, names, records and array dictionaries", "why_tests_cant": "the tests use the tables of the formats only, where no two tables share a field and the earlier checks hide the later failures", "anchors": ["pydarnio/borealis/borealis_utilities.py:81-395"]}
{"id": "C98", "title": "The wording of the error messages", "statement": "Every exception and both warning formats produce exactly their format text with each value in its named place (for example 'Error: {filename} contains an {element} < 0 at record {rec}.'), where numbers stand as decimal numerals and texts, sets, dictionaries and shapes as Python literals that denote them. A shown text consists of printable characters only, whatever the text is, a literal denotes only one text, and double quotes are used exactly for texts with a single and without a double quote.", "quantifier": "all file names, field names, numbers, sets and dictionaries of Unicode texts, and tables of printable characters", "why_tests_cant": "the tests only check the attributes of the exceptions, not the messages, and names with quotes, control or non-ASCII characters never occur in them", "anchors": ["pydarnio/exceptions/dmap_exceptions.py:23-230", "pydarnio/exceptions/superdarn_exceptions.py:18-97", "pydarnio/exceptions/borealis_exceptions.py:53-433", "pydarnio/exceptions/warning_formatting.py:9-67"]}
{"id": "C99", "title": "Plain dictionaries through dict2dmap and dmap2dict", "statement": "Whatever plain dictionaries dict2dmap accepts, dmap2dict turns its result back into dictionaries with the same keys in the same order and equal values; only np.int32 and np.float32 numbers become Python ints and floats of the same value, and lists become arrays. Converting these once more gives records of the same names and types that are written as the same bytes (or refused alike) and the same dictionaries again. dict2dmap raises nothing but KeyError, exactly when some value has no DMAP type; dmap2dict given plain values raises AttributeError at the first of them.", "quantifier": "all lists of dictionaries with values of any type, of any sizes and shapes (lists of integers only)", "why_tests_cant": "the tests convert a few records of real files and compare a handful of fields; every value of every type in every position cannot be tried", "anchors": ["pydarnio/utils/conversions.py:64-128"]}
{"id": "C100", "title": "Reading from before the start of the file", "statement": "An slist of negative size moves the cursor back, even below 0. There, numbers and chars are read from the last bytes of the file counted from the end, a number that would run over the end is a struct.error, a text that runs over the end is searched on from the first byte of the file (and is given if exactly that byte is 0, otherwise struct.error or IndexError), everything further back than the file is an IndexError, struct.error or OverflowError, and array elements there are a ValueError. So a 46-byte file exists that is read without error although its bytes are used twice.", "quantifier": "all buffers of bytes, all cursors below 0, all formats, all shapes and numbers of elements", "why_tests_cant": "no test file has a negative size, and the bytes before and after the cursor can be anything", "anchors": ["pydarnio/dmap/dmap.py:636-722", "pydarnio/dmap/dmap.py:775-810"]}
{"id": "C101", "title": "Accepted DMAP input exactly, also with negative slist sizes", "statement": "DmapRead returns records for a byte string exactly when it is a chain of blocks from its first byte to its end, each with its stated size, positive counts, that many scalars and that many arrays which lead, one after another, to the end of the block; an array called slist may have one negative size, then it holds all the rest of the file and the next array stands where the negative product of the sizes leads, even before the start of the file (counted from its end, where nothing may run over the end except a text whose NUL is the first byte of the file). The records are the dictionaries of these blocks, the bytes determine the blocks, and without a negative size they are those of C04.", "quantifier": "all byte strings a bytearray can hold", "why_tests_cant": "which malformed files are accepted is a statement about infinitely many of them; no test file has a negative size", "anchors": ["pydarnio/dmap/dmap.py:375-810"]}
{"id": "C102", "title": "The exception for every refused DMAP input", "statement": "For every byte string that is no chain of blocks as in C101 DmapRead raises the exception of its first fault, where the faults are listed by rules with positions: also those after an slist of negative size has moved the reader back (struct.error for a number or text that runs over the end of the file, IndexError before the start, OverflowError for fewer than -2^63 elements, ValueError when there are no such elements). Every byte string is a chain of blocks or has exactly one exception, never both.", "quantifier": "all byte strings a bytearray can hold", "why_tests_cant": "which of thirteen exceptions is raised is a statement about all malformed inputs; no test file has a negative size", "anchors": ["pydarnio/dmap/dmap.py:228-310", "pydarnio/dmap/dmap.py:375-810"]}
{"id": "C103", "title": "What reader objects return and keep, for any bytes and from any place", "statement": "Wherever in its bytes a DmapRead or SDarnRead object stands, read_records appends the records of the blocks from there to the end, or to the first block with a fault, to those the object holds, counts them on, and returns all or raises the exception of that fault (C102). read_<type> does the same and also stops at the first record that breaks the rules of the type, with the error that names exactly the fields concerned and the number of the record counted from 0 in this call; the cursor is then behind that record. The bytes and the cursor determine the blocks. With the cursor behind the end read_records raises MismatchByteError and read_<type> returns what there is.", "quantifier": "all byte strings a bytearray can hold, all states of the object with a cursor that is not negative, all types", "why_tests_cant": "the object is left in a state by every malformed input; tests only look at new objects", "anchors": ["pydarnio/dmap/dmap.py:375-478", "pydarnio/dmap/superdarn.py:327-398"]}
{"id": "C104", "title": "read_string_array reads lists of texts and nothing of more dimensions", "statement": "DmapRead.read_string_array called with one size n at any position of any bytes returns exactly the n NUL-terminated texts that follow one another there (none if n is not positive) and moves the cursor behind them, or raises the exception of the first text with a fault. With another format it returns the values encoded there. With two or more sizes it raises AttributeError (a method it calls does not exist) or, if the last size is not positive, returns an empty array; no bytes are read. In all cases the caller's list of sizes loses its last element.", "quantifier": "all byte strings a bytearray can hold, all positions, all lists of sizes", "why_tests_cant": "no test calls the method (its comment says no file for testing it is known)", "anchors": ["pydarnio/dmap/dmap.py:738-773"]}
{"id": "C105", "title": "Truncation of any accepted file is at the end of a block or is detected", "statement": "If a file dmap_read accepts is cut after some bytes and what is left is accepted too, then the cut is at the end of a block, and there is one record for each block before it. Any other cut raises an exception. This holds whatever sizes arrays called slist have (C08 excludes negative ones). A block without negative sizes in one of the two files is the same in both, and blocks without negative sizes are kept by a cut behind them whatever follows. The records before the cut are not always those of the whole file: an slist of negative size takes the bytes up to the end of the file.", "quantifier": "all byte strings a bytearray can hold, all cuts", "why_tests_cant": "tests cut one known file at a few places", "anchors": ["pydarnio/dmap/dmap.py:375-478", "pydarnio/dmap/dmap.py:640-736"]}
{"id": "C106", "title": "Joining files when arrays of the second one have negative sizes", "statement": "If the first of two accepted files has no negative array size, and the arrays of the second one never lead to before its start (negative sizes of slist are allowed there), then the joined file gives the records of the first and then those of the second. Conversely, if such blocks follow a file without negative sizes, they are a file themselves and the records split accordingly. Both conditions are needed.", "quantifier": "all byte strings a bytearray can hold", "why_tests_cant": "which bytes an array with a negative size takes depends on the whole file; tests have no such files", "anchors": ["pydarnio/dmap/dmap.py:375-478", "pydarnio/dmap/dmap.py:545-640", "pydarnio/dmap/dmap.py:775-810"]}
{"id": "C107", "title": "SuperDARN types share one catalogue of fields and cannot be taken for one another", "statement": "The groups of the six SuperDARN types are those of a catalogue of 200 fields in which each field has one format; so a field has the same format in every type. Every field of Grid is a field of Map. A record with at least one field of the main group of a type it is acceptable as is acceptable as no other type, and no file with such a record can be read as two types. Records without a main field can be acceptable as two types.", "quantifier": "all types, fields, records and files", "why_tests_cant": "the tables are compared field by field for all pairs of types; the statement on records is over all records", "anchors": ["pydarnio/dmap/superdarn_formats.py:18-503", "pydarnio/dmap/superdarn.py:400-560"]}
{"id": "C108", "title": "The name of a site record follows its time to about a millisecond", "statement": "Every time from 0 to the end of the year 9999 gets a name, the numeral of a number of milliseconds at most 0.05 ms above and at most 1.05 ms below the time. Names never go back when times go forward, and two times more than 1.1 ms apart get different names. From 2001 to 2286 the names of such times are in order as texts too, so an array file whose records start more than 1.1 ms apart gives as many site records, in the order of names and of times. Restructuring such a file appends its groups in the order of their names, even when it fails part way. Reading a site file gives all its records, in the order of their times if the times are in those years. A whole millisecond apart is not enough, and outside those years texts, and so the records of a file, can be out of order. A time before 1970 has the numeral of minus the milliseconds of the time as long after, so names are cut towards 1970 and two times almost 2 ms apart on both sides of it can share a name. An infinite time raises OverflowError, and NaN or a time outside the years 1 to 9999 (less than 2^55 s from 1970) ValueError; arrays with such a time give no records at all, and restructuring such a file never succeeds.", "quantifier": "all 64 bit floats in the range of years, all arrays, files and formats", "why_tests_cant": "three float roundings in a row, over all times; a test can try some times only", "anchors": ["pydarnio/borealis/base_format.py:1184-1190", "pydarnio/borealis/borealis_restructure.py:236-242"]}
{"id": "C109", "title": "Structure, generation and type of Borealis data can be told from the fields, except antennas_iq and bfiq of version 0.7", "statement": "A record that fits two Borealis formats has one generation and one type, unless the generation is 0.7 and the types are antennas_iq and bfiq; the same for arrays. Nothing fits a site format and an array format, and no file can be read as site file and as array file. In version 0.7 every record, array dictionary and file that is accepted as antennas_iq is accepted as bfiq and the other way round, with the same data. Site records of one of the two types cannot be changed to arrays as the other, nor antennas_iq arrays to bfiq records; bfiq arrays of version 0.7 can be changed to antennas_iq records, which pass the check although their data_dimensions do not fit their data.", "quantifier": "all generations, types, records, array dictionaries and files", "why_tests_cant": "compares all pairs of formats and holds for all records and files", "anchors": ["pydarnio/borealis/borealis_formats.py:62-2662", "pydarnio/borealis/base_format.py:1215-1345", "pydarnio/borealis/borealis_site.py:84-149", "pydarnio/borealis/borealis_array.py:82-138", "pydarnio/borealis/borealis_formats.py:2558-2569"]}
