(** The messages of the exceptions (pydarnio/exceptions/dmap_exceptions.py,
    superdarn_exceptions.py, borealis_exceptions.py) and of the warnings
    (warning_formatting.py).  An exception writes its message to the log as well, which is
    not modelled. *)
From Coq Require Import String ZArith List Bool.
From Verif Require Import Base Bytes SDarnFormats BorealisTime.
Import ListNotations.
Open Scope list_scope.
Open Scope Z_scope.

(** ** How Python shows texts, sets and dictionaries in a message *)

(** A hexadecimal digit, in the escapes of [repr] (superdarn_exceptions.py:45-48). *)
Definition hexd (d : Z) : Z := if d <? 10 then 48 + d else 87 + d.
(** [k] hexadecimal digits (superdarn_exceptions.py:45-48). *)
Fixpoint hexn (k : nat) (c : Z) : pystr :=
  match k with O => [] | S k => hexn k (c / 16) ++ [hexd (c mod 16)] end.

Section Shown.
(** Which characters beyond ASCII are printable: a table of the Unicode version of Python
    (superdarn_exceptions.py:45-48 with names that are not ASCII). *)
Variable printable : Z -> bool.

(** One character of [repr] of a text between the quotes [q] (superdarn_exceptions.py:45-48). *)
Definition escape (q c : Z) : pystr :=
  if (c =? q) || (c =? 92) then [92; c]
  else if c =? 9 then [92; 116]
  else if c =? 10 then [92; 110]
  else if c =? 13 then [92; 114]
  else if (c <? 32) || (c =? 127) then 92 :: 120 :: hexn 2 c
  else if c <? 127 then [c]
  else if printable c then [c]
  else if c <? 256 then 92 :: 120 :: hexn 2 c
  else if c <? 65536 then 92 :: 117 :: hexn 4 c
  else 92 :: 85 :: hexn 8 c.

(** The quotes of [repr]: double ones only for texts with a single and without a double
    quote (superdarn_exceptions.py:45-48). *)
Definition quote (s : pystr) : Z :=
  if existsb (Z.eqb 39) s && negb (existsb (Z.eqb 34) s) then 34 else 39.

(** [repr] of a text (superdarn_exceptions.py:45-48). *)
Definition quoted (s : pystr) : pystr :=
  quote s :: flat_map (escape (quote s)) s ++ [quote s].

(** Parts separated by commas (superdarn_exceptions.py:45-48). *)
Fixpoint commas (l : list pystr) : pystr :=
  match l with
  | [] => []
  | [x] => x
  | x :: l => x ++ str ", " ++ commas l
  end.

(** A set of texts, in the order of its iteration (superdarn_exceptions.py:45-48). *)
Definition set_text (l : list pystr) : pystr :=
  match l with [] => str "set()" | _ => str "{" ++ commas (map quoted l) ++ str "}" end.

(** A dictionary whose values are shown by [f] (superdarn_exceptions.py:91-94,
    borealis_exceptions.py:58-61). *)
Definition dict_text {A} (f : A -> pystr) (d : list (pystr * A)) : pystr :=
  str "{" ++ commas (map (fun p => quoted (fst p) ++ str ": " ++ f (snd p)) d) ++ str "}".

(** A shape, a tuple of numbers (borealis_exceptions.py:235-240). *)
Definition tuple_text (l : list Z) : pystr :=
  match l with
  | [x] => str "(" ++ dec x ++ str ",)"
  | _ => str "(" ++ commas (map dec l) ++ str ")"
  end.

(** ** dmap_exceptions.py *)

(** dmap_exceptions.py:23-34 CursorError without a message of its own. *)
Definition cursor_message (cursor expected rec : Z) : pystr :=
  str "Error: Cursor is at " ++ dec cursor ++ str " andit needs to be " ++ dec expected ++ str ". Failed at record " ++ dec rec.

(** dmap_exceptions.py:46-51 EmptyFileError. *)
Definition empty_message (filename : pystr) : pystr :=
  str "Error: " ++ filename ++ str " is empty or please check this is the correct file".

(** dmap_exceptions.py:67-77 DmapCharError: the comma after [data_name] in line 68 makes a
    tuple of it. *)
Definition char_message (data_name : pystr) (rec : Z) : pystr :=
  str "Error: For field (" ++ quoted data_name ++ str ",) at record number " ++ dec rec ++
  str " is a string type trying to be written in as a char. DMAP treats char as int8. Please revise this field type".

(** dmap_exceptions.py:95-105 DmapDataTypeError; the type is a number here (dmap.py:307-309). *)
Definition data_type_message (filename data_name : pystr) (data_type rec : Z) : pystr :=
  str "Error: Dmap data type " ++ dec data_type ++ str " for " ++ data_name ++ str " at record " ++ dec rec ++
  str " does not exist in dmap data types. Filename: " ++ filename.

(** dmap_exceptions.py:119-126 NegativeByteError. *)
Definition negative_message (filename element : pystr) (rec : Z) : pystr :=
  str "Error: " ++ filename ++ str " contains an " ++ element ++ str " < 0 at record " ++ dec rec ++ str ".".

(** dmap_exceptions.py:142-149 ZeroByteError. *)
Definition zero_message (filename element : pystr) (rec : Z) : pystr :=
  str "Error: " ++ filename ++ str " contains an " ++ element ++ str " == 0 at record " ++ dec rec ++ str ".".

(** dmap_exceptions.py:165-173 MismatchByteError. *)
Definition mismatch_message (filename element : pystr) (rec : Z) : pystr :=
  str "Error: " ++ filename ++ str " contains an " ++ element ++ str " at record = " ++ dec rec ++ str ".".

(** dmap_exceptions.py:187-193 DmapDataError. *)
Definition data_message (filename message : pystr) : pystr :=
  str " The following error for " ++ filename ++ str " was raised: " ++ message.

(** dmap_exceptions.py:209-221 DmapTypeError: the format has no place for the file name. *)
Definition dmap_type_message (filename data_type : pystr) (rec : Z) : pystr :=
  str "Error: " ++ data_type ++
  str " does not match the DMAP data type structures: DmapScalar, DmapArray. Please make sure you have the correct Data Structure. Failed at record " ++
  dec rec.

(** dmap_exceptions.py:228-230 FilenameRequiredError. *)
Definition required_message : pystr := str "Error: Filename is required".

(** ** superdarn_exceptions.py *)

(** superdarn_exceptions.py:18-28 SuperDARNFileTypeError. *)
Definition sd_filetype_message (filename file_type : pystr) : pystr :=
  str "Error: " ++ file_type ++ str " is not a SuperDARN file format type." ++ filename ++
  str " was not created. Please check the spelling of the file type is correct or is implemented.".

(** superdarn_exceptions.py:43-51 SuperDARNFieldMissingError. *)
Definition sd_missing_message (rec : Z) (fields : list pystr) : pystr :=
  str "Error: The following fields in record " ++ dec rec ++ str " are missing: " ++ set_text fields.

(** superdarn_exceptions.py:66-74 SuperDARNExtraFieldError. *)
Definition sd_extra_message (rec : Z) (fields : list pystr) : pystr :=
  str "Error: The following fields in record " ++ dec rec ++ str " are not allowed: " ++ set_text fields.

(** superdarn_exceptions.py:89-97 SuperDARNDataFormatTypeError: the fields with the format
    characters that they should have (superdarn.py:243-248). *)
Definition sd_type_message (fields : list (pystr * pystr)) (rec : Z) : pystr :=
  str "Error: In record " ++ dec rec ++ str ", following parameters need to be the data type: " ++ dict_text quoted fields.

(** ** borealis_exceptions.py *)

(** borealis_exceptions.py:53-63 BorealisBadRecordsError: names of records with sets of
    fields, and with dictionaries from fields to types (borealis_utilities.py:503-514). *)
Definition bad_records_message (filename : pystr) (missing extra : list (pystr * list pystr))
    (incorrect : list (pystr * list (pystr * pystr))) : pystr :=
  filename ++ str " contains invalid records." ++ [10; 9] ++ str "Records with missing fields: " ++ dict_text set_text missing ++
  [10; 9] ++ str "Records with extra fields: " ++ dict_text set_text extra ++
  [10; 9] ++ str "Records with fields of incorrect types: " ++ dict_text (dict_text quoted) incorrect.

(** borealis_exceptions.py:83-91 BorealisFileTypeError. *)
Definition b_filetype_message (filename file_type : pystr) : pystr :=
  file_type ++ str " is not a Borealis file format or has not been implemented yet. " ++ filename ++
  str " was not used. Please check the spelling of " ++ file_type ++ str ".".

(** Where an error is: in a record of a file or in a file
    (borealis_exceptions.py:116-121, 155-160, 193-198). *)
Definition error_source (record_name : option pystr) (filename : pystr) : pystr :=
  match record_name with
  | Some n => str "record " ++ n ++ str " of file " ++ filename
  | None => str "file " ++ filename
  end.

(** borealis_exceptions.py:115-129 BorealisFieldMissingError. *)
Definition b_missing_message (filename : pystr) (fields : list pystr) (record_name : option pystr) : pystr :=
  str "The following fields in " ++ error_source record_name filename ++ str " are missing: " ++ set_text fields.

(** borealis_exceptions.py:154-167 BorealisExtraFieldError. *)
Definition b_extra_message (filename : pystr) (fields : list pystr) (record_name : option pystr) : pystr :=
  str "The following fields in " ++ error_source record_name filename ++ str " are not allowed: " ++ set_text fields.

(** borealis_exceptions.py:192-206 BorealisDataFormatTypeError: the fields with the texts of
    their types. *)
Definition b_type_message (filename : pystr) (fields : list (pystr * pystr)) (record_name : option pystr) : pystr :=
  str "In " ++ error_source record_name filename ++ str ", the following parameters are not of their given correct type: " ++
  dict_text quoted fields.

(** borealis_exceptions.py:232-242 BorealisNumberOfRecordsError: the fields with their
    shapes (borealis_utilities.py:379-394). *)
Definition number_message (filename : pystr) (shapes : list (pystr * list Z)) : pystr :=
  str "The number of records in file " ++ filename ++
  str " cannot be determined due to varying shapes of arrays for the unshared parameters. All arrays of the unshared parameters should have the same first dimension size equal to number of records: " ++
  dict_text tuple_text shapes.

(** borealis_exceptions.py:264-275 BorealisConversionTypesError: the table of file types
    (borealis_convert.py:234-237). *)
Definition conversion_message (dmap_filename origin : pystr) (allowed : list (pystr * pystr)) : pystr :=
  str "Records destined to be converted and written to " ++ dmap_filename ++ str " cannot be converted from origin filetype " ++ origin ++
  str " to a dmap filetype because origin filetype does not map to any currently available dmap filetypes: " ++ dict_text quoted allowed.

(** borealis_exceptions.py:293-298 BorealisConvert2IqdatError; [error] is the text of the
    exception inside. *)
Definition iqdat_message (error : pystr) : pystr :=
  str "The file cannot be converted to SDARN DMap iqdat due to the following error: " ++ error.

(** borealis_exceptions.py:316-321 BorealisConvert2RawacfError. *)
Definition rawacf_message (error : pystr) : pystr :=
  str "The file cannot be converted to SDARN DMap rawacf due to the following error: " ++ error.

(** borealis_exceptions.py:344-349 BorealisRestructureError. *)
Definition restructure_message (error : pystr) : pystr :=
  str "The file cannot be restructured due to the  following error: " ++ error.

(** borealis_exceptions.py:372-380 BorealisStructureError. *)
Definition structure_message (error : pystr) : pystr :=
  str "Structural errors found. You may be attempting to use the file as the wrong structure ('site' or 'array' supported). Please check if you are interested in records or arrays." ++
  error.

(** borealis_exceptions.py:398-402 ConvertFileOverWriteError. *)
Definition overwrite_message (filename : pystr) : pystr :=
  str "Writing to " ++ filename ++ str " not permitted while reading the file as source.".

(** borealis_exceptions.py:425-433 BorealisVersionError. *)
Definition version_message (filename file_version : pystr) : pystr :=
  str "Version " ++ file_version ++ str " from the borealis_git_hash is not a recognized Borealis version or has not been implemented yet. " ++
  filename ++ str " was not used.".

(** ** warning_formatting.py *)

(** warning_formatting.py:9-37 standard_warning_format; [category] is the name of the class. *)
Definition standard_warning (message category filename : pystr) (lineno : Z) : pystr :=
  filename ++ str ": " ++ dec lineno ++ str ": " ++ category ++ str ": " ++ message ++ [10].

(** warning_formatting.py:40-67 only_message_warning_format. *)
Definition message_warning (message category filename : pystr) (lineno : Z) : pystr :=
  category ++ str ": " ++ message ++ [10].
End Shown.
