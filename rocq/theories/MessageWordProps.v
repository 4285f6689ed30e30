(** C98: the wording of the messages. *)
From Coq Require Import String ZArith List Bool Lia.
From Verif Require Import Base Bytes BytesProofs SDarnFormats BorealisTime NumeralSpec NumeralProofs ExceptionTexts ExceptionTextsSpec ExceptionTextsProofs
  MessageWordSpec MessageWordProofs.
Import ListNotations.
Open Scope list_scope.
Open Scope Z_scope.

Ltac number H := match type of H with numeral ?z ?n =>
  let E := fresh in assert (E : n = dec z) by (apply (numeral_unique z); [exact H|apply decimal_numeral]); clear H; subst n; generalize (dec z) end.

Ltac word := apply run_formats; reflexivity.

(** Texts, sets, dictionaries and shapes are shown as literals of Python that stand for
    them; a literal stands for one text only. *)
Theorem C98_literals : forall printable,
  (forall s, unicode s -> text_literal s (quoted printable s)) /\
  (forall l, Forall unicode l -> set_literal l (set_text printable l)) /\
  (forall d, Forall (fun p => unicode (fst p) /\ unicode (snd p)) d -> dict_literal text_literal d (dict_text printable (quoted printable) d)) /\
  (forall d, Forall (fun p => unicode (fst p) /\ Forall unicode (snd p)) d -> dict_literal set_literal d (dict_text printable (set_text printable) d)) /\
  (forall d, Forall (fun p => unicode (fst p) /\ Forall (fun p => unicode (fst p) /\ unicode (snd p)) (snd p)) d ->
     dict_literal (dict_literal text_literal) d (dict_text printable (dict_text printable (quoted printable)) d)) /\
  (forall l, tuple_literal l (tuple_text l)) /\
  (forall d, Forall (fun p => unicode (fst p)) d -> dict_literal tuple_literal d (dict_text printable tuple_text d)).
Proof.
  intros printable. pose proof (dict_text_literal printable unicode text_literal (quoted printable) (quoted_literal printable)) as D.
  split; [apply quoted_literal|]. split; [apply set_text_literal|]. split; [exact D|].
  split; [exact (dict_text_literal printable _ set_literal (set_text printable) (set_text_literal printable))|].
  split; [exact (dict_text_literal printable _ (dict_literal text_literal) _ D)|].
  split; [exact tuple_text_literal|].
  intros d H. apply (dict_text_literal printable (fun _ => True) tuple_literal tuple_text (fun x _ => tuple_text_literal x)).
  eapply Forall_impl; [|exact H]. auto.
Qed.
Print Assumptions C98_literals.

Theorem C98_literal_once : forall s s' t, text_literal s t -> text_literal s' t -> s = s'.
Proof. exact text_literal_unique. Qed.
Print Assumptions C98_literal_once.

(** A text is shown in printable characters only, so in one line; double quotes
    are used exactly for texts with a single and without a double quote. *)
Theorem C98_shown : forall printable s,
  Forall (shown_as_is printable) (quoted printable s) /\
  ((exists t, quoted printable s = 34 :: t) <-> In 39 s /\ ~ In 34 s).
Proof. intros printable s. exact (conj (quoted_shown printable s) (quote_double printable s)). Qed.
Print Assumptions C98_shown.

(** dmap_exceptions.py. *)
Theorem C98_dmap : forall printable filename name element text c e ty rec sc se sty sr, unicode name ->
  numeral c sc -> numeral e se -> numeral ty sty -> numeral rec sr ->
  formats [(str "cursor", sc); (str "expected", se); (str "rec", sr)]
    (str "Error: Cursor is at {cursor} andit needs to be {expected}. Failed at record {rec}") (cursor_message c e rec) /\
  formats [([], filename)] (str "Error: {} is empty or please check this is the correct file") (empty_message filename) /\
  (exists field, text_literal name field /\
   formats [(str "field", str "(" ++ field ++ str ",)"); (str "rec_num", sr)]
    (str "Error: For field {field} at record number {rec_num} is a string type trying to be written in as a char. DMAP treats char as int8. Please revise this field type")
    (char_message printable name rec)) /\
  formats [(str "name", name); (str "data_type", sty); (str "filename", filename); (str "rec", sr)]
    (str "Error: Dmap data type {data_type} for {name} at record {rec} does not exist in dmap data types. Filename: {filename}")
    (data_type_message filename name ty rec) /\
  formats [(str "filename", filename); (str "element", element); (str "rec", sr)]
    (str "Error: {filename} contains an {element} < 0 at record {rec}.") (negative_message filename element rec) /\
  formats [(str "filename", filename); (str "element", element); (str "rec", sr)]
    (str "Error: {filename} contains an {element} == 0 at record {rec}.") (zero_message filename element rec) /\
  formats [(str "filename", filename); (str "element", element); (str "rec", sr)]
    (str "Error: {filename} contains an {element} at record = {rec}.") (mismatch_message filename element rec) /\
  formats [(str "filename", filename); (str "msg", text)]
    (str " The following error for {filename} was raised: {msg}") (data_message filename text) /\
  formats [(str "data_type", text); (str "filename", filename); (str "rec", sr)]
    (str "Error: {data_type} does not match the DMAP data type structures: DmapScalar, DmapArray. Please make sure you have the correct Data Structure. Failed at record {rec}")
    (dmap_type_message filename text rec) /\
  formats [] (str "Error: Filename is required") required_message.
Proof.
  intros printable filename name element text c e ty rec sc se sty sr U N1 N2 N3 N4.
  pose proof (quoted_literal printable name U) as Q.
  unfold cursor_message, empty_message, char_message, data_type_message, negative_message, zero_message, mismatch_message, data_message, dmap_type_message, required_message.
  revert Q. number N1. number N2. number N3. number N4. generalize (quoted printable name). intros q n4 n3 n2 n1 Q.
  split; [word|]. split; [word|].
  split.
  { exists q. split; [exact Q|]. change (str "Error: For field (") with (str "Error: For field " ++ str "("). rewrite <- app_assoc.
    match goal with |- formats _ _ (?a ++ ?b ++ q ++ ?c ++ ?d) => change c with (str ",)" ++ str " at record number "); set (rest := d) end.
    rewrite <- (app_assoc (str ",)")), (app_assoc q), (app_assoc (str "(")). subst rest. word. }
  repeat (split; [word|]). word.
Qed.
Print Assumptions C98_dmap.

(** superdarn_exceptions.py. *)
Theorem C98_superdarn : forall printable filename file_type rec sr fields types, numeral rec sr ->
  Forall unicode fields -> Forall (fun p => unicode (fst p) /\ unicode (snd p)) types ->
  formats [(str "file_type", file_type); (str "filename", filename)]
    (str "Error: {file_type} is not a SuperDARN file format type.{filename} was not created. Please check the spelling of the file type is correct or is implemented.")
    (sd_filetype_message filename file_type) /\
  (exists sf, set_literal fields sf /\
   formats [(str "num", sr); (str "fields", sf)] (str "Error: The following fields in record {num} are missing: {fields}") (sd_missing_message printable rec fields)) /\
  (exists sf, set_literal fields sf /\
   formats [(str "num", sr); (str "fields", sf)] (str "Error: The following fields in record {num} are not allowed: {fields}") (sd_extra_message printable rec fields)) /\
  (exists st, dict_literal text_literal types st /\
   formats [(str "num", sr); (str "incorrect", st)] (str "Error: In record {num}, following parameters need to be the data type: {incorrect}")
     (sd_type_message printable types rec)).
Proof.
  intros printable filename file_type rec sr fields types N HF HT.
  pose proof (set_text_literal printable fields HF) as LF.
  pose proof (dict_text_literal printable unicode text_literal (quoted printable) (quoted_literal printable) types HT) as LT.
  unfold sd_filetype_message, sd_missing_message, sd_extra_message, sd_type_message.
  revert LF LT. number N. generalize (set_text printable fields), (dict_text printable (quoted printable) types). intros sf st n LF LT.
  split; [word|].
  split; [exists sf; split; [exact LF|]; word|].
  split; [exists sf; split; [exact LF|]; word|].
  exists st; split; [exact LT|]; word.
Qed.
Print Assumptions C98_superdarn.

(** Where an error is. *)
Definition source (record_name : option pystr) (filename s : pystr) : Prop :=
  match record_name with
  | Some n => formats [(str "0", n); (str "1", filename)] (str "record {0} of file {1}") s
  | None => formats [(str "0", filename)] (str "file {0}") s
  end.

(** borealis_exceptions.py: errors of fields. *)
Theorem C98_borealis_fields : forall printable filename record_name fields types shapes,
  Forall unicode fields -> Forall (fun p => unicode (fst p) /\ unicode (snd p)) types -> Forall (fun p => unicode (fst p)) shapes ->
  (exists s sf, source record_name filename s /\ set_literal fields sf /\
   formats [(str "source", s); (str "fields", sf)] (str "The following fields in {source} are missing: {fields}")
     (b_missing_message printable filename fields record_name)) /\
  (exists s sf, source record_name filename s /\ set_literal fields sf /\
   formats [(str "source", s); (str "fields", sf)] (str "The following fields in {source} are not allowed: {fields}")
     (b_extra_message printable filename fields record_name)) /\
  (exists s st, source record_name filename s /\ dict_literal text_literal types st /\
   formats [(str "source", s); (str "incorrect", st)] (str "In {source}, the following parameters are not of their given correct type: {incorrect}")
     (b_type_message printable filename types record_name)) /\
  (exists sd, dict_literal tuple_literal shapes sd /\
   formats [(str "filename", filename); (str "array_types", sd)]
     (str "The number of records in file {filename} cannot be determined due to varying shapes of arrays for the unshared parameters. All arrays of the unshared parameters should have the same first dimension size equal to number of records: {array_types}")
     (number_message printable filename shapes)).
Proof.
  intros printable filename record_name fields types shapes HF HT HS.
  destruct (C98_literals printable) as (_ & L1 & L2 & _ & _ & _ & L3). specialize (L1 fields HF). specialize (L2 types HT). specialize (L3 shapes HS).
  assert (S : source record_name filename (error_source record_name filename)).
  { unfold source, error_source. destruct record_name; word. }
  unfold b_missing_message, b_extra_message, b_type_message, number_message. revert S L1 L2 L3.
  generalize (error_source record_name filename), (set_text printable fields), (dict_text printable (quoted printable) types), (dict_text printable tuple_text shapes).
  intros s sf st sd S L1 L2 L3.
  split; [exists s, sf|split; [exists s, sf|split; [exists s, st|exists sd]]]; repeat (split; [assumption|]); word.
Qed.
Print Assumptions C98_borealis_fields.

(** The bad records of a file, in four lines. *)
Theorem C98_bad_records : forall printable filename missing extra incorrect,
  Forall (fun p => unicode (fst p) /\ Forall unicode (snd p)) missing -> Forall (fun p => unicode (fst p) /\ Forall unicode (snd p)) extra ->
  Forall (fun p => unicode (fst p) /\ Forall (fun p => unicode (fst p) /\ unicode (snd p)) (snd p)) incorrect ->
  exists m x i, dict_literal set_literal missing m /\ dict_literal set_literal extra x /\ dict_literal (dict_literal text_literal) incorrect i /\
    formats [(str "filename", filename); (str "missing_dict", m); (str "extra_dict", x); (str "incorrect_dict", i)]
      (str "{filename} contains invalid records." ++ [10] ++
       [9] ++ str "Records with missing fields: {missing_dict}" ++ [10] ++
       [9] ++ str "Records with extra fields: {extra_dict}" ++ [10] ++
       [9] ++ str "Records with fields of incorrect types: {incorrect_dict}")
      (bad_records_message printable filename missing extra incorrect).
Proof.
  intros printable filename missing extra incorrect HM HX HI. destruct (C98_literals printable) as (_ & _ & _ & L1 & L2 & _ & _).
  pose proof (L1 missing HM) as M. pose proof (L1 extra HX) as X. pose proof (L2 incorrect HI) as I.
  unfold bad_records_message. revert M X I.
  generalize (dict_text printable (set_text printable) missing), (dict_text printable (set_text printable) extra),
    (dict_text printable (dict_text printable (quoted printable)) incorrect). intros m x i M X I. exists m, x, i.
  repeat (split; [assumption|]). word.
Qed.
Print Assumptions C98_bad_records.

(** borealis_exceptions.py: the other errors. *)
Theorem C98_borealis : forall printable filename text allowed, Forall (fun p => unicode (fst p) /\ unicode (snd p)) allowed ->
  formats [(str "file_type", text); (str "filename", filename)]
    (str "{file_type} is not a Borealis file format or has not been implemented yet. {filename} was not used. Please check the spelling of {file_type}.")
    (b_filetype_message filename text) /\
  (exists sa, dict_literal text_literal allowed sa /\
   formats [(str "dmap_filename", filename); (str "origin_filetype", text); (str "allowed_types", sa)]
    (str "Records destined to be converted and written to {dmap_filename} cannot be converted from origin filetype {origin_filetype} to a dmap filetype because origin filetype does not map to any currently available dmap filetypes: {allowed_types}")
    (conversion_message printable filename text allowed)) /\
  formats [(str "error_str", text)] (str "The file cannot be converted to SDARN DMap iqdat due to the following error: {error_str}") (iqdat_message text) /\
  formats [(str "error_str", text)] (str "The file cannot be converted to SDARN DMap rawacf due to the following error: {error_str}") (rawacf_message text) /\
  formats [(str "error_str", text)] (str "The file cannot be restructured due to the  following error: {error_str}") (restructure_message text) /\
  formats [(str "error_str", text)]
    (str "Structural errors found. You may be attempting to use the file as the wrong structure ('site' or 'array' supported). Please check if you are interested in records or arrays.{error_str}")
    (structure_message text) /\
  formats [(str "filename", filename)] (str "Writing to {filename} not permitted while reading the file as source.") (overwrite_message filename) /\
  formats [(str "file_version", text); (str "filename", filename)]
    (str "Version {file_version} from the borealis_git_hash is not a recognized Borealis version or has not been implemented yet. {filename} was not used.")
    (version_message filename text).
Proof.
  intros printable filename text allowed HA.
  pose proof (dict_text_literal printable unicode text_literal (quoted printable) (quoted_literal printable) allowed HA) as LA.
  unfold b_filetype_message, conversion_message, iqdat_message, rawacf_message, restructure_message, structure_message, overwrite_message, version_message.
  revert LA. generalize (dict_text printable (quoted printable) allowed). intros sa LA.
  split; [word|].
  split; [exists sa; split; [exact LA|]; word|].
  repeat (split; [word|]). word.
Qed.
Print Assumptions C98_borealis.

(** warning_formatting.py. *)
Theorem C98_warnings : forall message category filename lineno n, numeral lineno n ->
  formats [(str "filename", filename); (str "linenum", n); (str "category", category); (str "message", message)]
    (str "{filename}: {linenum}: {category}: {message}" ++ [10]) (standard_warning message category filename lineno) /\
  formats [(str "filename", filename); (str "linenum", n); (str "category", category); (str "message", message)]
    (str "{category}: {message}" ++ [10]) (message_warning message category filename lineno).
Proof.
  intros message category filename lineno n N. unfold standard_warning, message_warning. number N. intros n.
  split; word.
Qed.
Print Assumptions C98_warnings.

(** A format text and its values make one message. *)
Theorem C98_formats_once : forall env t m m', NoDup (map fst env) -> formats env t m -> formats env t m' -> m = m'.
Proof. exact formats_unique. Qed.
Print Assumptions C98_formats_once.

(** *** Cases *)

Example C98_case :
  unicode [97; 10; 39; 233; 128512] /\ quoted (fun _ => false) [97; 10; 39; 233; 128512] = str """a\n'\xe9\U0001f600""" /\
  text_literal [97; 10; 39; 233; 128512] (str """a\n'\xe9\U0001f600""") /\
  formats [(str "a", str "{b}"); (str "b", str "2")] (str "{b}, {a}, {b}") (str "2, {b}, 2") /\
  numeral 7 (str "7") /\
  set_literal [] (str "set()") /\ tuple_literal [3] (str "(3,)") /\ tuple_literal [3; 4] (str "(3, 4)") /\
  source (Some (str "1558583991060")) (str "f.hdf5") (str "record 1558583991060 of file f.hdf5").
Proof.
  assert (U : unicode [97; 10; 39; 233; 128512]) by (repeat constructor; discriminate || reflexivity).
  split; [exact U|]. split; [reflexivity|]. split; [exact (quoted_literal (fun _ => false) _ U)|].
  split; [word|]. split; [exact (decimal_numeral 7)|]. split; [now left|].
  split; [exact (tuple_text_literal [3])|]. split; [exact (tuple_text_literal [3; 4])|]. word.
Qed.
