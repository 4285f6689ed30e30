(** C96: what the messages of the exceptions say. *)
From Coq Require Import String ZArith List Bool Lia.
From Verif Require Import Base Bytes BytesProofs SDarnFormats BorealisTime DmapTypes SDarn SDarnUtilSpec SDarnUtilProps NumeralSpec NumeralProofs
  ExceptionTexts ExceptionTextsSpec ExceptionTextsProofs.
Import ListNotations.
Open Scope list_scope.
Open Scope Z_scope.

Ltac found := first [apply mentions_self | apply mentions_right, mentions_self | (apply mentions_left; found)].

(** Every message names the file, the field and the record that it is given, in full;
    except DmapTypeError, see below. *)
Theorem C96_dmap : forall printable filename name element text ty rec n,
  numeral rec n ->
  mentions (empty_message filename) filename /\
  (mentions (char_message printable name rec) (quoted printable name) /\ mentions (char_message printable name rec) n) /\
  (mentions (data_type_message filename name ty rec) filename /\ mentions (data_type_message filename name ty rec) name /\
   mentions (data_type_message filename name ty rec) n) /\
  (mentions (negative_message filename element rec) filename /\ mentions (negative_message filename element rec) element /\
   mentions (negative_message filename element rec) n) /\
  (mentions (zero_message filename element rec) filename /\ mentions (zero_message filename element rec) element /\
   mentions (zero_message filename element rec) n) /\
  (mentions (mismatch_message filename element rec) filename /\ mentions (mismatch_message filename element rec) element /\
   mentions (mismatch_message filename element rec) n) /\
  (mentions (data_message filename text) filename /\ mentions (data_message filename text) text) /\
  (mentions (dmap_type_message filename text rec) text /\ mentions (dmap_type_message filename text rec) n) /\
  (forall c e, mentions (cursor_message c e rec) n).
Proof.
  intros printable filename name element text ty rec n N. assert (E : n = dec rec) by (apply (numeral_unique rec); [exact N|apply decimal_numeral]). subst n.
  unfold empty_message, char_message, data_type_message, negative_message, zero_message, mismatch_message, data_message, dmap_type_message, cursor_message.
  repeat split; intros; found.
Qed.
Print Assumptions C96_dmap.

Theorem C96_borealis : forall printable filename other text fields types name r,
  mentions (b_filetype_message filename text) filename /\ mentions (b_filetype_message filename text) text /\
  (mentions (b_missing_message printable filename fields r) filename /\ mentions (b_extra_message printable filename fields r) filename /\
   mentions (b_type_message printable filename types r) filename) /\
  (r = Some name -> mentions (b_missing_message printable filename fields r) name /\ mentions (b_extra_message printable filename fields r) name /\
   mentions (b_type_message printable filename types r) name) /\
  (forall m x i, mentions (bad_records_message printable filename m x i) filename) /\
  (forall shapes, mentions (number_message printable filename shapes) filename) /\
  (forall allowed, mentions (conversion_message printable filename text allowed) filename /\ mentions (conversion_message printable filename text allowed) text) /\
  (mentions (iqdat_message text) text /\ mentions (rawacf_message text) text /\ mentions (restructure_message text) text /\ mentions (structure_message text) text) /\
  mentions (overwrite_message filename) filename /\
  (mentions (version_message filename text) filename /\ mentions (version_message filename text) text) /\
  (mentions (sd_filetype_message filename other) filename /\ mentions (sd_filetype_message filename other) other).
Proof.
  intros printable filename other text fields types name r.
  assert (EF : mentions (error_source r filename) filename).
  { unfold error_source. destruct r; found. }
  assert (EN : r = Some name -> mentions (error_source r filename) name).
  { intros ->. unfold error_source. found. }
  unfold b_filetype_message, b_missing_message, b_extra_message, b_type_message, bad_records_message, number_message, conversion_message, iqdat_message,
    rawacf_message, restructure_message, structure_message, overwrite_message, version_message, sd_filetype_message.
  repeat split; intros; first [found | (apply mentions_left, mentions_right; auto)].
Qed.
Print Assumptions C96_borealis.

(** Every field that is reported stands in the message, in quotes. *)
Theorem C96_fields : forall printable k, simple_name k ->
  (forall n fs, In k fs -> mentions (sd_missing_message printable n fs) (in_quotes k) /\ mentions (sd_extra_message printable n fs) (in_quotes k)) /\
  (forall n fs f, simple_name f -> In (k, f) fs -> mentions (sd_type_message printable fs n) (in_quotes k ++ str ": " ++ in_quotes f)) /\
  (forall fn fs r, In k fs -> mentions (b_missing_message printable fn fs r) (in_quotes k) /\ mentions (b_extra_message printable fn fs r) (in_quotes k)) /\
  (forall fn fs f r, simple_name f -> In (k, f) fs -> mentions (b_type_message printable fn fs r) (in_quotes k ++ str ": " ++ in_quotes f)) /\
  (forall fn m x i name fs, In (name, fs) m \/ In (name, fs) x -> In k fs ->
     mentions (bad_records_message printable fn m x i) (quoted printable name) /\ mentions (bad_records_message printable fn m x i) (in_quotes k)).
Proof.
  intros printable k K. pose proof (quoted_simple printable k K) as Q.
  assert (SM : forall fs, In k fs -> mentions (set_text printable fs) (in_quotes k)) by (intros fs H; rewrite <- Q; now apply set_mentions).
  assert (DM : forall fs f, simple_name f -> In (k, f) fs -> mentions (dict_text printable (quoted printable) fs) (in_quotes k ++ str ": " ++ in_quotes f)).
  { intros fs f F H. rewrite <- Q, <- (quoted_simple printable f F). now apply (dict_mentions printable (quoted printable)). }
  split; [|split; [|split; [|split]]].
  - intros n fs H. unfold sd_missing_message, sd_extra_message. split; do 3 apply mentions_left; now apply SM.
  - intros n fs f F H. unfold sd_type_message. do 3 apply mentions_left. now apply DM.
  - intros fn fs r H. unfold b_missing_message, b_extra_message. split; do 3 apply mentions_left; now apply SM.
  - intros fn fs f r F H. unfold b_type_message. do 3 apply mentions_left. now apply DM.
  - intros fn m x i name fs H HK. unfold bad_records_message.
    assert (DS : forall d, In (name, fs) d -> mentions (dict_text printable (set_text printable) d) (quoted printable name) /\
                                           mentions (dict_text printable (set_text printable) d) (in_quotes k)).
    { intros d HD. pose proof (dict_mentions printable (set_text printable) d name fs HD) as M. split; (eapply mentions_trans; [exact M|]).
      - apply mentions_right, mentions_self.
      - apply mentions_left, mentions_left. now apply SM. }
    destruct H as [H|H]; destruct (DS _ H) as [D1 D2]; split; first [do 4 apply mentions_left; now apply mentions_right | do 7 apply mentions_left; now apply mentions_right].
Qed.
Print Assumptions C96_fields.

(** The number of the record and the fields can be told from the message, and what is
    wrong with them. *)
Theorem C96_superdarn_told : forall printable,
  (forall n n' fs fs', Forall unicode fs -> Forall unicode fs' ->
     sd_missing_message printable n fs = sd_missing_message printable n' fs' \/ sd_extra_message printable n fs = sd_extra_message printable n' fs' ->
     n = n' /\ fs = fs') /\
  (forall n n' fs fs', Forall (fun p => unicode (fst p) /\ unicode (snd p)) fs -> Forall (fun p => unicode (fst p) /\ unicode (snd p)) fs' ->
     sd_type_message printable fs n = sd_type_message printable fs' n' -> n = n' /\ fs = fs') /\
  (forall n n' fs fs', sd_missing_message printable n fs <> sd_extra_message printable n' fs') /\
  (forall n n' fs fs', sd_missing_message printable n fs <> sd_type_message printable fs' n' /\ sd_extra_message printable n fs <> sd_type_message printable fs' n').
Proof.
  intros printable. split; [|split; [|split]].
  - intros n n' fs fs' H1 H2 [E|E]; [now apply (missing_inj printable)|now apply (extra_inj printable)].
  - intros n n' fs fs'. apply type_inj.
  - apply kinds_differ.
  - apply kinds_differ_type.
Qed.
Print Assumptions C96_superdarn_told.

(** All the bad records of a file with their faults can be told from the message. *)
Theorem C96_bad_records_told : forall printable f m x i m' x' i',
  (forall l, l = m \/ l = m' \/ l = x \/ l = x' -> Forall (fun p => unicode (fst p) /\ Forall unicode (snd p)) l) ->
  (forall l, l = i \/ l = i' -> Forall (fun p => unicode (fst p) /\ Forall (fun p => unicode (fst p) /\ unicode (snd p)) (snd p)) l) ->
  bad_records_message printable f m x i = bad_records_message printable f m' x' i' -> m = m' /\ x = x' /\ i = i'.
Proof.
  intros printable f m x i m' x' i' H1 H2. apply bad_inj; unfold sets_ok, dicts_ok; auto 6.
Qed.
Print Assumptions C96_bad_records_told.

(** The check for missing fields: its message names the record and every missing field,
    and no other set of fields has this message. *)
Theorem C96_missing_reported : forall printable gs opts r n e, Forall dictionary gs -> Forall dictionary opts ->
  missing_field_check gs r n opts = Raise e ->
  exists l, e = SuperDARNFieldMissingError n l /\
    (forall s, numeral n s -> mentions (sd_missing_message printable n l) s) /\
    (forall k, missing gs opts r k -> simple_name k -> mentions (sd_missing_message printable n l) (in_quotes k)) /\
    (Forall unicode l -> forall n' l', Forall unicode l' -> sd_missing_message printable n' l' = sd_missing_message printable n l ->
       n' = n /\ forall k, In k l' -> missing gs opts r k).
Proof.
  intros printable gs opts r n e HG HO H. destruct (C85_missing gs opts r n HG HO) as [_ R]. destruct (R e H) as (l & -> & NE & L).
  exists l. split; [reflexivity|]. split; [|split].
  - intros s S. assert (E : s = dec n) by (apply (numeral_unique n); [exact S|apply decimal_numeral]). subst s. unfold sd_missing_message. found.
  - intros k K KS. apply (C96_fields printable k KS). now apply L.
  - intros U n' l' U' E. apply (missing_inj printable) in E as [-> ->]; auto. split; [reflexivity|]. intros k. apply L.
Qed.
Print Assumptions C96_missing_reported.

(** DmapTypeError is given the file name and does not say it. *)
Theorem C96_type_error_silent : forall filename filename' ty rec, dmap_type_message filename ty rec = dmap_type_message filename' ty rec.
Proof. reflexivity. Qed.
Print Assumptions C96_type_error_silent.

(** DmapCharError shows the field as a tuple. *)
Theorem C96_char_tuple : forall printable k rec, simple_name k -> mentions (char_message printable k rec) (str "field (" ++ in_quotes k ++ str ",) at").
Proof.
  intros printable k rec K. unfold char_message. rewrite (quoted_simple printable k K).
  exists (str "Error: For "), (str " record number " ++ dec rec ++ str " is a string type trying to be written in as a char. DMAP treats char as int8. Please revise this field type").
  rewrite <- !app_assoc. reflexivity.
Qed.
Print Assumptions C96_char_tuple.

(** Not every DMAP error with a file name says it. *)
Theorem C96_every_name_refuted : ~ (forall filename ty rec, mentions (dmap_type_message filename ty rec) filename).
Proof.
  intros H. destruct (H (str "!") (str "int") 0) as (a & b & E).
  assert (I : In 33 (dmap_type_message (str "!") (str "int") 0)) by (rewrite E; apply in_app_iff; right; now left).
  assert (X : existsb (Z.eqb 33) (dmap_type_message (str "!") (str "int") 0) = true) by (apply existsb_exists; exists 33; split; [exact I|reflexivity]).
  vm_compute in X. discriminate X.
Qed.
Print Assumptions C96_every_name_refuted.

(** Of a Borealis message the record and the file cannot always be told. *)
Theorem C96_record_told_refuted : ~ (forall printable f f' r r' fs,
  b_missing_message printable f fs (Some r) = b_missing_message printable f' fs (Some r') -> r = r' /\ f = f').
Proof.
  intros H. destruct (H (fun _ => true) (str "a of file b") (str "b") (str "1") (str "1 of file a") [str "freq"] eq_refl) as [E _]. discriminate E.
Qed.
Print Assumptions C96_record_told_refuted.

(** The two forms of a warning: the place is in the first one only. *)
Theorem C96_warnings : forall message category filename filename' lineno lineno' n, numeral lineno n ->
  mentions (standard_warning message category filename lineno) (filename ++ str ": " ++ n ++ str ": " ++ category ++ str ": " ++ message) /\
  mentions (message_warning message category filename lineno) (category ++ str ": " ++ message) /\
  message_warning message category filename lineno = message_warning message category filename' lineno'.
Proof.
  intros message category filename filename' lineno lineno' n N. assert (E : n = dec lineno) by (apply (numeral_unique lineno); [exact N|apply decimal_numeral]). subst n.
  split; [|split; [|reflexivity]].
  - exists [], [10]. unfold standard_warning. now rewrite <- !app_assoc.
  - exists [], [10]. unfold message_warning. now rewrite <- !app_assoc.
Qed.
Print Assumptions C96_warnings.

(** *** Cases *)

Example C96_case :
  sd_missing_message (fun _ => true) 3 [str "vector.vel.sd"; str "it's"] =
    str "Error: The following fields in record 3 are missing: {'vector.vel.sd', ""it's""}" /\
  sd_type_message (fun _ => true) [(str "stid", str "h")] (-1) =
    str "Error: In record -1, following parameters need to be the data type: {'stid': 'h'}" /\
  char_message (fun _ => true) (str "channel") 2 =
    str "Error: For field ('channel',) at record number 2 is a string type trying to be written in as a char. DMAP treats char as int8. Please revise this field type" /\
  quoted (fun _ => false) [97; 9; 92; 39; 34; 1; 233; 8364; 128512] = str "'a\t\\\'""\x01\xe9\u20ac\U0001f600'" /\
  bad_records_message (fun _ => true) (str "f.hdf5") [(str "1558583991060", [str "freq"])] [] [(str "1558583991822", [(str "rx_sample_rate", str "<class 'numpy.float64'>")])] =
    str "f.hdf5 contains invalid records." ++ [10; 9] ++ str "Records with missing fields: {'1558583991060': {'freq'}}" ++ [10; 9] ++
    str "Records with extra fields: {}" ++ [10; 9] ++
    str "Records with fields of incorrect types: {'1558583991822': {'rx_sample_rate': ""<class 'numpy.float64'>""}}" /\
  number_message (fun _ => true) (str "f") [(str "num_beams", [2]); (str "freq", [])] =
    str "The number of records in file f cannot be determined due to varying shapes of arrays for the unshared parameters. All arrays of the unshared parameters should have the same first dimension size equal to number of records: {'num_beams': (2,), 'freq': ()}".
Proof. vm_compute. repeat split; reflexivity. Qed.

Example C96_missing_case :
  missing_field_check [[(str "a", Fh); (str "b", Fh)]] [a_field (str "a") Fh] 7 [] = Raise (SuperDARNFieldMissingError 7 [str "b"]) /\
  sd_missing_message (fun _ => true) 7 [str "b"] = str "Error: The following fields in record 7 are missing: {'b'}" /\
  simple_name (str "b") /\ numeral 7 (str "7") /\ Forall unicode [str "b"; [233; 128512]].
Proof.
  split; [vm_compute; reflexivity|]. split; [vm_compute; reflexivity|]. split; [repeat constructor; discriminate || (intros C; discriminate C)|].
  split; [exact (decimal_numeral 7)|]. repeat constructor; discriminate || reflexivity.
Qed.
