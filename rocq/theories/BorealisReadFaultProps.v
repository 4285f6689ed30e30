(** Which error reading a Borealis file raises (C88). *)
From Coq Require Import String ZArith List Bool.
From Verif Require Import Base BytesProofs SDarnFormats BorealisTypes BorealisFormats BorealisChecks BorealisArrays BorealisFile
  BorealisSpec BorealisFileSpec BorealisCases DmapFileProofs BorealisFileProps BorealisAppendProps DmapWriteFaultSpec BorealisRefuseSpec
  BorealisReadFaultSpec BorealisReadFaultProofs.
Import ListNotations.
Open Scope list_scope.
Open Scope Z_scope.

(** ** C88 Which error reading a Borealis file raises, and what leaves a reader *)

(** Any file, read as a site file: the records are those the file shows, by name, after
    the look at the phase offsets, all of the format of the version of the first member;
    or the error is that of the first fault. *)
Theorem C88_site : forall fs name f t, holds fs name f -> file_known f -> has_structures t ->
  match site_read fs name (type_name t) with
  | Ok rd => sr_type rd = t /\ (exists h rs, first_hash f h /\ hash_version h (sr_version rd) /\ supported (sr_version rd) (sr_gen rd) /\
      records_shown f rs /\ records_looked rs (sr_records rd)) /\
      (forall n r, In (n, r) (sr_records rd) -> site_record_ok (format_class (sr_gen rd) t) r)
  | Raise e => site_fault t f e
  end.
Proof. exact site_outcome. Qed.
Print Assumptions C88_site.

(** The same as an array file. *)
Theorem C88_array : forall fs name f t, holds fs name f -> file_known f -> has_structures t ->
  match array_read fs name (type_name t) with
  | Ok rd => ar_type rd = t /\ (exists h a, root_hash f h /\ hash_version h (ar_version rd) /\ supported (ar_version rd) (ar_gen rd) /\
      arrays_shown f a /\ arrays_back a (ar_arrays rd)) /\ arrays_ok (format_class (ar_gen rd) t) (ar_arrays rd)
  | Raise e => array_fault t f e
  end.
Proof. exact array_outcome. Qed.
Print Assumptions C88_array.

(** Without a structure: the error is that of the file as an array file, unless this says
    that the structure is another; then it is that of the file as a site file. *)
Theorem C88_read : forall fs name f t, holds fs name f -> file_known f -> has_structures t ->
  match borealis_read fs name (type_name t) None with
  | Ok (ArrayReader rd) => arrays_ok (format_class (ar_gen rd) t) (ar_arrays rd)
  | Ok (SiteReader rd) => (exists e, structure_error e /\ array_fault t f e) /\
      forall n r, In (n, r) (sr_records rd) -> site_record_ok (format_class (sr_gen rd) t) r
  | Raise e => (array_fault t f e /\ ~ structure_error e) \/ ((exists e', structure_error e' /\ array_fault t f e') /\ site_fault t f e)
  end.
Proof. exact read_outcome. Qed.
Print Assumptions C88_read.

(** What is shown has no fault. *)
Theorem C88_shown : forall d a v e, (dset_shows d v -> ~ dset_fault d e) /\ (attr_shows a v -> ~ attr_fault a e).
Proof. intros d a v e. split; [apply shown_faultless|apply shown_decoded]. Qed.
Print Assumptions C88_shown.

(** *** Cases *)

Definition in_fs (f : hfile) : hfs := h5_close empty_fs (str "f") f.
Definition good_file : hfile := two_file.
Definition first_name : pystr := str "1558583991060".
Definition second_name : pystr := str "1558583991822".

(** [good_file] with a change in one of its groups. *)
Definition changed (n : pystr) (c : dict hdset -> dict hattr -> hitem) : hfile :=
  match dict_get (h_items good_file) n with
  | Some (HGroup ds ats) => mk_hfile (dict_set (h_items good_file) n (c ds ats)) (h_attrs good_file)
  | _ => good_file
  end.
(** A dataset without dimensions in the second record; texts whose size is not a multiple
    of 24 bytes; an attribute that is not UTF-8, and one that is no field; phase offsets in
    a record without pulses and phase offsets that are words; a dataset among the records;
    a hash that is not UTF-8 and one that is an empty number; nothing at all; a field too
    many. *)
Definition pointless := changed second_name (fun ds ats => HGroup (ds ++ [(str "x", mk_hdset BF32 [] [CZ 1] None)]) ats).
Definition ragged := changed first_name (fun ds ats => HGroup (ds ++ [(str "x", mk_hdset BU8 [40%nat] (repeat (CZ 65) 40) (Some 6%nat))]) ats).
Definition mangled := changed second_name (fun ds ats => HGroup ds (ats ++ [(str "y", HBytes [255])])).
Definition titled := changed second_name (fun ds ats => HGroup ds (ats ++ [(str "TITLE", HBytes [255])])).
Definition no_pulses := changed second_name (fun ds ats => HGroup (dict_pop ds (str "pulses") ++ [(str "pulse_phase_offset", mk_hdset BF32 [2%nat] [CZ 0; CZ 0] None)]) ats).
Definition wordy := changed second_name (fun ds ats => HGroup ds (ats ++ [(str "pulse_phase_offset", HStr (str "none"))])).
Definition intruder := mk_hfile (h_items good_file ++ [(str "2", HDset (mk_hdset BF32 [1%nat] [CZ 1] None) [])]) [].
Definition hash_mangled := changed first_name (fun ds ats => HGroup ds (dict_set ats (str "borealis_git_hash") (HBytes [255]))).
Definition hash_number := changed first_name (fun ds ats => HGroup ds (dict_set ats (str "borealis_git_hash") (HEmpty BF32))).
Definition empty_file := mk_hfile [] [].
Definition surplus := changed second_name (fun ds ats => HGroup ds (ats ++ [(str "y", HEmpty BBytes)])).

Definition site_out (f : hfile) : res unit := rlet _ := site_read (in_fs f) (str "f") (str "rawacf") in Ok tt.
Definition array_out (f : hfile) : res unit := rlet _ := array_read (in_fs f) (str "f") (str "rawacf") in Ok tt.

Definition site_files : list hfile :=
  [good_file; pointless; ragged; mangled; titled; no_pulses; wordy; intruder; hash_mangled; hash_number; empty_file; surplus].
Example C88_site_case : has_structures BRawacf /\ (forall f, In f site_files -> file_known f) /\
  map site_out site_files =
  [Ok tt; Raise ValueError; Raise ValueError; Raise UnicodeDecodeError; Ok tt; Raise KeyError; Raise AttributeError;
   Raise AttributeError; Raise UnicodeDecodeError; Raise AttributeError; Raise BorealisStructureError;
   Raise (BorealisBadRecordsError [] [(second_name, [str "y"])] [])].
Proof.
  assert (K : forallb file_knownb site_files = true) by (vm_compute; reflexivity).
  split; [discriminate|]. split; [|vm_compute; reflexivity].
  intros f HF. apply file_knownb_ok. rewrite forallb_forall in K. exact (K f HF).
Qed.

(** The array file of [two]: with a group; with a dataset without dimensions; with an
    attribute that is not UTF-8; with short phase offsets where num_sequences is a
    number, a word, not there; without a hash. *)
Definition good_arrays : hfile := match two_arrays_fs (str "f") with Some (Hdf f) => f | _ => empty_file end.
Definition plus (l : dict hitem) : hfile := mk_hfile (h_items good_arrays ++ l) (h_attrs good_arrays).
Definition plus_attr (l : dict hattr) : hfile := mk_hfile (h_items good_arrays) (h_attrs good_arrays ++ l).
Definition short_offsets : pystr * hitem := (str "pulse_phase_offset", HDset (mk_hdset BI64 [2%nat] [CZ 0; CZ 0] None) []).
Definition sequences (a : dict hattr) : hfile :=
  mk_hfile (dict_pop (h_items good_arrays) (str "num_sequences") ++ [short_offsets]) (h_attrs good_arrays ++ a).
Definition array_files : list hfile :=
  [good_arrays; plus [(str "g", HGroup [] [])]; plus [(str "x", HDset (mk_hdset BF32 [] [CZ 1] None) [])]; plus_attr [(str "y", HBytes [255])];
   sequences [(str "num_sequences", HEmpty BI64)]; sequences [(str "num_sequences", HStr (str "two"))]; sequences [];
   plus [short_offsets]; mk_hfile (h_items good_arrays) []; good_file].
Example C88_array_case : (forall f, In f array_files -> file_known f) /\
  map array_out array_files =
  [Ok tt; Raise TypeError; Raise ValueError; Raise UnicodeDecodeError; Raise IndexError; Raise AttributeError; Raise KeyError;
   Raise (BorealisExtraFieldError [str "pulse_phase_offset"]); Raise BorealisStructureError; Raise BorealisStructureError].
Proof.
  assert (K : forallb file_knownb array_files = true) by (vm_compute; reflexivity).
  split; [|vm_compute; reflexivity].
  intros f HF. apply file_knownb_ok. rewrite forallb_forall in K. exact (K f HF).
Qed.

(** A dataset of two texts of two characters. *)
Definition two_texts : hdset := mk_hdset BU8 [16%nat] (map CZ [65;0;0;0; 66;0;0;0; 172;32;0;0; 0;0;0;0]) (Some 2%nat).
Example C88_texts_case : dset_known two_texts /\ read_dset two_texts = Ok (BArr BNpStr [2%nat] [CS [65; 66]; CS [8364]]).
Proof. split; [apply dset_knownb_ok; reflexivity|vm_compute; reflexivity]. Qed.
