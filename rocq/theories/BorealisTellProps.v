(** C109: the fields of Borealis data tell structure, generation and type, except
    that antennas_iq and bfiq of version 0.7 cannot be told apart. *)
From Coq Require Import String ZArith List Bool Lia.
From Verif Require Import Base SDarnFormats BorealisTypes BorealisFormats BorealisChecks BorealisSpec BorealisCases BorealisFile BorealisFileSpec
  BorealisReadFaultSpec BorealisArrays BorealisTime BorealisArrayProps BorealisFileProps BorealisReadFaultProofs BorealisTellProofs BorealisTellIqProofs.
Import ListNotations.
Open Scope list_scope.

(** ** Cases *)

(** A record of version 0.7 with the fields of antennas_iq; its arrays are empty. *)
Definition iq7_record : brecord :=
  map (fun p => (fst p, match snd p with BStr => BText (if str_eqb (fst p) (str "borealis_git_hash") then str "v0.7" else [])
                        | ty => BScalar ty (CZ 0) end))
    (filter (fun p => negb (str_mem (fst p) [str "num_beams"; str "num_blanked_samples"])) (fm_single (format_class G7 AntennasIq))) ++
  map (fun p => (fst p, BArr (snd p) [0%nat] [])) (fm_array (format_class G7 AntennasIq)).
Definition iq7_records : brecords := [(str "1558583991060", iq7_record)].

(** Accepted as either type. *)
Example C109_case_iq7 : check_site_records (format_class G7 AntennasIq) iq7_records = Ok tt /\
  check_site_records (format_class G7 Bfiq) iq7_records = Ok tt.
Proof. split; vm_compute; reflexivity. Qed.

(** The file of it, written as antennas_iq. *)
Definition iq7_fs : hfs := fst (site_write h5py_filters empty_fs (str "f") (DRecords iq7_records) (str "antennas_iq") None).
Definition iq7_file : hfile := match iq7_fs (str "f") with Some (Hdf f) => f | _ => mk_hfile [] [] end.
Lemma iq7_holds : holds iq7_fs (str "f") iq7_file.
Proof. unfold holds. vm_compute. reflexivity. Qed.
Lemma iq7_known : file_known iq7_file.
Proof. apply file_knownb_ok. vm_compute. reflexivity. Qed.
Lemma iq7_read : match site_read iq7_fs (str "f") (str "antennas_iq") with Ok rd => sr_gen rd = G7 /\ keys (sr_records rd) = [str "1558583991060"] | Raise _ => False end.
Proof. vm_compute. split; reflexivity. Qed.

(** Arrays of version 0.7 with the fields of antennas_iq, for one record. *)
Definition iq7_arrays : brecord :=
  map (fun p => (fst p, if str_mem (fst p) (fm_shared (format_class G7 AntennasIq)) then
                          match snd p with BStr => BText (if str_eqb (fst p) (str "borealis_git_hash") then str "v0.7" else [])
                          | ty => BScalar ty (CZ 0) end
                        else BArr (match snd p with BStr => BNpStr | ty => ty end) [1%nat] [match snd p with BStr => CS [] | _ => CZ 0 end]))
    (fm_single (format_class G7 AntennasIq)) ++
  map (fun p => (fst p, BArr (snd p) [1%nat; 0%nat] []))
    (filter (fun p => negb (str_mem (fst p) [str "data_dimensions"; str "correlation_dimensions"])) (fm_array (format_class G7 AntennasIq))).
Definition iq7_array_fs : hfs := fst (array_write h5py_filters empty_fs (str "f") (DArrays iq7_arrays) (str "antennas_iq") None).
Definition iq7_array_file : hfile := match iq7_array_fs (str "f") with Some (Hdf f) => f | _ => mk_hfile [] [] end.
Lemma iq7_array_holds : holds iq7_array_fs (str "f") iq7_array_file.
Proof. unfold holds. vm_compute. reflexivity. Qed.
Lemma iq7_array_known : file_known iq7_array_file.
Proof. apply file_knownb_ok. vm_compute. reflexivity. Qed.
Lemma iq7_array_read : match array_read iq7_array_fs (str "f") (str "antennas_iq") with Ok rd => ar_gen rd = G7 | Raise _ => False end.
Proof. vm_compute. reflexivity. Qed.

(** The cases above meet the hypotheses of the theorems below: [iq7_record] and the
    records of C36 are good records, [iq7_fs] and [iq7_array_fs] hold files that can be read. *)
Example C109_case : file_known iq7_file /\ file_known iq7_array_file /\ holds iq7_fs (str "f") iq7_file /\ holds iq7_array_fs (str "f") iq7_array_file.
Proof. exact (conj iq7_known (conj iq7_array_known (conj iq7_holds iq7_array_holds))). Qed.

(** ** Records *)

(** A good site record has one generation, and one type unless it is of generation
    0.7 and its types are antennas_iq and bfiq. *)
Theorem C109_site : forall g t g' t' r, has_structures t -> has_structures t' ->
  site_record_ok (format_class g t) r -> site_record_ok (format_class g' t') r ->
  g = g' /\ (t = t' \/ (g = G7 /\ t <> BRawacf /\ t' <> BRawacf)).
Proof. exact site_told. Qed.
Print Assumptions C109_site.

(** The same for arrays. *)
Theorem C109_arrays : forall g t g' t' a, has_structures t -> has_structures t' ->
  arrays_ok (format_class g t) a -> arrays_ok (format_class g' t') a ->
  g = g' /\ (t = t' \/ (g = G7 /\ t <> BRawacf /\ t' <> BRawacf)).
Proof. exact array_told. Qed.
Print Assumptions C109_arrays.

(** No dictionary is a good site record and a good dictionary of arrays. *)
Theorem C109_structure : forall g t g' t' r, has_structures t -> has_structures t' ->
  site_record_ok (format_class g t) r -> ~ arrays_ok (format_class g' t') r.
Proof. exact structure_told. Qed.
Print Assumptions C109_structure.

(** In version 0.7 what is good as antennas_iq is good as bfiq and the other way
    round. *)
Theorem C109_iq : forall r,
  (site_record_ok (format_class G7 AntennasIq) r <-> site_record_ok (format_class G7 Bfiq) r) /\
  (arrays_ok (format_class G7 AntennasIq) r <-> arrays_ok (format_class G7 Bfiq) r).
Proof.
  intros r. split; split.
  - apply site_iq; [now left|now right].
  - apply site_iq; [now right|now left].
  - apply array_iq; [now left|now right].
  - apply array_iq; [now right|now left].
Qed.
Print Assumptions C109_iq.

(** ** Files *)

(** A file that can be read as site file of two types gives the same records, and
    is a file of version 0.7 read as antennas_iq and bfiq if the types differ. *)
Theorem C109_site_file : forall fs name f t t' rd rd', holds fs name f -> file_known f -> has_structures t -> has_structures t' ->
  site_read fs name (type_name t) = Ok rd -> site_read fs name (type_name t') = Ok rd' ->
  sr_records rd' = sr_records rd /\ sr_gen rd' = sr_gen rd /\ (t = t' \/ (sr_gen rd = G7 /\ t <> BRawacf /\ t' <> BRawacf)).
Proof. exact site_files. Qed.
Print Assumptions C109_site_file.

Theorem C109_array_file : forall fs name f t t' rd rd', holds fs name f -> file_known f -> has_structures t -> has_structures t' ->
  array_read fs name (type_name t) = Ok rd -> array_read fs name (type_name t') = Ok rd' ->
  ar_arrays rd' = ar_arrays rd /\ ar_gen rd' = ar_gen rd /\ (t = t' \/ (ar_gen rd = G7 /\ t <> BRawacf /\ t' <> BRawacf)).
Proof. exact array_files. Qed.
Print Assumptions C109_array_file.

(** No file can be read as site file and as array file. *)
Theorem C109_structure_file : forall fs name f t t' rd rd', holds fs name f -> file_known f -> has_structures t -> has_structures t' ->
  site_read fs name (type_name t) = Ok rd -> array_read fs name (type_name t') <> Ok rd'.
Proof. exact structure_files. Qed.
Print Assumptions C109_structure_file.

(** Every antennas_iq file of version 0.7 can be read as bfiq, and every bfiq file as
    antennas_iq, with the same result. *)
Theorem C109_iq_site_file : forall fs name f t t' rd, holds fs name f -> file_known f ->
  t = AntennasIq \/ t = Bfiq -> t' = AntennasIq \/ t' = Bfiq -> site_read fs name (type_name t) = Ok rd -> sr_gen rd = G7 ->
  exists rd', site_read fs name (type_name t') = Ok rd' /\ sr_type rd' = t' /\ sr_records rd' = sr_records rd.
Proof. exact site_files_iq. Qed.
Print Assumptions C109_iq_site_file.

Theorem C109_iq_array_file : forall fs name f t t' rd, holds fs name f -> file_known f ->
  t = AntennasIq \/ t = Bfiq -> t' = AntennasIq \/ t' = Bfiq -> array_read fs name (type_name t) = Ok rd -> ar_gen rd = G7 ->
  exists rd', array_read fs name (type_name t') = Ok rd' /\ BorealisFile.ar_type rd' = t' /\ ar_arrays rd' = ar_arrays rd.
Proof. exact array_files_iq. Qed.
Print Assumptions C109_iq_array_file.

(** So types cannot always be told apart. *)
Theorem C109_refuted : ~ (forall fs name f t t' rd rd', holds fs name f -> file_known f -> has_structures t -> has_structures t' ->
  site_read fs name (type_name t) = Ok rd -> site_read fs name (type_name t') = Ok rd' -> t = t').
Proof.
  intros H. pose proof iq7_read as R. destruct (site_read iq7_fs (str "f") (str "antennas_iq")) as [rd|e] eqn:E; [|contradiction].
  destruct (site_files_iq iq7_fs (str "f") iq7_file AntennasIq Bfiq rd iq7_holds iq7_known (or_introl eq_refl) (or_intror eq_refl) E (proj1 R)) as (rd' & E' & _).
  specialize (H iq7_fs (str "f") iq7_file AntennasIq Bfiq rd rd' iq7_holds iq7_known ltac:(discriminate) ltac:(discriminate) E E'). discriminate H.
Qed.
Print Assumptions C109_refuted.

(** ** Changing the structure under the wrong type *)

(** Site records of antennas_iq have three sizes of data and those of bfiq four, so
    they cannot be changed to arrays as the other type; nor arrays of antennas_iq, whose
    data have four dimensions, to site records of bfiq. *)
Theorem C109_wrong_bfiq : forall g n r rs a ty l, dict_get r (str "data_dimensions") = Some (BArr ty [3%nat] l) ->
  site_to_array (format_class g Bfiq) ((n, r) :: rs) <> Ok a.
Proof. intros g n r rs a ty l. apply bfiq_site. Qed.
Print Assumptions C109_wrong_bfiq.

Theorem C109_wrong_antennas : forall g n r rs a ty z1 z2 z3 z4,
  dict_get r (str "data_dimensions") = Some (BArr ty [4%nat] [CZ z1; CZ z2; CZ z3; CZ z4]) ->
  (0 < z1)%Z -> (0 < z2)%Z -> (0 < z3)%Z -> (0 < z4)%Z -> site_to_array (format_class g AntennasIq) ((n, r) :: rs) <> Ok a.
Proof. intros g n r rs a ty z1 z2 z3 z4. apply antennas_site. Qed.
Print Assumptions C109_wrong_antennas.

Theorem C109_wrong_bfiq_array : forall g a rs t n w tl ty s1 s2 s3 s4 l, dict_get a (str "sqn_timestamps") = Some (BArr t [S n; w] tl) ->
  dict_get a (str "data") = Some (BArr ty [s1; s2; s3; s4] l) -> array_to_site record_name (format_class g Bfiq) a <> Ok rs.
Proof. exact bfiq_array. Qed.
Print Assumptions C109_wrong_bfiq_array.

(** A bfiq record of version 0.7: 2 antenna arrays, 1 sequence, 2 beams, 3 samples, 3
    transmitting antennas; and an antennas_iq record: 2 antennas, 1 sequence, 6 samples. *)
Definition bfiq7 : brecord :=
  dict_update (bfiq6 t1 1 2 1 [1%nat; 2%nat] [CZ 0; CZ 0])
    [(str "borealis_git_hash", BText (str "v0.7"));
     (str "antenna_arrays_order", BArr BBytes [2%nat] [CS (str "main"); CS (str "intf")]);
     (str "scan_start_marker", BScalar BBool (CZ 1)); (str "gps_locked", BScalar BBool (CZ 1));
     (str "data_descriptors", BArr BBytes [4%nat] [CS (str "num_antenna_arrays"); CS (str "num_sequences"); CS (str "num_beams"); CS (str "num_samps")]);
     (str "tx_antenna_phases", BArr BC64 [3%nat] [CC 1 0; CC 2 0; CC 3 0])].
Definition ant7 : brecord :=
  dict_update bfiq7
    [(str "data_descriptors", BArr BBytes [3%nat] [CS (str "num_antennas"); CS (str "num_sequences"); CS (str "num_samps")]);
     (str "data_dimensions", BArr BU32 [3%nat] [CZ 2; CZ 1; CZ 6]); (str "tx_antenna_phases", BArr BC64 [2%nat] [CC 1 0; CC 2 0])].
Definition arrays_of (t : filetype) (r : brecord) : brecord :=
  match site_to_array (format_class G7 t) [(str "1558583991060", r)] with Ok a => a | Raise _ => [] end.

Example C109_wrong_case :
  check_site_records (format_class G7 Bfiq) [(str "1558583991060", ant7)] = Ok tt /\
  dict_get ant7 (str "data_dimensions") = Some (BArr BU32 [3%nat] [CZ 2; CZ 1; CZ 6]) /\
  check_site_records (format_class G7 AntennasIq) [(str "1558583991060", bfiq7)] = Ok tt /\
  dict_get bfiq7 (str "data_dimensions") = Some (BArr BU32 [4%nat] [CZ 2; CZ 1; CZ 2; CZ 3]) /\
  check_array_dict (format_class G7 Bfiq) (arrays_of AntennasIq ant7) = Ok tt /\
  match dict_get (arrays_of AntennasIq ant7) (str "data") with Some (BArr _ s _) => s = [1; 2; 1; 6]%nat | _ => False end /\
  match dict_get (arrays_of AntennasIq ant7) (str "sqn_timestamps") with Some (BArr _ s _) => s = [1; 1]%nat | _ => False end.
Proof. vm_compute. repeat split. Qed.

(** The arrays of a bfiq file of version 0.7 do become site records as antennas_iq.
    They pass the check, but say they have 2 * 1 * 2 samples where there are 12, and a
    transmitting antenna is lost. *)
Theorem C109_records_refuted : ~ (forall a rs n r ty s l ty' z,
  check_array_dict (format_class G7 AntennasIq) a = Ok tt -> array_records G7 AntennasIq a = Ok rs -> dict_get rs n = Some r ->
  dict_get r (str "data") = Some (BArr ty s l) -> dict_get r (str "data_dimensions") = Some (BArr ty' [length z] (map CZ z)) ->
  Z.of_nat (length l) = fold_right Z.mul 1%Z z).
Proof.
  intros H. set (a := arrays_of Bfiq bfiq7).
  assert (C : check_array_dict (format_class G7 AntennasIq) a = Ok tt) by (vm_compute; reflexivity).
  assert (R : match array_records G7 AntennasIq a with
              | Ok rs => match dict_get rs (str "1558583991060") with
                         | Some r => match dict_get r (str "data") with Some (BArr _ _ l) => length l = 12%nat | _ => False end /\
                                     dict_get r (str "data_dimensions") = Some (BArr BU32 [3%nat] [CZ 2; CZ 1; CZ 2]) /\
                                     dict_get r (str "tx_antenna_phases") = Some (BArr BC64 [2%nat] [CC 1 0; CC 2 0])
                         | None => False end
              | Raise _ => False end) by (vm_compute; repeat split).
  destruct (array_records G7 AntennasIq a) as [rs|] eqn:E; [|contradiction].
  destruct (dict_get rs (str "1558583991060")) as [r|] eqn:ER; [|contradiction]. destruct R as (R1 & R2 & _).
  destruct (dict_get r (str "data")) as [[]|] eqn:ED; try contradiction.
  specialize (H a rs _ r _ _ _ BU32 [2; 1; 2]%Z C E ER ED R2). rewrite R1 in H. discriminate H.
Qed.
Print Assumptions C109_records_refuted.
