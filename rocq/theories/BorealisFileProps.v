(** Properties of the Borealis file layer: C39, C50, C55-C57. *)
From Coq Require Import String ZArith List Bool Lia Sorted.
From Verif Require Import Base BytesProofs Utf8 SDarnFormats BorealisTypes BorealisFormats BorealisChecks BorealisArrays
  BorealisTime BorealisFile BorealisSpec BorealisFileSpec BorealisCases BorealisCheckProofs BorealisFileProofs
  BorealisFileCaseProofs DmapFileProofs.
Import ListNotations.
Open Scope list_scope.
Open Scope Z_scope.

(** ** Cases *)

(** Two rawacf records, the later first; no file "f" is there. *)
Definition two : brecords := [(str "1558583991822", raw6 9 3 2 2); (str "1558583991060", raw6 5 2 1 1)].
Definition empty_fs : hfs := fun _ => None.
Definition h5py_filters (n : pystr) : bool := str_mem n [str "gzip"; str "lzf"; str "szip"].

Lemma v06 : supported (str "v0.6") G6.
Proof. do 4 right. left. reflexivity. Qed.
Lemma v06_hash : hash_version (str "v0.6-61-gc13ad17") (str "v0.6").
Proof. apply version_of_ok. vm_compute. reflexivity. Qed.
Lemma digits_name s : s <> [] -> forallb (fun c => (48 <=? c) && (c <=? 57)) s = true -> group_name s.
Proof.
  intros HN H. rewrite forallb_forall in H. split; [exact HN|]. split; [|split].
  - intros ->. specialize (H 46 (or_introl eq_refl)). discriminate.
  - intros C. apply H in C. discriminate.
  - intros C. apply H in C. discriminate.
Qed.
Lemma site_okb g t r : has_structures t -> NoDup (keys r) ->
  check_site_records (format_class g t) [([], r)] = Ok tt -> site_record_ok (format_class g t) r.
Proof.
  intros HT HN H. refine (proj1 (site_check_iff g t [([], r)] HT _) H [] r (or_introl eq_refl)).
  split; [repeat constructor; intros []|]. intros n q [E|[]]. injection E as <- <-. exact HN.
Qed.
Ltac good_record := apply site_okb; [discriminate|apply nodupb_ok; vm_compute; reflexivity|vm_compute; reflexivity].

Lemma two_proper : proper two.
Proof.
  split; [apply nodupb_ok; vm_compute; reflexivity|]. intros n r [E|[E|[]]]; injection E as <- <-; apply nodupb_ok; vm_compute; reflexivity.
Qed.
Lemma two_good : forall n r, In (n, r) two ->
  group_name n /\ site_record_ok (format_class G6 BRawacf) r /\ storable (format_class G6 BRawacf) r.
Proof.
  intros n r [E|[E|[]]]; injection E as <- <-; (split; [apply digits_name; [discriminate|reflexivity]|split; [good_record|apply storableb_ok; vm_compute; reflexivity]]).
Qed.
Lemma two_version : records_version two (str "v0.6").
Proof.
  exists (str "1558583991060"), (raw6 5 2 1 1), (str "v0.6-61-gc13ad17"). splits.
  - right. now left.
  - intros n [<-|[<-|[]]]; [right|now left]. vm_compute. repeat first [apply lt_head; reflexivity|apply lt_tail].
  - reflexivity.
  - exact v06_hash.
Qed.

(** ** C39 Version and structure of a file *)

(** The hash of a file: its version is the part before the first '-', cut before its
    second '.'; files without a format for that version are refused. *)
Theorem C39_array_version : forall fs name f t h v, holds fs name f -> root_hash f h -> hash_version h v ->
  ((forall g, ~ supported v g) -> array_read fs name (type_name t) = Raise BorealisVersionError) /\
  (forall rd, array_read fs name (type_name t) = Ok rd -> ar_version rd = v /\ supported v (ar_gen rd)).
Proof. exact array_version. Qed.
Print Assumptions C39_array_version.

Theorem C39_site_version : forall fs name f t h v, holds fs name f -> NoDup (keys (h_items f)) -> first_hash f h ->
  hash_version h v ->
  ((forall g, ~ supported v g) -> site_read fs name (type_name t) = Raise BorealisVersionError) /\
  (forall rd, site_read fs name (type_name t) = Ok rd -> sr_version rd = v /\ supported v (sr_gen rd)).
Proof. exact site_version. Qed.
Print Assumptions C39_site_version.

(** Every hash has exactly one version. *)
Theorem C39_one_version : forall h, exists v, hash_version h v /\ forall v', hash_version h v' -> v' = v.
Proof.
  intros h. exists (version_of h). split; [now apply version_iff|]. intros v' H. symmetry. now apply version_iff.
Qed.
Print Assumptions C39_one_version.

(** Patch releases have the version of their minor release. *)
Theorem C39_patch : forall v g patch rest, supported v g -> ~ In 45 patch -> ends_part [45] rest ->
  hash_version (v ++ rest) v /\ hash_version (v ++ 46 :: patch ++ rest) v.
Proof.
  intros v g patch rest HS HP HR.
  assert (HX : exists y, v = str "v0" ++ 46 :: y /\ ~ In 46 y /\ ~ In 45 y).
  { destruct HS as [E|[E|[E|[E|[E|[E|[]]]]]]]; injection E as <- <-; eexists; (split; [reflexivity|]);
      split; intros [C|[]]; discriminate. }
  destruct HX as (y & -> & Y1 & Y2).
  assert (X1 : ~ In 46 (str "v0")) by (intros C; vm_compute in C; decompose [or] C; (discriminate || contradiction)).
  assert (X2 : ~ In 45 (str "v0")) by (intros C; vm_compute in C; decompose [or] C; (discriminate || contradiction)).
  split; rewrite <- app_assoc; rewrite <- app_comm_cons; apply ver_two; auto.
  - destruct rest; [exact I|]. destruct HR as [<-|[]]. right. now left.
  - now left.
Qed.
Print Assumptions C39_patch.

(** The structure: array exactly if the hash is the name of an attribute or member of
    the root, else site. *)
Theorem C39_structure : forall f,
  (borealis_structure (record_names f) = str "array" <->
     In (str "borealis_git_hash") (keys (h_items f)) \/ In (str "borealis_git_hash") (keys (h_attrs f))) /\
  (borealis_structure (record_names f) = str "array" \/ borealis_structure (record_names f) = str "site").
Proof. intros f. split; [apply structure_array|apply structure_two]. Qed.
Print Assumptions C39_structure.

(** BorealisRestructure finds the same version. *)
Theorem C39_file_version : forall f h v, NoDup (keys (h_items f)) -> hash_version h v ->
  (root_hash f h -> file_version f (borealis_structure (record_names f)) = Ok v) /\
  (first_hash f h -> borealis_structure (record_names f) = str "site" ->
   file_version f (borealis_structure (record_names f)) = Ok v).
Proof. exact file_version_ok. Qed.
Print Assumptions C39_file_version.

(** A member of the root named borealis_git_hash makes the structure array, although
    the file has no version then. *)
Definition odd_file : hfile := mk_hfile [(str "borealis_git_hash", HGroup [] [])] [].
Theorem C39_attribute_refuted :
  ~ (forall f, borealis_structure (record_names f) = str "array" <-> In (str "borealis_git_hash") (keys (h_attrs f))).
Proof. intros H. destruct (proj1 (H odd_file) eq_refl). Qed.
Print Assumptions C39_attribute_refuted.

Example C39_case :
  hash_version (str "v0.6.1-3-gc13ad17") (str "v0.6") /\ hash_version (str "v0.6") (str "v0.6") /\
  hash_version (str "c13ad17") (str "c13ad17") /\ (forall g, ~ supported (str "c13ad17") g) /\
  file_version odd_file (str "array") = Raise BorealisStructureError /\
  exists f, holds (fst (site_write h5py_filters empty_fs (str "f") (DRecords two) (str "rawacf") None)) (str "f") f /\
    first_hash f (str "v0.6-61-gc13ad17").
Proof.
  splits; try (apply version_of_ok; vm_compute; reflexivity).
  - intros g [E|[E|[E|[E|[E|[E|[]]]]]]]; discriminate E.
  - reflexivity.
  - eexists. split; [vm_compute; reflexivity|]. apply first_hash_eq; [apply nodupb_ok; vm_compute; reflexivity|vm_compute; reflexivity].
Qed.

(** ** C50 No structure given *)

(** The outcome of reading without a structure: that of the array reader; but if this
    says that the structure is wrong, that of the site reader. *)
Theorem C50_read : forall fs name t r, borealis_read fs name (type_name t) None = r ->
  match r with
  | Ok (ArrayReader a) => array_read fs name (type_name t) = Ok a
  | Ok (SiteReader s) => site_read fs name (type_name t) = Ok s /\
      exists e, array_read fs name (type_name t) = Raise e /\ structure_error e
  | Raise e => (array_read fs name (type_name t) = Raise e /\ ~ structure_error e) \/
      (site_read fs name (type_name t) = Raise e /\
       exists e', array_read fs name (type_name t) = Raise e' /\ structure_error e')
  end.
Proof. exact read_outcome. Qed.
Print Assumptions C50_read.

(** No file can be read in both structures. *)
Theorem C50_exclusive : forall fs name ft rs ra,
  site_read fs name ft = Ok rs -> array_read fs name ft = Ok ra -> False.
Proof. exact exclusive. Qed.
Print Assumptions C50_exclusive.

(** A file without a hash at its root is read as a site file. *)
Theorem C50_no_hash : forall fs name f t, holds fs name f -> ~ In (str "borealis_git_hash") (keys (h_attrs f)) ->
  array_read fs name (type_name t) = Raise BorealisStructureError /\
  borealis_read fs name (type_name t) None = borealis_read fs name (type_name t) (Some (str "site")).
Proof. exact no_root_hash. Qed.
Print Assumptions C50_no_hash.

(** A site file that also has a hash at its root is not read as a site file. *)
Theorem C50_hash_and_groups : forall fs name f t h v g n ds als, holds fs name f -> has_structures t ->
  root_hash f h -> hash_version h v -> supported v g -> NoDup (keys (h_items f)) ->
  In (n, HGroup ds als) (h_items f) ->
  (forall n' i, In (n', i) (h_items f) -> exists ds als, i = HGroup ds als) ->
  borealis_read fs name (type_name t) None = Raise TypeError.
Proof. exact hash_and_group. Qed.
Print Assumptions C50_hash_and_groups.

(** Writing records without a structure writes a site file. *)
Theorem C50_write_records : forall av fs name rs t c, ~ In (str "borealis_git_hash") (keys rs) ->
  borealis_write av fs name (DRecords rs) (type_name t) None c =
  borealis_write av fs name (DRecords rs) (type_name t) (Some (str "site")) c.
Proof. exact write_records_site. Qed.
Print Assumptions C50_write_records.

(** Arrays with a missing or extra field are refused, but with another error: the
    attempt to write them as records hides the first. *)
Theorem C50_write_arrays : forall av fs name a t c fs' e,
  array_write av fs name (DArrays a) (type_name t) (array_compression c) = (fs', Raise e) -> structure_error e ->
  exists e', borealis_write av fs name (DArrays a) (type_name t) None c = (fs', Raise e') /\
    (e' = BorealisStructureError \/ e' = TypeError \/ e' = OutOfModel).
Proof. exact write_arrays_masks. Qed.
Print Assumptions C50_write_arrays.

(** The records [two] written with a hash at the root as well. *)
Definition with_root_hash (fs : hfs) : hfs := fun n =>
  match fs n with
  | Some (Hdf f) => Some (Hdf (mk_hfile (h_items f) [(str "borealis_git_hash", HBytes (str "v0.6-61-gc13ad17"))]))
  | x => x
  end.
Definition two_fs : hfs := fst (site_write h5py_filters empty_fs (str "f") (DRecords two) (str "rawacf") None).
Example C50_case :
  (exists rd, borealis_read two_fs (str "f") (str "rawacf") None = Ok (SiteReader rd) /\ length (sr_records rd) = 2%nat) /\
  (exists rd, site_read (with_root_hash two_fs) (str "f") (str "rawacf") = Ok rd) /\
  borealis_read (with_root_hash two_fs) (str "f") (str "rawacf") None = Raise TypeError /\
  borealis_read (fun _ => Some NotHdf) (str "f") (str "rawacf") None = Raise OSError /\
  ~ In (str "borealis_git_hash") (keys two) /\
  array_write h5py_filters empty_fs (str "f") (DArrays [(str "borealis_git_hash", BText (str "v0.6-61-gc13ad17")); (str "lags", BArr BU32 [1%nat] [CZ 0])])
    (str "rawacf") None <> (empty_fs, Ok tt) /\
  match array_write h5py_filters empty_fs (str "f") (DArrays [(str "borealis_git_hash", BText (str "v0.6-61-gc13ad17")); (str "lags", BArr BU32 [1%nat] [CZ 0])])
    (str "rawacf") None with (_, Raise (BorealisFieldMissingError _)) => True | _ => False end /\
  match borealis_write h5py_filters empty_fs (str "f") (DArrays [(str "borealis_git_hash", BText (str "v0.6-61-gc13ad17")); (str "lags", BArr BU32 [1%nat] [CZ 0])])
    (str "rawacf") None None with (_, Raise TypeError) => True | _ => False end.
Proof.
  splits.
  - eexists. split; vm_compute; reflexivity.
  - eexists. vm_compute. reflexivity.
  - vm_compute. reflexivity.
  - vm_compute. reflexivity.
  - intros [C|[C|[]]]; discriminate C.
  - vm_compute. intros C. discriminate (f_equal snd C).
  - vm_compute. exact I.
  - vm_compute. exact I.
Qed.

(** ** C55 What is written is read back *)

(** Records of a known version, written to a new file, are read back, sorted by
    name, with the same fields; only phase offsets that are not one for each pulse
    change.  The file is recognised as a site file, and no other file changes. *)
Theorem C55_site_file : forall av fs name t g rs c v,
  has_structures t -> proper rs ->
  (forall n r, In (n, r) rs -> group_name n /\ site_record_ok (format_class g t) r /\ storable (format_class g t) r) ->
  records_version rs v -> supported v g -> can_compress av c -> fs name = None ->
  exists fs' rd, site_write av fs name (DRecords rs) (type_name t) c = (fs', Ok tt) /\ only_file name fs fs' /\
    site_read fs' name (type_name t) = Ok rd /\
    borealis_read fs' name (type_name t) None = Ok (SiteReader rd) /\
    sr_version rd = v /\ sr_gen rd = g /\ sr_type rd = t /\ records_back rs (sr_records rd).
Proof. exact site_file_round_trip. Qed.
Print Assumptions C55_site_file.

(** The same for arrays; only phase offsets of the shape (2,) change. *)
Theorem C55_array_file : forall av fs name t g a c h v,
  has_structures t -> NoDup (keys a) -> arrays_ok (format_class g t) a -> storable_arrays (format_class g t) a ->
  dict_get a (str "borealis_git_hash") = Some (BText h) -> hash_version h v -> supported v g ->
  can_compress av c -> fs name = None ->
  exists fs' rd, array_write av fs name (DArrays a) (type_name t) c = (fs', Ok tt) /\ only_file name fs fs' /\
    array_read fs' name (type_name t) = Ok rd /\
    borealis_read fs' name (type_name t) None = Ok (ArrayReader rd) /\
    ar_version rd = v /\ ar_gen rd = g /\ ar_type rd = t /\ NoDup (keys (ar_arrays rd)) /\
    arrays_back a (ar_arrays rd).
Proof. exact array_file_round_trip. Qed.
Print Assumptions C55_array_file.

(** Arrays made from [two]. *)
Definition two_arrays : brecord := match site_to_array (format_class G6 BRawacf) two with Ok a => a | Raise _ => [] end.
Lemma two_arrays_good : NoDup (keys two_arrays) /\ arrays_ok (format_class G6 BRawacf) two_arrays /\
  storable_arrays (format_class G6 BRawacf) two_arrays /\
  dict_get two_arrays (str "borealis_git_hash") = Some (BText (str "v0.6-61-gc13ad17")).
Proof.
  assert (ND : NoDup (keys two_arrays)) by (apply nodupb_ok; vm_compute; reflexivity). splits.
  - exact ND.
  - apply arrays_ok_check; [discriminate|exact ND|vm_compute; reflexivity].
  - apply storable_arraysb_ok. vm_compute. reflexivity.
  - vm_compute. reflexivity.
Qed.

Definition names_read (r : res site_reader) : option (list pystr) :=
  match r with Ok rd => Some (keys (sr_records rd)) | Raise _ => None end.
Definition field_read (r : res array_reader) (k : pystr) : option bval :=
  match r with Ok rd => dict_get (ar_arrays rd) k | Raise _ => None end.
Definition two_arrays_fs : hfs :=
  fst (array_write h5py_filters empty_fs (str "f") (DArrays two_arrays) (str "rawacf") (Some (str "gzip"))).

Example C55_case :
  (proper two /\ records_version two (str "v0.6") /\ supported (str "v0.6") G6 /\
   (forall n r, In (n, r) two ->
      group_name n /\ site_record_ok (format_class G6 BRawacf) r /\ storable (format_class G6 BRawacf) r)) /\
  names_read (site_read two_fs (str "f") (str "rawacf")) = Some [str "1558583991060"; str "1558583991822"] /\
  can_compress h5py_filters (Some (str "gzip")) /\
  (NoDup (keys two_arrays) /\ arrays_ok (format_class G6 BRawacf) two_arrays /\
   storable_arrays (format_class G6 BRawacf) two_arrays /\
   dict_get two_arrays (str "borealis_git_hash") = Some (BText (str "v0.6-61-gc13ad17"))) /\
  field_read (array_read two_arrays_fs (str "f") (str "rawacf")) (str "correlation_descriptors") =
    dict_get two_arrays (str "correlation_descriptors") /\
  field_read (array_read two_arrays_fs (str "f") (str "rawacf")) (str "beam_nums") =
    Some (BArr BU32 [2; 2]%nat [CZ 3; CZ 4; CZ 3; CZ 0]).
Proof.
  split; [|split; [|split; [|split; [|split]]]].
  - exact (conj two_proper (conj two_version (conj v06 two_good))).
  - vm_compute. reflexivity.
  - right. exists (str "gzip"). split; vm_compute; reflexivity.
  - exact two_arrays_good.
  - vm_compute. reflexivity.
  - vm_compute. reflexivity.
Qed.

(** ** C56 Array files with the default compression *)

(** The default of BorealisArrayWrite is a filter "zlib".  Where the HDF5 library has
    no filter of this name, every writing of arrays without compression argument
    fails, and leaves a file without data behind. *)
Theorem C56_default_compression : forall av fs name t g a h v,
  av (str "zlib") = false ->
  has_structures t -> NoDup (keys a) -> arrays_ok (format_class g t) a -> storable_arrays (format_class g t) a ->
  dict_get a (str "borealis_git_hash") = Some (BText h) -> hash_version h v -> supported v g -> fs name = None ->
  exists fs' als, 
    borealis_write av fs name (DArrays a) (type_name t) (Some (str "array")) None = (fs', Raise ValueError) /\
    borealis_write av fs name (DArrays a) (type_name t) None None = (fs', Raise ValueError) /\
    only_file name fs fs' /\ holds fs' name (mk_hfile [] als).
Proof.
  intros av fs name t g a h v HZ HT HN HO HS HH HV HG HF.
  destruct (array_write_unavailable av fs name t g a (str "zlib") h v HT HN HO HS HH HV HG HF HZ) as (fs' & als & W & H1 & H2).
  exists fs', als. unfold borealis_write, return_writer, array_compression.
  change (str_eqb (str "array") (str "site")) with false. change (str_eqb (str "array") (str "array")) with true.
  rewrite W. splits; auto.
Qed.
Print Assumptions C56_default_compression.

Example C56_case : h5py_filters (str "zlib") = false /\
  snd (borealis_write h5py_filters empty_fs (str "f") (DArrays two_arrays) (str "rawacf") None None) = Raise ValueError /\
  snd (borealis_write h5py_filters empty_fs (str "f") (DArrays two_arrays) (str "rawacf") None (Some None)) = Ok WroteArray.
Proof. splits; vm_compute; reflexivity. Qed.

(** ** C57 Phase offsets that are not one for each pulse are lost on reading *)

Definition phases : brecords := [(str "1558583991060", bfiq6 5 2 1 0 [2; 2]%nat (ints 1 4))].
Lemma phases_good : proper phases /\ records_version phases (str "v0.6") /\
  (forall n r, In (n, r) phases ->
     group_name n /\ site_record_ok (format_class G6 Bfiq) r /\ storable (format_class G6 Bfiq) r).
Proof.
  splits.
  - split; [apply nodupb_ok; vm_compute; reflexivity|]. intros n r [E|[]]; injection E as <- <-; apply nodupb_ok; vm_compute; reflexivity.
  - exists (str "1558583991060"), (bfiq6 5 2 1 0 [2; 2]%nat (ints 1 4)), (str "v0.6-61-gc13ad17"). splits.
    + now left.
    + intros n [<-|[]]. now left.
    + reflexivity.
    + exact v06_hash.
  - intros n r [E|[]]; injection E as <- <-. split; [apply digits_name; [discriminate|reflexivity]|]. split; [good_record|].
    apply storableb_ok; vm_compute; reflexivity.
Qed.

Lemma shape_fun v s s' : has_shape v s -> has_shape v s' -> s = s'.
Proof. destruct v; cbn; intros; try contradiction; congruence. Qed.

Theorem C57_offsets_lost : forall av fs name t g rs c v n r ph p s sp,
  has_structures t -> proper rs ->
  (forall n r, In (n, r) rs -> group_name n /\ site_record_ok (format_class g t) r /\ storable (format_class g t) r) ->
  records_version rs v -> supported v g -> can_compress av c -> fs name = None ->
  In (n, r) rs -> dict_get r (str "pulse_phase_offset") = Some ph -> dict_get r (str "pulses") = Some p ->
  has_shape ph s -> has_shape p sp -> s <> sp ->
  exists fs' rd r', site_write av fs name (DRecords rs) (type_name t) c = (fs', Ok tt) /\
    site_read fs' name (type_name t) = Ok rd /\ In (n, r') (sr_records rd) /\
    dict_get r' (str "pulse_phase_offset") = Some (BArr BF32 sp (repeat (CZ 0) (size sp))).
Proof.
  intros av fs name t g rs c v n r ph p s sp HT HP HR HVer HV HC HN HI E1 E2 S1 S2 NE.
  destruct (site_file_round_trip av fs name t g rs c v HT HP HR HVer HV HC HN) as (fs' & rd & W & _ & R & _ & _ & _ & _ & B1 & B2 & B3).
  assert (IK : In n (keys (sr_records rd))) by (apply B2, keys_in; eauto).
  apply keys_in in IK as (r' & IR). exists fs', rd, r'. splits; auto.
  destruct (B3 n r r' HI IR) as [_ B]. rewrite E1 in B. destruct B as (p' & s' & sp' & Q1 & Q2 & Q3 & _ & Q4).
  rewrite E2 in Q1. injection Q1 as <-. 
  rewrite (shape_fun _ _ _ Q2 S1), (shape_fun _ _ _ Q3 S2) in Q4. auto.
Qed.
Print Assumptions C57_offsets_lost.

(** So files do not keep all records that can be written. *)
Theorem C57_kept_refuted :
  ~ (forall av fs name t g rs c v, has_structures t -> proper rs ->
       (forall n r, In (n, r) rs -> group_name n /\ site_record_ok (format_class g t) r /\ storable (format_class g t) r) ->
       records_version rs v -> supported v g -> can_compress av c -> fs name = None ->
       exists fs' rd, site_write av fs name (DRecords rs) (type_name t) c = (fs', Ok tt) /\
         site_read fs' name (type_name t) = Ok rd /\
         forall n r r', In (n, r) rs -> In (n, r') (sr_records rd) -> same_fields_as r r').
Proof.
  intros H. destruct phases_good as (G1 & G2 & G3).
  assert (NR : has_structures Bfiq) by discriminate.
  destruct (H h5py_filters empty_fs (str "f") Bfiq G6 phases None (str "v0.6") NR G1 G3 G2 v06 (or_introl eq_refl) eq_refl)
    as (fs' & rd & W & R & B).
  assert (NE : [2; 2]%nat <> [2%nat]) by discriminate.
  destruct (C57_offsets_lost h5py_filters empty_fs (str "f") Bfiq G6 phases None (str "v0.6") (str "1558583991060")
      (bfiq6 5 2 1 0 [2; 2]%nat (ints 1 4)) (BArr BF32 [2; 2]%nat (ints 1 4)) (BArr BU32 [2%nat] [CZ 0; CZ 9]) [2; 2]%nat [2%nat]
      NR G1 G3 G2 v06 (or_introl eq_refl) eq_refl (or_introl eq_refl) eq_refl eq_refl eq_refl eq_refl NE)
      as (fs2 & rd2 & r' & W2 & R2 & I2 & L).
  rewrite W in W2. injection W2 as <-. rewrite R in R2. injection R2 as <-.
  pose proof (B (str "1558583991060") (bfiq6 5 2 1 0 [2; 2]%nat (ints 1 4)) r' (or_introl eq_refl) I2 (str "pulse_phase_offset")) as B'.
  rewrite L in B'. clear - B'. assert (E : dict_get (bfiq6 5 2 1 0 [2; 2]%nat (ints 1 4)) (str "pulse_phase_offset") = Some (BArr BF32 [2; 2]%nat (ints 1 4)))
    by (vm_compute; reflexivity). rewrite E in B'. discriminate B'.
Qed.
Print Assumptions C57_kept_refuted.

Example C57_case : proper phases /\ records_version phases (str "v0.6") /\
  match site_read (fst (site_write h5py_filters empty_fs (str "f") (DRecords phases) (str "bfiq") None)) (str "f") (str "bfiq") with
  | Ok rd => map (fun p => dict_get (snd p) (str "pulse_phase_offset")) (sr_records rd)
  | Raise _ => []
  end = [Some (BArr BF32 [2%nat] [CZ 0; CZ 0])].
Proof. split; [exact (proj1 phases_good)|split; [exact (proj1 (proj2 phases_good))|vm_compute; reflexivity]]. Qed.
