(** Properties of files restructured to the other structure and back: C72. *)
From Coq Require Import String ZArith List Bool Lia.
From Verif Require Import Base BytesProofs SDarnFormats BorealisTypes BorealisFormats BorealisChecks BorealisArrays
  BorealisTime BorealisFile BorealisRestructure BorealisSpec BorealisCatalogue BorealisShapes BorealisFileSpec
  BorealisRestructureSpec BorealisRestructureFileSpec BorealisRestructureNamesSpec BorealisCases BorealisCheckProofs BorealisCaseProofs BorealisRestructProofs
  BorealisFileProofs BorealisFileCaseProofs BorealisArrayProps BorealisFileProps BorealisRestructureProofs DmapFileProofs
  BorealisRestructureProps BorealisRestructureFileProps BorealisRestructureNamesProps BorealisRestructureArrayFileProps BorealisRestructureRoundProofs.
Import ListNotations.
Open Scope list_scope.
Open Scope Z_scope.

(** C72. A site file restructured to an array file, and that to a site file, reads as
    before: the same records under the same names, with the same fields, but with the
    standard names of the dimensions. *)
Theorem C72_round : forall av fs i o p f t g z cs rs c c' v,
  has_structures t -> i <> o -> o <> p -> holds fs i f -> site_layout (format_class g t) f -> read_records f = Ok rs ->
  (forall n r, In (n, r) rs -> site_record_ok (format_class g t) r /\ storable (format_class g t) r) ->
  consistent g t z cs rs -> common_arrays g t rs -> records_version rs v -> supported v g ->
  (t <> AntennasIq -> widest_first cs) ->
  (role_of g t (str "pulse_phase_offset") Varying -> forall n r, In (n, r) rs -> phases_of_pulses r) ->
  named_by record_name rs -> ~ (g = G7 /\ t = Bfiq) ->
  can_compress av c -> can_compress av c' -> fs o = None -> fs p = None ->
  exists fs1 fs2 sr sr', restructure av fs i o (type_name t) (str "array") c = (fs1, Ok tt) /\
    restructure av fs1 o p (type_name t) (str "site") c' = (fs2, Ok tt) /\
    only_file o fs fs1 /\ only_file p fs1 fs2 /\
    site_read fs i (type_name t) = Ok sr /\ site_read fs2 p (type_name t) = Ok sr' /\
    sr_version sr = v /\ sr_version sr' = v /\ sr_gen sr' = sr_gen sr /\ sr_type sr' = sr_type sr /\
    Forall2 (fun q q' => fst q = fst q' /\ same_record g t (snd q) (snd q')) (sr_records sr) (sr_records sr').
Proof. exact site_file_round. Qed.
Print Assumptions C72_round.

(** Bfiq array files of version 0.7 with any record cannot be restructured at all: the
    names of the dimensions are made as texts, but the check wants bytes. *)
Theorem C72_bfiq : forall av fs i o f c v n fs' r, i <> o -> holds fs i f -> NoDup (keys (h_items f)) ->
  BorealisRestructureSpec.array_file f -> has_version f v -> supported v G7 -> time_rows f (S n) ->
  restructure av fs i o (type_name Bfiq) (str "site") c = (fs', r) ->
  fs' = fs /\ (r = Raise BorealisRestructureError \/ r = Raise OutOfModel).
Proof. exact bfiq7_never. Qed.
Print Assumptions C72_bfiq.

(** The two files of C67_case again. *)
Definition namedb (rs : brecords) : bool :=
  nodupb (keys rs) &&
  forallb (fun p => match dict_get (snd p) (str "sqn_timestamps") with
                    | Some (BArr _ _ (CZ b :: _)) => match record_name b with Ok n => str_eqb n (fst p) | Raise _ => false end
                    | _ => false
                    end) rs.
Lemma namedb_ok rs : namedb rs = true -> named_by record_name rs.
Proof.
  unfold namedb. intros H. apply andb_true_iff in H as [H1 H2]. split; [now apply nodupb_ok|].
  intros n r HI. rewrite forallb_forall in H2. apply H2 in HI. cbn [fst snd] in HI.
  destruct (dict_get r (str "sqn_timestamps")) as [[| |ty s [|[b| |] l]| |]|] eqn:E; try discriminate HI.
  destruct (record_name b) as [m|] eqn:N; [|discriminate HI]. apply str_eqb_eq in HI. subst m.
  exists b. split; [|exact N]. eexists _, _, _. exact E.
Qed.
Definition there_and_back (fs : hfs) (t : filetype) : hfs * res unit :=
  restructure h5py_filters (fst (joined fs t)) (str "g") (str "h") (type_name t) (str "site") None.
Strategy expand [there_and_back].
Definition names_read (fs : hfs) (n : pystr) (t : filetype) : option (list pystr) :=
  match site_read fs n (type_name t) with Ok sr => Some (keys (sr_records sr)) | Raise _ => None end.

Example C72_case :
  (site_hyps site_fs BRawacf G6 raw_sizes wide_counts (records_in site_fs) (str "v0.6") /\ widest_first wide_counts /\
   named_by record_name (records_in site_fs) /\ site_fs (str "h") = None /\ snd (there_and_back site_fs BRawacf) = Ok tt /\
   names_read (fst (there_and_back site_fs BRawacf)) (str "h") BRawacf = Some [str "1558583991060"; str "1558583991822"]) /\
  (site_hyps bf_wide_fs Bfiq G6 bf_sizes wide_counts (records_in bf_wide_fs) (str "v0.6") /\
   (forall n r, In (n, r) (records_in bf_wide_fs) -> phases_of_pulses r) /\
   named_by record_name (records_in bf_wide_fs) /\ bf_wide_fs (str "h") = None /\ snd (there_and_back bf_wide_fs Bfiq) = Ok tt).
Proof.
  split.
  - split; [exact raw_wide_hyps|]. split; [exact wide_first|]. split; [apply namedb_ok; vm_compute; reflexivity|].
    split; [vm_compute; reflexivity|]. split; vm_compute; reflexivity.
  - split; [exact bf_wide_hyps|]. split; [apply phases_fitb_ok; vm_compute; reflexivity|]. split; [apply namedb_ok; vm_compute; reflexivity|].
    split; vm_compute; reflexivity.
Qed.

(** A bfiq site file of version 0.7: it can be read, and restructured to an array
    file that can be read, but not back. *)
Definition bytes_of (r : brecord) (k : pystr) : brecord :=
  match dict_get r k with Some (BArr _ s l) => dict_set r k (BArr BBytes s l) | _ => r end.
Definition bfiq7 (id : Z) (ns nb bl : nat) : brecord :=
  let r := bfiq6 id ns nb bl [ns; 2%nat] (ints 1 (2 * ns)) in
  let r := bytes_of (bytes_of r (str "antenna_arrays_order")) (str "data_descriptors") in
  let r := dict_set r (str "borealis_git_hash") (BText (str "v0.7-5-gc13ad17")) in
  let r := dict_set r (str "scan_start_marker") (BScalar BBool (CZ 1)) in
  let r := dict_set r (str "gps_locked") (BScalar BBool (CZ 0)) in
  dict_set r (str "tx_antenna_phases") (BArr BC64 [1%nat] (complexes 0 1)).
Definition bf_seven : brecords := [(str "1558583991060", bfiq7 t1 3 2 2); (str "1558583991822", bfiq7 t2 2 1 1)].
Definition seven_fs : hfs := fst (write_records h5py_filters (format_class G7 Bfiq) empty_fs (str "f") bf_seven None).
Lemma v07 : supported (str "v0.7") G7.
Proof. do 5 right. left. reflexivity. Qed.
Lemma v07_hash : hash_version (str "v0.7-5-gc13ad17") (str "v0.7").
Proof. apply version_of_ok. vm_compute. reflexivity. Qed.
Lemma seven_hyps : site_hyps seven_fs Bfiq G7 bf_sizes wide_counts (records_in seven_fs) (str "v0.7").
Proof.
  unfold site_hyps. split; [apply site_layoutb_ok; vm_compute; reflexivity|]. unfold file_hyps. splits.
  - discriminate.
  - vm_compute. reflexivity.
  - vm_compute. reflexivity.
  - apply good_recordsb_ok; [discriminate|vm_compute; reflexivity].
  - constructor.
    + apply all_fitb_ok. vm_compute. reflexivity.
    + intros C. vm_compute in C. discriminate C.
    + apply commonb_ok. vm_compute. reflexivity.
    + right. intros c [<-|[<-|[]]]; cbn; lia.
    + intros _. exists (fun c => [c_seq c; 2%nat]). split; [constructor; lia|]. apply all_phasesb_ok. vm_compute. reflexivity.
  - unfold common_arrays. apply common_arraysb_ok. vm_compute. reflexivity.
  - apply (versionb_ok _ (str "v0.7-5-gc13ad17")); [exact v07_hash|vm_compute; reflexivity].
  - exact v07.
  - vm_compute. reflexivity.
Qed.
Theorem C72_bfiq_refuted :
  ~ (forall fs t g z cs rs v, site_hyps fs t g z cs rs v -> widest_first cs ->
       (role_of g t (str "pulse_phase_offset") Varying -> forall n r, In (n, r) rs -> phases_of_pulses r) ->
       named_by record_name rs -> fs (str "h") = None -> snd (there_and_back fs t) = Ok tt).
Proof.
  intros H. assert (C : snd (there_and_back seven_fs Bfiq) = Ok tt).
  { apply (H _ _ _ _ _ _ _ seven_hyps wide_first); [|apply namedb_ok; vm_compute; reflexivity|vm_compute; reflexivity].
    intros _. apply phases_fitb_ok. vm_compute. reflexivity. }
  vm_compute in C. discriminate C.
Qed.
Print Assumptions C72_bfiq_refuted.
Definition seven_in : hfile := Eval vm_compute in file_in (fst (joined seven_fs Bfiq)) (str "g").
Example C72_bfiq_case :
  (snd (joined seven_fs Bfiq) = Ok tt /\ (exists ar, array_read (fst (joined seven_fs Bfiq)) (str "g") (str "bfiq") = Ok ar) /\
   snd (there_and_back seven_fs Bfiq) = Raise BorealisRestructureError) /\
  (holds (fst (joined seven_fs Bfiq)) (str "g") seven_in /\ NoDup (keys (h_items seven_in)) /\
   BorealisRestructureSpec.array_file seven_in /\ has_version seven_in (str "v0.7") /\ time_rows seven_in 2).
Proof.
  split; [split; [|split]|split; [|split; [|split; [|split]]]].
  - vm_compute. reflexivity.
  - eexists. vm_compute. reflexivity.
  - vm_compute. reflexivity.
  - vm_compute. reflexivity.
  - apply nodupb_ok. vm_compute. reflexivity.
  - right. apply str_mem_In. vm_compute. reflexivity.
  - eexists. split; cycle 1; [left; eexists; split; vm_compute; reflexivity|]. apply version_of_ok. vm_compute. reflexivity.
  - eapply rows_of; vm_compute; reflexivity.
Qed.

(** Records under other names come back under the names of their first timestamps. *)
Definition other_fs : hfs :=
  fst (site_write h5py_filters empty_fs (str "f") (DRecords (combine [str "a"; str "b"] (map snd raw_wide))) (str "rawacf") None).
Lemma other_hyps : site_hyps other_fs BRawacf G6 raw_sizes wide_counts (records_in other_fs) (str "v0.6").
Proof. site_hyps ltac:(right; intros c [<-|[<-|[]]]; cbn; lia) no_phases. Qed.
Theorem C72_names_refuted :
  ~ (forall fs t g z cs rs v, site_hyps fs t g z cs rs v -> widest_first cs ->
       (role_of g t (str "pulse_phase_offset") Varying -> forall n r, In (n, r) rs -> phases_of_pulses r) ->
       ~ (g = G7 /\ t = Bfiq) -> fs (str "h") = None ->
       names_read (fst (there_and_back fs t)) (str "h") t = names_read fs (str "f") t).
Proof.
  intros H. assert (C : names_read (fst (there_and_back other_fs BRawacf)) (str "h") BRawacf = names_read other_fs (str "f") BRawacf).
  { apply (H _ _ _ _ _ _ _ other_hyps wide_first); [no_phases|intros [C _]; discriminate C|vm_compute; reflexivity]. }
  vm_compute in C. discriminate C.
Qed.
Print Assumptions C72_names_refuted.
Example C72_names_case : names_read other_fs (str "f") BRawacf = Some [str "a"; str "b"] /\
  names_read (fst (there_and_back other_fs BRawacf)) (str "h") BRawacf = Some [str "1558583991060"; str "1558583991822"].
Proof. split; vm_compute; reflexivity. Qed.
