(** Properties of array files restructured to site files and back: C77, C78. *)
From Coq Require Import String ZArith List Bool Lia Sorted.
From Verif Require Import Base BytesProofs SDarnFormats BorealisTypes BorealisFormats BorealisChecks BorealisArrays
  BorealisTime BorealisFile BorealisRestructure BorealisSpec BorealisCatalogue BorealisShapes BorealisFileSpec
  BorealisRestructureSpec BorealisRestructureFileSpec BorealisRestructureNamesSpec BorealisRestructureBackSpec
  BorealisCases BorealisCheckProofs BorealisCaseProofs BorealisRestructProofs
  BorealisFileProofs BorealisFileCaseProofs BorealisArrayProps BorealisFileProps BorealisRestructureProofs DmapFileProofs
  BorealisRestructureProps BorealisRestructureFileProps BorealisRestructureNamesProps BorealisRestructureArrayFileProps
  BorealisRestructureRoundProps BorealisRestructureBackProofs BorealisRestructurePhasesProofs.
Import ListNotations.
Open Scope list_scope.
Open Scope Z_scope.

(** C77. An array file restructured to a site file, and that to an array file, reads
    as before: the same arrays. *)
Theorem C77_round : forall av fs i o p f t g z cs rs c c' ar,
  has_structures t -> i <> o -> o <> p -> holds fs i f -> array_layout (format_class g t) f -> phases_whole f ->
  no_empty_numbers (format_class g t) f -> array_read fs i (type_name t) = Ok ar -> ar_gen ar = g -> proper rs ->
  (forall n r, In (n, r) rs -> site_record_ok (format_class g t) r /\ storable (format_class g t) r) ->
  consistent g t z cs rs -> common_arrays g t rs -> arrays_of g t z cs rs (ar_arrays ar) ->
  named_by record_name rs -> StronglySorted str_lt (keys rs) -> (t <> AntennasIq -> widest_first cs) ->
  (forall n r, In (n, r) rs -> phases_shaped r) ->
  (role_of g t (str "pulse_phase_offset") Varying -> forall n r, In (n, r) rs -> phases_of_pulses r) ->
  ~ (g = G7 /\ t = Bfiq) -> can_compress av c -> can_compress av c' -> fs o = None -> fs p = None ->
  exists fs1 fs2 ar', restructure av fs i o (type_name t) (str "site") c = (fs1, Ok tt) /\
    restructure av fs1 o p (type_name t) (str "array") c' = (fs2, Ok tt) /\
    only_file o fs fs1 /\ only_file p fs1 fs2 /\ array_read fs2 p (type_name t) = Ok ar' /\
    ar_version ar' = ar_version ar /\ ar_gen ar' = ar_gen ar /\ ar_type ar' = ar_type ar /\
    forall k, dict_get (ar_arrays ar') k = dict_get (ar_arrays ar) k.
Proof. exact array_file_round. Qed.
Print Assumptions C77_round.

(** Array files of samples from version 0.6 on, where every record has its own phase
    offsets, do not come back if a record has several pulses and several sequences:
    the site file has one phase offset for each pulse, and that is an error for
    the way back. *)
Theorem C77_samples : forall av fs i o p f t g z cs rs c c' ar,
  has_structures t -> i <> o -> o <> p -> holds fs i f -> array_layout (format_class g t) f -> phases_whole f ->
  no_empty_numbers (format_class g t) f -> array_read fs i (type_name t) = Ok ar -> ar_gen ar = g -> proper rs ->
  (forall n r, In (n, r) rs -> site_record_ok (format_class g t) r /\ storable (format_class g t) r) ->
  consistent g t z cs rs -> common_arrays g t rs -> arrays_of g t z cs rs (ar_arrays ar) ->
  named_by record_name rs -> StronglySorted str_lt (keys rs) -> ~ (g = G7 /\ t = Bfiq) -> can_compress av c -> fs o = None ->
  role_of g t (str "pulse_phase_offset") Varying -> (exists n r, In (n, r) rs /\ several_pulses r) ->
  exists fs1, restructure av fs i o (type_name t) (str "site") c = (fs1, Ok tt) /\ only_file o fs fs1 /\
    restructure av fs1 o p (type_name t) (str "array") c' = (fs1, Raise ValueError).
Proof. exact array_file_stuck. Qed.
Print Assumptions C77_samples.

(** C78. A site file with a record whose phase offsets are several, but not one for
    each pulse of each sequence, is not restructured: a ValueError, and nothing is
    written. *)
Theorem C78_phases : forall av fs i o f t g z cs rs c v,
  has_structures t -> i <> o -> holds fs i f -> site_layout (format_class g t) f -> read_records f = Ok rs ->
  (forall n r, In (n, r) rs -> site_record_ok (format_class g t) r /\ storable (format_class g t) r) ->
  Forall2 (fun c p => record_fits g t z c (snd p)) cs rs ->
  records_version rs v -> supported v g -> role_of g t (str "pulse_phase_offset") Varying ->
  (exists n r, In (n, r) rs /\ wrong_phases r) ->
  restructure av fs i o (type_name t) (str "array") c = (fs, Raise ValueError).
Proof. exact phases_never. Qed.
Print Assumptions C78_phases.

(** ** Cases *)

(** All the hypotheses of C77_round but those on beams and phases. *)
Definition back_hyps (fs : hfs) (t : filetype) (g : generation) (z : sizes) (cs : list counts) (rs : brecords) (ar : array_reader) : Prop :=
  has_structures t /\ holds fs (str "g") (file_in fs (str "g")) /\ array_layout (format_class g t) (file_in fs (str "g")) /\
  phases_whole (file_in fs (str "g")) /\ no_empty_numbers (format_class g t) (file_in fs (str "g")) /\
  array_read fs (str "g") (type_name t) = Ok ar /\ ar_gen ar = g /\ proper rs /\
  (forall n r, In (n, r) rs -> site_record_ok (format_class g t) r /\ storable (format_class g t) r) /\
  consistent g t z cs rs /\ common_arrays g t rs /\ arrays_of g t z cs rs (ar_arrays ar) /\
  named_by record_name rs /\ StronglySorted str_lt (keys rs) /\ fs (str "s") = None /\ fs (str "b") = None.

Definition emptiesb (F : format) (f : hfile) : bool :=
  forallb (fun p => match snd p with HEmpty _ => text_nameb F (fst p) | _ => true end) (h_attrs f).
Lemma emptiesb_ok F f : emptiesb F f = true -> no_empty_numbers F f.
Proof.
  unfold emptiesb. rewrite forallb_forall. intros H k t HI. apply H in HI. now apply text_nameb_ok.
Qed.
Definition properb (rs : brecords) : bool := nodupb (keys rs) && forallb (fun p => nodupb (keys (snd p))) rs.
Lemma properb_ok rs : properb rs = true -> proper rs.
Proof.
  unfold properb. intros H. apply andb_true_iff in H as [H1 H2]. split; [now apply nodupb_ok|]. rewrite forallb_forall in H2.
  intros n r HI. apply H2 in HI. now apply nodupb_ok.
Qed.
Fixpoint sortedb (l : list pystr) : bool :=
  match l with [] => true | x :: m => forallb (fun y => str_leb x y && negb (str_eqb x y)) m && sortedb m end.
Lemma sortedb_ok l : sortedb l = true -> StronglySorted str_lt l.
Proof.
  induction l as [|x m IH]; intros H; constructor; cbn [sortedb] in H; apply andb_true_iff in H as [H1 H2]; [now apply IH|].
  rewrite forallb_forall in H1. apply Forall_forall. intros y Hy. apply H1, andb_true_iff in Hy as [Hy H3].
  apply str_leb_lt in Hy as [->|Hy]; [rewrite str_eqb_refl in H3; discriminate|exact Hy].
Qed.
Definition shapedb (rs : brecords) : bool :=
  forallb (fun p => match dict_get (snd p) (str "pulse_phase_offset"), dict_get (snd p) (str "pulses") with
                    | Some (BArr _ s _), Some (BArr _ s' _) => nats_eqb s s'
                    | None, _ => true
                    | _, _ => false end) rs.
Lemma shapedb_ok rs : shapedb rs = true -> forall n r, In (n, r) rs -> phases_shaped r.
Proof.
  unfold shapedb. rewrite forallb_forall. intros H n r HI v p s sp H1 H2 H3 H4. apply H in HI. cbn [snd] in HI. rewrite H1, H2 in HI.
  destruct v; try discriminate. destruct p; try discriminate. cbn in H3, H4. subst. now apply nats_eqb_eq.
Qed.
Definition sameb (a b : brecord) : bool := forallb (fun k => opt_eqb (dict_get a k) (dict_get b k)) (keys a ++ keys b).
Lemma sameb_ok a b : sameb a b = true -> forall k, dict_get a k = dict_get b k.
Proof.
  unfold sameb. rewrite forallb_forall. intros H k.
  destruct (dict_get a k) as [v|] eqn:E.
  - rewrite <- E. apply opt_eqb_eq, H, in_or_app. left. apply keys_in. exists v. now apply SDarnChecks.dict_get_In.
  - destruct (dict_get b k) as [v|] eqn:E2; [|reflexivity]. rewrite <- E, <- E2. apply opt_eqb_eq, H, in_or_app. right.
    apply keys_in. exists v. now apply SDarnChecks.dict_get_In.
Qed.
Lemma arrays_of_same g t z cs rs a b : arrays_of g t z cs rs a -> NoDup (keys b) -> (forall k, dict_get b k = dict_get a k) ->
  arrays_of g t z cs rs b.
Proof.
  intros H HN HE. destruct H. constructor; try (intros; rewrite HE; eauto; fail).
  - exact HN.
  - intros k. rewrite <- ao_fields. split; intros HI; apply key_some in HI as (v & HI); apply keys_in; exists v; apply SDarnChecks.dict_get_In; congruence.
Qed.
Lemma arrays_ofb g t z cs rs a b : has_structures t -> consistent g t z cs rs -> site_to_array (format_class g t) rs = Ok a ->
  nodupb (keys b) = true -> sameb b a = true -> arrays_of g t z cs rs b.
Proof.
  intros HT HC HA HN HS. destruct (restructure_main g t z cs rs HT HC) as (a' & A1 & A2 & _). rewrite HA in A1. injection A1 as <-.
  apply (arrays_of_same _ _ _ _ _ a); [exact A2|now apply nodupb_ok|now apply sameb_ok].
Qed.

Definition arrays_in (fs : hfs) (t : filetype) : array_reader :=
  match array_read fs (str "g") (type_name t) with Ok ar => ar | Raise _ => mk_array_reader [] G6 t [] end.
Definition parted (fs : hfs) (t : filetype) : hfs * res unit :=
  restructure h5py_filters fs (str "g") (str "s") (type_name t) (str "site") None.
Definition rejoined (fs : hfs) (t : filetype) : hfs * res unit :=
  restructure h5py_filters (fst (parted fs t)) (str "s") (str "b") (type_name t) (str "array") None.
Strategy expand [parted rejoined].

Ltac back_hyps consistent :=
  unfold back_hyps; splits;
  [discriminate
  |vm_compute; reflexivity
  |apply layoutb_ok; vm_compute; reflexivity
  |apply wholeb_ok; vm_compute; reflexivity
  |apply emptiesb_ok; vm_compute; reflexivity
  |vm_compute; reflexivity
  |vm_compute; reflexivity
  |apply properb_ok; vm_compute; reflexivity
  |apply good_recordsb_ok; [discriminate|vm_compute; reflexivity]
  |exact consistent
  |unfold common_arrays; apply common_arraysb_ok; vm_compute; reflexivity
  |eapply arrays_ofb; [discriminate|exact consistent|vm_compute; reflexivity|vm_compute; reflexivity|vm_compute; reflexivity]
  |apply namedb_ok; vm_compute; reflexivity
  |apply sortedb_ok; vm_compute; reflexivity
  |vm_compute; reflexivity
  |vm_compute; reflexivity].

(** The array file made of the site file of C67_case, and an array file of antenna
    samples before version 0.6, where all records share the phase offsets. *)
Definition raw_arrays_fs : hfs := fst (joined site_fs BRawacf).
Definition raw_arrays : array_reader := Eval vm_compute in arrays_in raw_arrays_fs BRawacf.
Definition raw_records : brecords := Eval vm_compute in records_in site_fs.
Lemma raw_consistent : consistent G6 BRawacf raw_sizes wide_counts raw_records.
Proof. exact (proj1 (proj2 (proj2 (proj2 (proj2 (proj2 raw_wide_hyps)))))). Qed.
Lemma raw_back_hyps : back_hyps raw_arrays_fs BRawacf G6 raw_sizes wide_counts raw_records raw_arrays.
Proof. back_hyps raw_consistent. Qed.

Definition ant_arrays : brecord :=
  let a := dict_set ant4_arrays (str "pulses") (BArr BU32 [3%nat] [CZ 0; CZ 9; CZ 12]) in
  let a := dict_set a (str "pulse_phase_offset") (BArr BF32 [3%nat] [CZ 5; CZ 6; CZ 7]) in
  let a := dict_set a (str "experiment_comment") (BText (str "none")) in
  let a := dict_set a (str "sqn_timestamps") (BArr BF64 [2; 1]%nat [CZ t1; CZ t2]) in
  dict_set a (str "slice_comment") (BText []).
Definition ant_fs : hfs := fst (array_write h5py_filters empty_fs (str "g") (DArrays ant_arrays) (str "antennas_iq") None).
Definition ant_reader : array_reader := Eval vm_compute in arrays_in ant_fs AntennasIq.
Definition ant_records : brecords := Eval vm_compute in
  match array_records G4 AntennasIq (ar_arrays ant_reader) with Ok rs => rs | Raise _ => [] end.
Definition ant_counts : list counts := [mk_counts 1 1 0; mk_counts 1 1 0]%nat.
Lemma ant_consistent : consistent G4 AntennasIq bf_sizes ant_counts ant_records.
Proof.
  constructor; [apply all_fitb_ok; vm_compute; reflexivity|intros C; discriminate C|apply commonb_ok; vm_compute; reflexivity| |no_phases].
  left. intros c [<-|[<-|[]]]; reflexivity.
Qed.
Lemma ant_back_hyps : back_hyps ant_fs AntennasIq G4 bf_sizes ant_counts ant_records ant_reader.
Proof. back_hyps ant_consistent. Qed.

Definition back_read (fs : hfs) (t : filetype) : brecord :=
  match array_read fs (str "b") (type_name t) with Ok ar => ar_arrays ar | Raise _ => [] end.
Example C77_case :
  (back_hyps raw_arrays_fs BRawacf G6 raw_sizes wide_counts raw_records raw_arrays /\ widest_first wide_counts /\
   (forall n r, In (n, r) raw_records -> phases_shaped r) /\ ~ role_of G6 BRawacf (str "pulse_phase_offset") Varying /\
   keys raw_records = [str "1558583991060"; str "1558583991822"] /\
   snd (rejoined raw_arrays_fs BRawacf) = Ok tt /\ back_read (fst (rejoined raw_arrays_fs BRawacf)) BRawacf = ar_arrays raw_arrays) /\
  (back_hyps ant_fs AntennasIq G4 bf_sizes ant_counts ant_records ant_reader /\
   (forall n r, In (n, r) ant_records -> phases_shaped r) /\ ~ role_of G4 AntennasIq (str "pulse_phase_offset") Varying /\
   dict_get (ar_arrays ant_reader) (str "pulse_phase_offset") = Some (BArr BF32 [3%nat] [CZ 5; CZ 6; CZ 7]) /\
   snd (rejoined ant_fs AntennasIq) = Ok tt /\ back_read (fst (rejoined ant_fs AntennasIq)) AntennasIq = ar_arrays ant_reader).
Proof.
  splits.
  - exact raw_back_hyps.
  - exact wide_first.
  - apply shapedb_ok. vm_compute. reflexivity.
  - apply no_varying_ok. vm_compute. reflexivity.
  - reflexivity.
  - vm_compute. reflexivity.
  - vm_compute. reflexivity.
  - exact ant_back_hyps.
  - apply shapedb_ok. vm_compute. reflexivity.
  - apply no_varying_ok. vm_compute. reflexivity.
  - reflexivity.
  - vm_compute. reflexivity.
  - vm_compute. reflexivity.
Qed.

(** Bfiq arrays of version 0.6, with a phase for each pulse of each sequence: they can
    be restructured to a site file, and that not back. *)
Definition bf_arrays_fs : hfs := fst (joined bf_wide_fs Bfiq).
Definition bf_arrays : array_reader := Eval vm_compute in arrays_in bf_arrays_fs Bfiq.
Definition bf_records : brecords := Eval vm_compute in records_in bf_wide_fs.
Lemma bf_consistent : consistent G6 Bfiq bf_sizes wide_counts bf_records.
Proof. exact (proj1 (proj2 (proj2 (proj2 (proj2 (proj2 bf_wide_hyps)))))). Qed.
Lemma bf_back_hyps : back_hyps bf_arrays_fs Bfiq G6 bf_sizes wide_counts bf_records bf_arrays.
Proof. back_hyps bf_consistent. Qed.
Lemma bf_varying : role_of G6 Bfiq (str "pulse_phase_offset") Varying.
Proof.
  destruct (BorealisRestructFacts.tables G6 Bfiq) as (dims & TF); [discriminate|].
  apply (BorealisToArrayProofs.dims_role G6 Bfiq dims); [discriminate|exact TF|].
  assert (EU : unshared_fields (format_class G6 Bfiq) = Ok (map fst dims)) by (unfold unshared_fields; rewrite (BorealisRestructFacts.tf_dims _ _ _ TF); reflexivity).
  destruct (unshared_fields (format_class G6 Bfiq)) as [l|] eqn:E; [|discriminate EU]. injection EU as <-. vm_compute in E. injection E as <-.
  apply str_mem_In. vm_compute. reflexivity.
Qed.
Lemma bf_several : exists n r, In (n, r) bf_records /\ several_pulses r.
Proof.
  eexists _, _. split; [left; reflexivity|]. eexists _, _, _, _, _. split; [reflexivity|]. split; [cbn; lia|]. split; [reflexivity|lia].
Qed.
Example C77_samples_case :
  back_hyps bf_arrays_fs Bfiq G6 bf_sizes wide_counts bf_records bf_arrays /\ role_of G6 Bfiq (str "pulse_phase_offset") Varying /\
  (exists n r, In (n, r) bf_records /\ several_pulses r) /\ snd (parted bf_arrays_fs Bfiq) = Ok tt /\
  snd (rejoined bf_arrays_fs Bfiq) = Raise ValueError.
Proof. splits; [exact bf_back_hyps|exact bf_varying|exact bf_several|vm_compute; reflexivity|vm_compute; reflexivity]. Qed.
Theorem C77_phases_refuted :
  ~ (forall fs t g z cs rs ar, back_hyps fs t g z cs rs ar -> widest_first cs ->
       (role_of g t (str "pulse_phase_offset") Varying -> forall n r, In (n, r) rs -> phases_of_pulses r) ->
       ~ (g = G7 /\ t = Bfiq) -> snd (rejoined fs t) = Ok tt).
Proof.
  intros H. assert (C : snd (rejoined bf_arrays_fs Bfiq) = Ok tt).
  { apply (H _ _ _ _ _ _ _ bf_back_hyps wide_first); [|intros [C _]; discriminate C]. intros _. apply phases_fitb_ok. vm_compute. reflexivity. }
  vm_compute in C. discriminate C.
Qed.
Print Assumptions C77_phases_refuted.

Definition wrongb (rs : brecords) : bool :=
  existsb (fun p => match dict_get (snd p) (str "pulse_phase_offset"), dict_get (snd p) (str "pulses"), dict_get (snd p) (str "num_sequences") with
                    | Some (BArr _ s _), Some (BArr _ s' _), Some (BScalar _ (CZ z)) =>
                        (2 <=? size s)%nat && negb (Z.of_nat (size s) =? z * Z.of_nat (size s'))
                    | _, _, _ => false end) rs.
Lemma wrongb_ok rs : wrongb rs = true -> exists n r, In (n, r) rs /\ wrong_phases r.
Proof.
  unfold wrongb. intros H. apply existsb_exists in H as ([n r] & HI & H). exists n, r. split; [exact HI|]. cbn [snd] in H.
  destruct (dict_get r (str "pulse_phase_offset")) as [[| |ty s l| |]|] eqn:E1; try discriminate.
  destruct (dict_get r (str "pulses")) as [[| |ty' s' l'| |]|] eqn:E2; try discriminate.
  destruct (dict_get r (str "num_sequences")) as [[ty'' [z| |]| | | |]|] eqn:E3; try discriminate.
  apply andb_true_iff in H as [H1 H2]. apply Nat.leb_le in H1. apply negb_true_iff, Z.eqb_neq in H2.
  exists ty, s, l, ty', s', l', ty'', z. splits; auto.
Qed.
(** A file that BorealisSiteWrite wrote. *)
Example C78_case :
  site_hyps own_fs Bfiq G6 bf_sizes wide_counts (records_in own_fs) (str "v0.6") /\
  role_of G6 Bfiq (str "pulse_phase_offset") Varying /\
  (exists n r, In (n, r) (records_in own_fs) /\ wrong_phases r) /\ snd (joined own_fs Bfiq) = Raise ValueError.
Proof.
  splits; [exact own_hyps|exact bf_varying| |vm_compute; reflexivity].
  apply wrongb_ok. vm_compute. reflexivity.
Qed.
(** One phase offset only is not an error (C67_lost_case). *)
Example C78_one_case : role_of G6 Bfiq (str "pulse_phase_offset") Varying /\ snd (joined single_fs Bfiq) = Ok tt.
Proof. split; [exact bf_varying|vm_compute; reflexivity]. Qed.

(** Rows that are not in the order of their names come back in that order. *)
Definition late_records : brecords := [(str "1558583991822", raw6 t2 2 1 1); (str "1558583991060", raw6 t1 2 1 1)].
Definition late_arrays : brecord := match site_to_array (format_class G6 BRawacf) late_records with Ok a => a | Raise _ => [] end.
Definition late_fs : hfs := fst (array_write h5py_filters empty_fs (str "g") (DArrays late_arrays) (str "rawacf") None).
Definition late_counts : list counts := single_counts.
Definition late_reader : array_reader := Eval vm_compute in arrays_in late_fs BRawacf.
Lemma late_consistent : consistent G6 BRawacf raw_sizes late_counts late_records.
Proof.
  constructor; [apply all_fitb_ok; vm_compute; reflexivity|intros C; discriminate C|apply commonb_ok; vm_compute; reflexivity| |no_phases].
  right. intros c [<-|[<-|[]]]; cbn; lia.
Qed.
(** The hypotheses but for the order. *)
Definition unordered_hyps (fs : hfs) (t : filetype) (g : generation) (z : sizes) (cs : list counts) (rs : brecords) (ar : array_reader) : Prop :=
  has_structures t /\ holds fs (str "g") (file_in fs (str "g")) /\ array_layout (format_class g t) (file_in fs (str "g")) /\
  phases_whole (file_in fs (str "g")) /\ no_empty_numbers (format_class g t) (file_in fs (str "g")) /\
  array_read fs (str "g") (type_name t) = Ok ar /\ ar_gen ar = g /\ proper rs /\
  (forall n r, In (n, r) rs -> site_record_ok (format_class g t) r /\ storable (format_class g t) r) /\
  consistent g t z cs rs /\ common_arrays g t rs /\ arrays_of g t z cs rs (ar_arrays ar) /\ named_by record_name rs.
Lemma late_hyps : unordered_hyps late_fs BRawacf G6 raw_sizes late_counts late_records late_reader.
Proof.
  unfold unordered_hyps; splits;
  [discriminate
  |vm_compute; reflexivity
  |apply layoutb_ok; vm_compute; reflexivity
  |apply wholeb_ok; vm_compute; reflexivity
  |apply emptiesb_ok; vm_compute; reflexivity
  |vm_compute; reflexivity
  |vm_compute; reflexivity
  |apply properb_ok; vm_compute; reflexivity
  |apply good_recordsb_ok; [discriminate|vm_compute; reflexivity]
  |exact late_consistent
  |unfold common_arrays; apply common_arraysb_ok; vm_compute; reflexivity
  |eapply arrays_ofb; [discriminate|exact late_consistent|vm_compute; reflexivity|vm_compute; reflexivity|vm_compute; reflexivity]
  |apply namedb_ok; vm_compute; reflexivity].
Qed.
Theorem C77_order_refuted :
  ~ (forall fs t g z cs rs ar, unordered_hyps fs t g z cs rs ar -> widest_first cs -> (forall n r, In (n, r) rs -> phases_shaped r) ->
       (role_of g t (str "pulse_phase_offset") Varying -> forall n r, In (n, r) rs -> phases_of_pulses r) ->
       ~ (g = G7 /\ t = Bfiq) -> fs (str "s") = None -> fs (str "b") = None ->
       forall k, dict_get (back_read (fst (rejoined fs t)) t) k = dict_get (ar_arrays ar) k).
Proof.
  intros H. assert (C : dict_get (back_read (fst (rejoined late_fs BRawacf)) BRawacf) (str "int_time") = dict_get (ar_arrays late_reader) (str "int_time")).
  { apply (H _ _ _ _ _ _ _ late_hyps).
    - intros c [<-|[<-|[]]]; cbn; lia.
    - apply shapedb_ok. vm_compute. reflexivity.
    - no_phases.
    - intros [C _]. discriminate C.
    - vm_compute. reflexivity.
    - vm_compute. reflexivity. }
  vm_compute in C. discriminate C.
Qed.
Print Assumptions C77_order_refuted.
Example C77_order_case : snd (rejoined late_fs BRawacf) = Ok tt /\
  dict_get (ar_arrays late_reader) (str "sqn_timestamps") = Some (BArr BF64 [2; 2]%nat (ints t2 2 ++ ints t1 2)) /\
  dict_get (back_read (fst (rejoined late_fs BRawacf)) BRawacf) (str "sqn_timestamps") = Some (BArr BF64 [2; 2]%nat (ints t1 2 ++ ints t2 2)).
Proof. splits; vm_compute; reflexivity. Qed.
