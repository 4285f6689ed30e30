(** Converting a site file and the array file made of it: C83. *)
From Coq Require Import String ZArith List Bool Lia.
From Verif Require Import Base BytesProofs DmapRead SDarnFormats BorealisTypes BorealisFormats BorealisChecks BorealisArrays
  BorealisTime BorealisFile BorealisRestructure BorealisSpec BorealisCatalogue BorealisShapes BorealisFileSpec
  BorealisRestructureSpec BorealisRestructureFileSpec BorealisCases BorealisCheckProofs BorealisCaseProofs
  BorealisFileProofs BorealisFileCaseProofs BorealisRestructProofs BorealisArrayProps BorealisFileProps BorealisRestructureProofs DmapFileProofs
  BorealisRestructureProps BorealisRestructureFileProps BorealisConvert BorealisConvertSpec BorealisConvertProofs BorealisConvertProps
  BorealisRestructureArrayFileProps BorealisRestructureRoundProps BorealisRestructureBackProps BorealisConvertSameSpec BorealisConvertSameProofs.
Import ListNotations.
Open Scope list_scope.
Open Scope Z_scope.

(** C83. A rawacf site file and the array file it is restructured to convert alike: the
    same file is written, or the same exception raised.  The name of the source is part of
    what is written, so the array file is given under the same name. *)
Theorem C83_rawacf : forall av fs i o f g z cs rs c v,
  i <> o -> holds fs i f -> site_layout (format_class g BRawacf) f -> read_records f = Ok rs ->
  (forall n r, In (n, r) rs -> site_record_ok (format_class g BRawacf) r /\ storable (format_class g BRawacf) r) ->
  consistent g BRawacf z cs rs -> common_arrays g BRawacf rs -> records_version rs v -> supported v g -> widest_first cs ->
  named_by record_name rs -> can_compress av c -> fs o = None ->
  exists fs1, restructure av fs i o (str "rawacf") (str "array") c = (fs1, Ok tt) /\ only_file o fs fs1 /\
    forall scale_iq scale_acf power ctime hf ds sfn sid st st' k, hf i = fs1 o ->
      st = None \/ st = Some (str "site") -> st' = None \/ st' = Some (str "array") ->
      borealis_convert scale_iq scale_acf power ctime hf ds i (str "rawacf") sfn sid st' k =
      borealis_convert scale_iq scale_acf power ctime fs ds i (str "rawacf") sfn sid st k.
Proof.
  intros av fs i o f g z cs rs c v H1 H2 H3 H4 H5 H6 H7 H8 H9 H10 H11 H12 H13.
  refine (same_conversion av fs i o f BRawacf g z cs rs c v _ H1 H2 H3 H4 H5 H6 H7 H8 H9 (fun _ => H10) _ H11 H12 H13 _ (or_introl eq_refl) _).
  - discriminate.
  - intros RO. destruct (raw_no_phases _ _ RO).
  - intros [_ C]. discriminate C.
  - intros C. discriminate C.
Qed.
Print Assumptions C83_rawacf.

(** So do a bfiq site file and its array file, but of version 0.7, if the phase offsets are none
    or one for each pulse. *)
Theorem C83_bfiq : forall av fs i o f g z cs rs c v,
  i <> o -> holds fs i f -> site_layout (format_class g Bfiq) f -> read_records f = Ok rs ->
  (forall n r, In (n, r) rs -> site_record_ok (format_class g Bfiq) r /\ storable (format_class g Bfiq) r) ->
  consistent g Bfiq z cs rs -> common_arrays g Bfiq rs -> records_version rs v -> supported v g -> widest_first cs ->
  (role_of g Bfiq (str "pulse_phase_offset") Varying -> forall n r, In (n, r) rs -> phases_of_pulses r) ->
  named_by record_name rs -> can_compress av c -> fs o = None ->
  g <> G7 -> (forall n r, In (n, r) rs -> phases_alike g r) ->
  exists fs1, restructure av fs i o (str "bfiq") (str "array") c = (fs1, Ok tt) /\ only_file o fs fs1 /\
    forall scale_iq scale_acf power ctime hf ds sfn sid st st' k, hf i = fs1 o ->
      st = None \/ st = Some (str "site") -> st' = None \/ st' = Some (str "array") ->
      borealis_convert scale_iq scale_acf power ctime hf ds i (str "bfiq") sfn sid st' k =
      borealis_convert scale_iq scale_acf power ctime fs ds i (str "bfiq") sfn sid st k.
Proof.
  intros av fs i o f g z cs rs c v H1 H2 H3 H4 H5 H6 H7 H8 H9 H10 HP H11 H12 H13 HG HA.
  refine (same_conversion av fs i o f Bfiq g z cs rs c v _ H1 H2 H3 H4 H5 H6 H7 H8 H9 (fun _ => H10) HP H11 H12 H13 _ (or_intror eq_refl) (fun _ => HA)).
  - discriminate.
  - intros [C _]. now apply HG.
Qed.
Print Assumptions C83_bfiq.

(** Rows of phase offsets, one for each sequence, are read as they are from the array file, whose
    conversion then fails: a row has no truth value.  The reader of the site file gives zeros
    for them, so that the site file converts as if it had no phase offsets. *)
Theorem C83_rows : forall av fs i o f g z cs rs c v n0 r0 rest b,
  i <> o -> holds fs i f -> site_layout (format_class g Bfiq) f -> read_records f = Ok rs ->
  (forall n r, In (n, r) rs -> site_record_ok (format_class g Bfiq) r /\ storable (format_class g Bfiq) r) ->
  consistent g Bfiq z cs rs -> common_arrays g Bfiq rs -> records_version rs v -> supported v g -> widest_first cs ->
  (role_of g Bfiq (str "pulse_phase_offset") Varying -> forall n r, In (n, r) rs -> phases_of_pulses r) ->
  named_by record_name rs -> can_compress av c -> fs o = None ->
  g <> G7 -> rs = (n0, r0) :: rest -> role_of g Bfiq (str "pulse_phase_offset") Varying ->
  checkable r0 -> well_blanked r0 -> rows_of_phases r0 -> number_field r0 (str "slice_id") BU32 b ->
  exists fs1 sr x, restructure av fs i o (str "bfiq") (str "array") c = (fs1, Ok tt) /\ only_file o fs fs1 /\
    site_read fs i (str "bfiq") = Ok sr /\ In (n0, x) (sr_records sr) /\ all_zero_phases x /\
    forall scale_iq scale_acf power ctime hf ds sfn sid st' k, hf i = fs1 o -> i <> sfn -> st' = None \/ st' = Some (str "array") ->
      borealis_convert scale_iq scale_acf power ctime hf ds i (str "bfiq") sfn sid st' k = (ds, Raise ValueError).
Proof. exact rows_refused. Qed.
Print Assumptions C83_rows.

(** No bfiq array file of version 0.7 made so can be converted. *)
Theorem C83_seven : forall av fs i o f z cs rs c v,
  i <> o -> holds fs i f -> site_layout (format_class G7 Bfiq) f -> read_records f = Ok rs ->
  (forall n r, In (n, r) rs -> site_record_ok (format_class G7 Bfiq) r /\ storable (format_class G7 Bfiq) r) ->
  consistent G7 Bfiq z cs rs -> common_arrays G7 Bfiq rs -> records_version rs v -> supported v G7 -> widest_first cs ->
  (role_of G7 Bfiq (str "pulse_phase_offset") Varying -> forall n r, In (n, r) rs -> phases_of_pulses r) ->
  named_by record_name rs -> can_compress av c -> fs o = None ->
  exists fs1, restructure av fs i o (str "bfiq") (str "array") c = (fs1, Ok tt) /\ only_file o fs fs1 /\
    forall scale_iq scale_acf power ctime hf ds sfn sid st' k, hf i = fs1 o -> st' = None \/ st' = Some (str "array") ->
      borealis_convert scale_iq scale_acf power ctime hf ds i (str "bfiq") sfn sid st' k = (ds, Raise BorealisRestructureError).
Proof. exact seven_refused. Qed.
Print Assumptions C83_seven.

(** Two records of each type that can be converted; the bfiq records without phase offsets, and
    with a phase offset for every pulse of every sequence. *)
Definition conv_counts : list counts := [mk_counts 3 2 4; mk_counts 2 1 4]%nat.
Lemma conv_first : widest_first conv_counts.
Proof. intros c [<-|[<-|[]]]; cbn; lia. Qed.
Definition raw_of (id : Z) (ns nb : nat) : brecord :=
  set_complex (str "main_acfs") (powers (nb * 6)) (set_complex (str "intf_acfs") (powers (nb * 6))
    (set_complex (str "xcfs") (rev (powers (nb * 6))) (blank4 (raw6 id ns nb 1)))).
Definition bf_of (id : Z) (ns nb : nat) (ps : list nat) (ph : list cell) : brecord :=
  set_complex (str "data") (powers (6 * ns * nb)) (blank4 (bfiq6 id ns nb 0 ps ph)).
Definition raw_pair : brecords := [(str "1558583991060", raw_of t1 3 2); (str "1558583991822", raw_of t2 2 1)].
Definition bf_pair : brecords := [(str "1558583991060", bf_of t1 3 2 [0%nat] []); (str "1558583991822", bf_of t2 2 1 [0%nat] [])].
Definition bf_rows : brecords :=
  [(str "1558583991060", bf_of t1 3 2 [3; 2]%nat (ints 7 6)); (str "1558583991822", bf_of t2 2 1 [2; 2]%nat (ints 1 4))].
Definition raw_pair_fs : hfs := fst (site_write h5py_filters empty_fs (str "f") (DRecords raw_pair) (str "rawacf") None).
Definition bf_pair_fs : hfs := bf_fs bf_pair.
Definition bf_rows_fs : hfs := bf_fs bf_rows.
Lemma raw_pair_hyps : site_hyps raw_pair_fs BRawacf G6 raw_sizes conv_counts (records_in raw_pair_fs) (str "v0.6").
Proof. site_hyps ltac:(right; intros c [<-|[<-|[]]]; cbn; lia) ltac:(intros C; exfalso; revert C; apply no_varying_ok; vm_compute; reflexivity). Qed.
Lemma bf_pair_hyps : site_hyps bf_pair_fs Bfiq G6 bf_sizes conv_counts (records_in bf_pair_fs) (str "v0.6").
Proof.
  site_hyps ltac:(right; intros c [<-|[<-|[]]]; cbn; lia)
    ltac:(intros _; exists (fun c => [0%nat]); split; [constructor|];
          apply all_phasesb_ok; vm_compute; reflexivity).
Qed.
Lemma bf_rows_hyps : site_hyps bf_rows_fs Bfiq G6 bf_sizes conv_counts (records_in bf_rows_fs) (str "v0.6").
Proof.
  site_hyps ltac:(right; intros c [<-|[<-|[]]]; cbn; lia)
    ltac:(intros _; exists (fun c => [c_seq c; 2%nat]); split; [constructor; lia|];
          apply all_phasesb_ok; vm_compute; reflexivity).
Qed.
(** The conversions of the file "f", and of the array file made of it under that name. *)
Definition from_site (fs : hfs) (t : filetype) : fsys * res unit :=
  borealis_convert same_scale same_scale fst some_time fs no_files (str "f") (type_name t) (str "o") None None 1.
Definition renamed (fs : hfs) (t : filetype) : hfs := fun _ => fst (joined fs t) (str "g").
Definition from_array (fs : hfs) (t : filetype) : fsys * res unit :=
  borealis_convert same_scale same_scale fst some_time (renamed fs t) no_files (str "f") (type_name t) (str "o") None None 1.
Strategy expand [from_site from_array].
Definition written (r : fsys * res unit) : option Z := option_map zlen (fst r (str "o")).

Definition alikeb (r : brecord) : bool :=
  match dict_get r (str "pulse_phase_offset"), dict_get r (str "pulses") with
  | Some (BArr BF32 [n] l), Some (BArr _ [p] _) => Nat.eqb n 0 && Nat.eqb (length l) 0
  | _, _ => false
  end.
Lemma alikeb_ok g (rs : brecords) : forallb (fun p => alikeb (snd p)) rs = true -> forall n r, In (n, r) rs -> phases_alike g r.
Proof.
  intros H n r I. rewrite forallb_forall in H. apply H in I. cbn [snd] in I. unfold alikeb in I.
  destruct (dict_get r (str "pulse_phase_offset")) as [[| |ty s l| |]|] eqn:E1; try discriminate I. destruct ty; try discriminate I.
  destruct s as [|m [|? ?]]; try discriminate I.
  destruct (dict_get r (str "pulses")) as [[| |ty [|p [|? ?]] l'| |]|] eqn:E2; try discriminate I.
  apply andb_true_iff in I as [I1 I2]. apply PeanoNat.Nat.eqb_eq in I1, I2. subst m.
  exists [0%nat], l, ty, p, l'. split; [exact E1|]. split; [exact I2|]. split; [exact E2|]. now left.
Qed.
Definition no_offsetsb (r : brecord) : bool :=
  match dict_get r (str "pulse_phase_offset") with Some (BArr _ s _) => Nat.eqb (size s) 0 | _ => false end.
Lemma no_offsetsb_ok (rs : brecords) : forallb (fun p => no_offsetsb (snd p)) rs = true -> forall n r, In (n, r) rs -> phases_of_pulses r.
Proof.
  intros H n r I ty s l ty' s' l' ty'' z E _ _. rewrite forallb_forall in H. apply H in I. cbn [snd] in I. unfold no_offsetsb in I. rewrite E in I.
  left. now apply PeanoNat.Nat.eqb_eq.
Qed.
Definition first_of (fs : hfs) : brecord := match records_in fs with (_, r) :: _ => r | [] => [] end.

Example C83_case :
  (site_hyps raw_pair_fs BRawacf G6 raw_sizes conv_counts (records_in raw_pair_fs) (str "v0.6") /\ widest_first conv_counts /\
   named_by record_name (records_in raw_pair_fs) /\ snd (from_site raw_pair_fs BRawacf) = Ok tt /\
   written (from_site raw_pair_fs BRawacf) = Some 2850 /\ written (from_array raw_pair_fs BRawacf) = Some 2850) /\
  (site_hyps bf_pair_fs Bfiq G6 bf_sizes conv_counts (records_in bf_pair_fs) (str "v0.6") /\
   (forall n r, In (n, r) (records_in bf_pair_fs) -> phases_of_pulses r) /\ named_by record_name (records_in bf_pair_fs) /\
   (forall n r, In (n, r) (records_in bf_pair_fs) -> phases_alike G6 r) /\ snd (from_site bf_pair_fs Bfiq) = Ok tt /\
   written (from_site bf_pair_fs Bfiq) = Some 3143 /\ written (from_array bf_pair_fs Bfiq) = Some 3143).
Proof.
  split.
  - split; [exact raw_pair_hyps|]. split; [exact conv_first|]. split; [apply namedb_ok; vm_compute; reflexivity|].
    split; [vm_compute; reflexivity|]. split; vm_compute; reflexivity.
  - split; [exact bf_pair_hyps|]. split; [apply no_offsetsb_ok; vm_compute; reflexivity|]. split; [apply namedb_ok; vm_compute; reflexivity|].
    split; [apply alikeb_ok; vm_compute; reflexivity|]. split; [vm_compute; reflexivity|]. split; vm_compute; reflexivity.
Qed.

Example C83_rows_case :
  site_hyps bf_rows_fs Bfiq G6 bf_sizes conv_counts (records_in bf_rows_fs) (str "v0.6") /\
  (forall n r, In (n, r) (records_in bf_rows_fs) -> phases_of_pulses r) /\ named_by record_name (records_in bf_rows_fs) /\
  (exists n rest, records_in bf_rows_fs = (n, first_of bf_rows_fs) :: rest) /\ role_of G6 Bfiq (str "pulse_phase_offset") Varying /\
  checkable (first_of bf_rows_fs) /\ well_blanked (first_of bf_rows_fs) /\ rows_of_phases (first_of bf_rows_fs) /\
  number_field (first_of bf_rows_fs) (str "slice_id") BU32 0 /\
  snd (from_site bf_rows_fs Bfiq) = Ok tt /\ snd (from_array bf_rows_fs Bfiq) = Raise ValueError.
Proof.
  assert (T : timed (first_of bf_rows_fs) hash06 2400 300 [0; 9] [0; 1; 72; 73]) by (constructor; [left|..]; vm_compute; reflexivity).
  assert (CK : checkable (first_of bf_rows_fs)).
  { exists hash06, 2400, 300, [0; 9], [0; 1; 72; 73]. split; [exact T|]. split; [reflexivity|left; exact hash06_tagged]. }
  split; [exact bf_rows_hyps|]. split; [apply phases_fitb_ok; vm_compute; reflexivity|]. split; [apply namedb_ok; vm_compute; reflexivity|].
  split; [exists (hd [] (keys (records_in bf_rows_fs))), (tl (records_in bf_rows_fs)); vm_compute; reflexivity|].
  split; [exact bf_varying|]. split; [exact CK|]. split.
  { destruct (checkable_blanking _ CK) as (b & E & HB). apply HB. assert (E' : normal_blanking (first_of bf_rows_fs) = Ok true) by (vm_compute; reflexivity).
    rewrite E' in E. apply DmapWriteFacts.ok_inj in E. now symmetry. }
  split; [exists 3%nat, 2%nat, [7; 8; 9; 10; 11; 12]; split; [vm_compute; reflexivity|]; split; [reflexivity|]; split; lia|].
  split; [vm_compute; reflexivity|]. split; vm_compute; reflexivity.
Qed.

(** The two files of such records do not convert alike. *)
Theorem C83_same_refuted :
  ~ (forall fs t g z cs rs v, site_hyps fs t g z cs rs v -> widest_first cs ->
       (role_of g t (str "pulse_phase_offset") Varying -> forall n r, In (n, r) rs -> phases_of_pulses r) ->
       named_by record_name rs -> ~ (g = G7 /\ t = Bfiq) -> snd (from_array fs t) = snd (from_site fs t)).
Proof.
  intros H. assert (C : snd (from_array bf_rows_fs Bfiq) = snd (from_site bf_rows_fs Bfiq)).
  { apply (H _ _ _ _ _ _ _ bf_rows_hyps conv_first); [|apply namedb_ok; vm_compute; reflexivity|intros [C _]; discriminate C].
    intros _. apply phases_fitb_ok. vm_compute. reflexivity. }
  vm_compute in C. discriminate C.
Qed.
Print Assumptions C83_same_refuted.

(** The file of version 0.7 of C72. *)
Example C83_seven_case :
  site_hyps seven_fs Bfiq G7 bf_sizes wide_counts (records_in seven_fs) (str "v0.7") /\ widest_first wide_counts /\
  (forall n r, In (n, r) (records_in seven_fs) -> phases_of_pulses r) /\ named_by record_name (records_in seven_fs) /\
  snd (from_array seven_fs Bfiq) = Raise BorealisRestructureError.
Proof.
  split; [exact seven_hyps|]. split; [exact wide_first|]. split; [apply phases_fitb_ok; vm_compute; reflexivity|].
  split; [apply namedb_ok; vm_compute; reflexivity|vm_compute; reflexivity].
Qed.
