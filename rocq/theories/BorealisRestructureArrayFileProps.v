(** Properties of restructured files: C67. *)
From Coq Require Import String ZArith List Bool Lia.
From Verif Require Import Base BytesProofs SDarnFormats BorealisTypes BorealisFormats BorealisChecks BorealisArrays
  BorealisTime BorealisFile BorealisRestructure BorealisSpec BorealisCatalogue BorealisShapes BorealisFileSpec
  BorealisRestructureSpec BorealisRestructureFileSpec BorealisCases BorealisCheckProofs BorealisCaseProofs BorealisRestructProofs
  BorealisFileProofs BorealisFileCaseProofs BorealisArrayProps BorealisFileProps BorealisRestructureProofs DmapFileProofs
  BorealisRestructureProps BorealisRestructureFileProps BorealisRestructureArrayFileProofs.
Import ListNotations.
Open Scope list_scope.
Open Scope Z_scope.

(** Deciding the hypotheses for a concrete file. *)
Definition attr_storedb (F : format) (k : pystr) (x : hattr) : bool :=
  if text_nameb F k
  then match x with HBytes _ => true | HEmpty BBytes => str_mem k (fm_shared F) | _ => false end
  else match x with HValue _ => true | _ => false end.
Lemma attr_storedb_ok F k x : attr_storedb F k x = true -> attr_stored F k x.
Proof.
  unfold attr_storedb, attr_stored. rewrite <- text_nameb_ok. destruct (text_nameb F k); intros H; split; intros C.
  - destruct x as [b| |[] |]; try discriminate; [left; now exists b|right; split; [reflexivity|now apply str_mem_In]].
  - now destruct C.
  - discriminate C.
  - destruct x; try discriminate. eauto.
Qed.

Definition group_layoutb (F : format) (i : hitem) : bool :=
  match i with
  | HDset _ _ => false
  | HGroup ds als =>
      nodupb (keys ds) && nodupb (keys als) && forallb (fun k => negb (str_mem k (keys als))) (keys ds) &&
      forallb (fun k => match dict_get als k with Some x => attr_storedb F k x | None => false end) (keys (site_attrs F)) &&
      forallb (fun k => match dict_get ds k with
                        | Some d => Bool.eqb (is_itemb d) (text_nameb F k) | None => false end) (keys (fm_array F))
  end.
Lemma group_layoutb_ok F i : group_layoutb F i = true -> group_layout F i.
Proof.
  destruct i as [ds als|]; [|discriminate]. unfold group_layoutb. intros H. repeat (apply andb_true_iff in H as [H ?]).
  rewrite forallb_forall in *. exists ds, als. split; [reflexivity|]. split; [now apply nodupb_ok|]. split; [now apply nodupb_ok|]. split; [|split].
  - intros k HK C. apply H2, negb_true_iff in HK. apply str_mem_In in C. congruence.
  - intros k t HA. assert (HK : In k (keys (site_attrs F))) by (apply keys_in; exists t; now apply in_site_attrs).
    apply H1 in HK. destruct (dict_get als k) as [x|] eqn:E; [|discriminate]. apply SDarnChecks.dict_get_In in E.
    exists x. split; [exact E|]. now apply attr_storedb_ok.
  - intros k t HA. assert (HK : In k (keys (fm_array F))) by (apply keys_in; now exists t).
    apply H0 in HK. destruct (dict_get ds k) as [d|] eqn:E; [|discriminate]. apply SDarnChecks.dict_get_In in E.
    exists d. split; [exact E|]. apply eqb_prop in HK. rewrite <- text_nameb_ok, <- HK. unfold is_itemb. destruct (hd_item d); split; congruence.
Qed.

Definition site_layoutb (F : format) (f : hfile) : bool :=
  nodupb (keys (h_items f)) && negb (str_mem (str "borealis_git_hash") (keys (h_items f))) &&
  match h_attrs f with [] => true | _ => false end && forallb (fun p => group_layoutb F (snd p)) (h_items f).
Lemma site_layoutb_ok F f : site_layoutb F f = true -> site_layout F f.
Proof.
  unfold site_layoutb. intros H. repeat (apply andb_true_iff in H as [H ?]).
  split; [now apply nodupb_ok|]. split; [|split].
  - intros C. apply str_mem_In in C. rewrite C in H2. discriminate.
  - destruct (h_attrs f); [intros k []|discriminate].
  - intros n i HI. rewrite forallb_forall in H0. apply H0 in HI. now apply group_layoutb_ok.
Qed.

Definition good_recordsb (g : generation) (t : filetype) (rs : brecords) : bool :=
  forallb (fun p => nodupb (keys (snd p)) &&
                    match check_site_records (format_class g t) [([], snd p)] with Ok _ => true | Raise _ => false end &&
                    keptb (site_attrs (format_class g t)) (fm_array (format_class g t)) (snd p)) rs.
Lemma good_recordsb_ok g t rs : has_structures t -> good_recordsb g t rs = true -> forall n r, In (n, r) rs ->
  site_record_ok (format_class g t) r /\ storable (format_class g t) r.
Proof.
  intros HT H n r HI. unfold good_recordsb in H. rewrite forallb_forall in H. apply H in HI. cbn [snd] in HI.
  apply andb_true_iff in HI as [HI H2]. apply andb_true_iff in HI as [H0 H1]. split; [|now apply storableb_ok].
  apply site_okb; [exact HT|now apply nodupb_ok|]. destruct (check_site_records _ _) as [[]|]; [reflexivity|discriminate].
Qed.

Definition all_fitb (g : generation) (t : filetype) (z : sizes) (cs : list counts) (rs : brecords) : bool :=
  Nat.eqb (length cs) (length rs) && forallb (fun p => fitsb g t z (fst p) (snd (snd p))) (combine cs rs).
Lemma all_fitb_ok g t z cs rs : all_fitb g t z cs rs = true -> Forall2 (fun c p => record_fits g t z c (snd p)) cs rs.
Proof.
  unfold all_fitb. intros H. apply andb_true_iff in H as [H1 H2]. apply Nat.eqb_eq in H1. revert rs H1 H2.
  induction cs as [|c cs IH]; intros [|p rs] H1 H2; try discriminate; constructor.
  - cbn [combine forallb] in H2. apply andb_true_iff in H2 as [H2 _]. now apply fitsb_ok.
  - cbn [combine forallb] in H2. apply andb_true_iff in H2 as [_ H2]. apply IH; [now injection H1|exact H2].
Qed.

Lemma many_arr ty sh n v : many_okb ty sh n v = true -> exists data, v = Some (BArr ty sh data) /\ length data = n.
Proof.
  destruct v as [[]|]; try discriminate. cbn [many_okb]. intros H2. repeat (apply andb_true_iff in H2 as [H2 ?]).
  apply btype_eqb_eq in H2. apply nats_eqb_eq in H0. apply Nat.eqb_eq in H. subst. eauto.
Qed.
Definition all_phasesb (f : counts -> list nat) (cs : list counts) (rs : brecords) : bool :=
  Nat.eqb (length cs) (length rs) &&
  forallb (fun p => many_okb BF32 (f (fst p)) (size (f (fst p))) (dict_get (snd (snd p)) (str "pulse_phase_offset"))) (combine cs rs).
Lemma all_phasesb_ok f cs rs : all_phasesb f cs rs = true -> Forall2 (fun c p => exists data,
  dict_get (snd p) (str "pulse_phase_offset") = Some (BArr BF32 (f c) data) /\ length data = size (f c)) cs rs.
Proof.
  unfold all_phasesb. intros H. apply andb_true_iff in H as [H1 H2]. apply Nat.eqb_eq in H1. revert rs H1 H2.
  induction cs as [|c cs IH]; intros [|p rs] H1 H2; try discriminate; constructor.
  - cbn [combine forallb] in H2. apply andb_true_iff in H2 as [H2 _]. exact (many_arr _ _ _ _ H2).
  - cbn [combine forallb] in H2. apply andb_true_iff in H2 as [_ H2]. apply IH; [now injection H1|exact H2].
Qed.

Definition versionb (rs : brecords) (h : pystr) : bool :=
  match rs with
  | [] => false
  | (n, r) :: _ => forallb (fun n' => str_leb n n') (keys rs) && opt_eqb (dict_get r (str "borealis_git_hash")) (Some (BText h))
  end.
Lemma versionb_ok rs h v : hash_version h v -> versionb rs h = true -> records_version rs v.
Proof.
  intros HH. destruct rs as [|[n r] rs]; [discriminate|]. unfold versionb. intros H. apply andb_true_iff in H as [H1 H2].
  exists n, r, h. split; [now left|]. split; [|split; [now apply opt_eqb_eq|exact HH]].
  intros n' Hn. rewrite forallb_forall in H1. apply H1, str_leb_lt in Hn as [->|Hn]; auto.
Qed.

(** C67. Restructuring a site file writes the array file of its records: the
    arrays that the site reader itself makes of them. *)
Theorem C67_to_array : forall av fs i o f t g z cs rs c v,
  has_structures t -> i <> o -> holds fs i f -> site_layout (format_class g t) f -> read_records f = Ok rs ->
  (forall n r, In (n, r) rs -> site_record_ok (format_class g t) r /\ storable (format_class g t) r) ->
  consistent g t z cs rs -> common_arrays g t rs -> records_version rs v -> supported v g ->
  (t <> AntennasIq -> widest_first cs) ->
  (role_of g t (str "pulse_phase_offset") Varying -> forall n r, In (n, r) rs -> phases_of_pulses r) ->
  can_compress av c -> fs o = None ->
  exists fs' a ar, restructure av fs i o (type_name t) (str "array") c = (fs', Ok tt) /\ only_file o fs fs' /\
    site_to_array (format_class g t) rs = Ok a /\ arrays_of g t z cs rs a /\
    array_read fs' o (type_name t) = Ok ar /\ borealis_read fs' o (type_name t) None = Ok (ArrayReader ar) /\
    ar_version ar = v /\ ar_gen ar = g /\ ar_type ar = t /\ arrays_back a (ar_arrays ar).
Proof. exact site_file_to_array. Qed.
Print Assumptions C67_to_array.

(** The hypotheses on the file "f" and its records but for the layout, the beams
    and the phases; no file "g" is there. *)
Definition file_hyps (fs : hfs) (t : filetype) (g : generation) (z : sizes) (cs : list counts) (rs : brecords) (v : pystr) : Prop :=
  has_structures t /\ holds fs (str "f") (file_in fs (str "f")) /\ read_records (file_in fs (str "f")) = Ok rs /\
  (forall n r, In (n, r) rs -> site_record_ok (format_class g t) r /\ storable (format_class g t) r) /\
  consistent g t z cs rs /\ common_arrays g t rs /\ records_version rs v /\ supported v g /\ fs (str "g") = None.
Definition site_hyps (fs : hfs) (t : filetype) (g : generation) (z : sizes) (cs : list counts) (rs : brecords) (v : pystr) : Prop :=
  site_layout (format_class g t) (file_in fs (str "f")) /\ file_hyps fs t g z cs rs v.

Definition records_in (fs : hfs) : brecords :=
  match read_records (file_in fs (str "f")) with Ok rs => rs | Raise _ => [] end.
Definition joined (fs : hfs) (t : filetype) : hfs * res unit :=
  restructure h5py_filters fs (str "f") (str "g") (type_name t) (str "array") None.
Strategy expand [joined].

Ltac file_hyps blank phases :=
  unfold file_hyps; splits;
  [discriminate
  |vm_compute; reflexivity
  |vm_compute; reflexivity
  |apply good_recordsb_ok; [discriminate|vm_compute; reflexivity]
  |constructor; [apply all_fitb_ok; vm_compute; reflexivity
                |intros C; vm_compute in C; discriminate C
                |apply commonb_ok; vm_compute; reflexivity
                |blank|phases]
  |unfold common_arrays; apply common_arraysb_ok; vm_compute; reflexivity
  |apply (versionb_ok _ (str "v0.6-61-gc13ad17")); [exact v06_hash|vm_compute; reflexivity]
  |exact v06
  |vm_compute; reflexivity].
Ltac site_hyps blank phases :=
  unfold site_hyps; split; [apply site_layoutb_ok; vm_compute; reflexivity|file_hyps blank phases].
Ltac no_phases := intros C; exfalso; revert C; apply no_varying_ok; vm_compute; reflexivity.

(** The file of [raw_wide], whose first record has the most beams, and a file of bfiq
    records with a phase for every pulse of every sequence. *)
Definition wide_counts : list counts := [mk_counts 3 2 2; mk_counts 2 1 1]%nat.
Lemma raw_wide_hyps : site_hyps site_fs BRawacf G6 raw_sizes wide_counts (records_in site_fs) (str "v0.6").
Proof. site_hyps ltac:(right; intros c [<-|[<-|[]]]; cbn; lia) no_phases. Qed.
Lemma wide_first : widest_first wide_counts.
Proof. intros c [<-|[<-|[]]]; cbn; lia. Qed.

Definition bf_fs (rs : brecords) : hfs := fst (write_records h5py_filters (format_class G6 Bfiq) empty_fs (str "f") rs None).
Definition bf_wide : brecords :=
  [(str "1558583991060", bfiq6 t1 3 2 2 [3; 2]%nat (ints 7 6)); (str "1558583991822", bfiq6 t2 2 1 1 [2; 2]%nat (ints 1 4))].
Definition bf_wide_fs : hfs := bf_fs bf_wide.
Lemma bf_wide_hyps : site_hyps bf_wide_fs Bfiq G6 bf_sizes wide_counts (records_in bf_wide_fs) (str "v0.6").
Proof.
  site_hyps ltac:(right; intros c [<-|[<-|[]]]; cbn; lia)
    ltac:(intros _; exists (fun c => [c_seq c; 2%nat]); split; [constructor; lia|];
          apply all_phasesb_ok; vm_compute; reflexivity).
Qed.
Definition phases_fitb (r : brecord) : bool :=
  match dict_get r (str "pulse_phase_offset"), dict_get r (str "pulses"), dict_get r (str "num_sequences") with
  | Some (BArr _ s _), Some (BArr _ s' _), Some (BScalar _ (CZ z)) => Z.of_nat (size s) =? z * Z.of_nat (size s')
  | _, _, _ => false
  end.
Lemma phases_fitb_ok (rs : brecords) : forallb (fun p => phases_fitb (snd p)) rs = true ->
  forall n r, In (n, r) rs -> phases_of_pulses r.
Proof.
  intros H n r HI. rewrite forallb_forall in H. apply H in HI. cbn [snd] in HI. unfold phases_fitb in HI.
  intros ty s l ty' s' l' ty'' z H1 H2 H3. right. rewrite H1, H2, H3 in HI. lia.
Qed.

Example C67_case :
  site_hyps site_fs BRawacf G6 raw_sizes wide_counts (records_in site_fs) (str "v0.6") /\ widest_first wide_counts /\
  keys (records_in site_fs) = [str "1558583991060"; str "1558583991822"] /\ snd (joined site_fs BRawacf) = Ok tt /\
  site_hyps bf_wide_fs Bfiq G6 bf_sizes wide_counts (records_in bf_wide_fs) (str "v0.6") /\
  (forall n r, In (n, r) (records_in bf_wide_fs) -> phases_of_pulses r) /\ snd (joined bf_wide_fs Bfiq) = Ok tt.
Proof.
  split; [exact raw_wide_hyps|]. split; [exact wide_first|]. split; [vm_compute; reflexivity|]. split; [vm_compute; reflexivity|].
  split; [exact bf_wide_hyps|]. split; [apply phases_fitb_ok; vm_compute; reflexivity|vm_compute; reflexivity].
Qed.

(** The first record must have the most beams: [raw_two], whose second record has
    one more, ends in a ValueError. *)
Definition narrow_fs : hfs := fst (site_write h5py_filters empty_fs (str "f") (DRecords raw_two) (str "rawacf") None).
Lemma narrow_hyps : site_hyps narrow_fs BRawacf G6 raw_sizes raw_counts (records_in narrow_fs) (str "v0.6").
Proof. site_hyps ltac:(right; intros c [<-|[<-|[]]]; cbn; lia) no_phases. Qed.
Theorem C67_beams_refuted :
  ~ (forall fs t g z cs rs v, site_hyps fs t g z cs rs v ->
       (role_of g t (str "pulse_phase_offset") Varying -> forall n r, In (n, r) rs -> phases_of_pulses r) ->
       snd (joined fs t) = Ok tt).
Proof.
  intros H. specialize (H _ _ _ _ _ _ _ narrow_hyps).
  assert (C : snd (joined narrow_fs BRawacf) = Ok tt) by (apply H; no_phases). vm_compute in C. discriminate C.
Qed.
Print Assumptions C67_beams_refuted.
Example C67_beams_error : snd (joined narrow_fs BRawacf) = Raise ValueError /\
  exists sr, site_read narrow_fs (str "f") (str "rawacf") = Ok sr.
Proof. split; [vm_compute; reflexivity|eexists; vm_compute; reflexivity]. Qed.

(** The phase offsets must be one for each pulse of each sequence.  BorealisSiteWrite
    writes one for each pulse; a file that it wrote, with several sequences in a
    record, ends in a ValueError. *)
Definition bf_own : brecords :=
  [(str "1558583991060", bfiq6 t1 3 2 2 [2%nat] (ints 7 2)); (str "1558583991822", bfiq6 t2 2 1 1 [2%nat] (ints 1 2))].
Definition own_fs : hfs := fst (site_write h5py_filters empty_fs (str "f") (DRecords bf_own) (str "bfiq") None).
Lemma own_hyps : site_hyps own_fs Bfiq G6 bf_sizes wide_counts (records_in own_fs) (str "v0.6").
Proof.
  site_hyps ltac:(right; intros c [<-|[<-|[]]]; cbn; lia)
    ltac:(intros _; exists (fun _ => [2%nat]); split;
          [constructor; [lia|intros c [<-|[<-|[]]]; cbn; lia]|];
          apply all_phasesb_ok; vm_compute; reflexivity).
Qed.
Theorem C67_phases_refuted :
  ~ (forall fs t g z cs rs v, site_hyps fs t g z cs rs v -> widest_first cs -> snd (joined fs t) = Ok tt).
Proof. intros H. specialize (H _ _ _ _ _ _ _ own_hyps wide_first). vm_compute in H. discriminate H. Qed.
Print Assumptions C67_phases_refuted.
Example C67_phases_error : snd (joined own_fs Bfiq) = Raise ValueError /\
  exists sr, site_read own_fs (str "f") (str "bfiq") = Ok sr.
Proof. split; [vm_compute; reflexivity|eexists; vm_compute; reflexivity]. Qed.

(** With a single pulse and several sequences the phase offsets are lost without an
    error. *)
Definition one_pulse (id : Z) : brecord :=
  dict_set (bfiq6 id 2 1 1 [1%nat] [CZ 7]) (str "pulses") (BArr BU32 [1%nat] [CZ 0]).
Definition bf_single : brecords := [(str "1558583991060", one_pulse t1); (str "1558583991822", one_pulse t2)].
Definition single_fs : hfs := fst (site_write h5py_filters empty_fs (str "f") (DRecords bf_single) (str "bfiq") None).
Definition single_counts : list counts := [mk_counts 2 1 1; mk_counts 2 1 1]%nat.
Lemma single_hyps : site_hyps single_fs Bfiq G6 bf_sizes single_counts (records_in single_fs) (str "v0.6").
Proof.
  site_hyps ltac:(right; intros c [<-|[<-|[]]]; cbn; lia)
    ltac:(intros _; exists (fun _ => [1%nat]); split;
          [constructor; [lia|intros c [<-|[<-|[]]]; cbn; lia]|];
          apply all_phasesb_ok; vm_compute; reflexivity).
Qed.
Definition phases_read (fs : hfs) : option bval :=
  match array_read fs (str "g") (str "bfiq") with Ok ar => dict_get (ar_arrays ar) (str "pulse_phase_offset") | Raise _ => None end.
Definition phases_made (rs : brecords) : option bval :=
  match site_to_array (format_class G6 Bfiq) rs with Ok a => dict_get a (str "pulse_phase_offset") | Raise _ => None end.
Example C67_lost_case : snd (joined single_fs Bfiq) = Ok tt /\
  phases_made (records_in single_fs) = Some (BArr BF32 [2; 1]%nat [CZ 7; CZ 7]) /\
  phases_read (fst (joined single_fs Bfiq)) = Some (BArr BF32 [2; 0]%nat []).
Proof. splits; vm_compute; reflexivity. Qed.

Lemma phases_other a a' b b' : dict_get a (str "pulse_phase_offset") = Some (BArr BF32 [2; 1]%nat b) ->
  dict_get a' (str "pulse_phase_offset") = Some (BArr BF32 [2; 0]%nat b') -> ~ arrays_back a a'.
Proof.
  intros H1 H2 [_ HB]. rewrite H1 in HB. destruct HB as (s & S1 & S2 & _). cbn [has_shape] in S1. subst s.
  rewrite H2 in S2. assert (C : [2; 1]%nat <> [2%nat]) by discriminate. apply S2 in C. discriminate C.
Qed.
Theorem C67_lost_refuted :
  ~ (forall fs t g z cs rs v fs' a ar, site_hyps fs t g z cs rs v -> widest_first cs ->
       joined fs t = (fs', Ok tt) -> site_to_array (format_class g t) rs = Ok a -> array_read fs' (str "g") (type_name t) = Ok ar ->
       arrays_back a (ar_arrays ar)).
Proof.
  intros H.
  destruct (site_to_array (format_class G6 Bfiq) (records_in single_fs)) as [a|] eqn:E1; [|vm_compute in E1; discriminate E1].
  destruct (array_read (fst (joined single_fs Bfiq)) (str "g") (type_name Bfiq)) as [ar|] eqn:E2; [|vm_compute in E2; discriminate E2].
  assert (W : widest_first single_counts) by (intros c [<-|[<-|[]]]; cbn; lia).
  destruct C67_lost_case as (O1 & O2 & O3). unfold phases_made in O2. rewrite E1 in O2. unfold phases_read in O3.
  change (str "bfiq") with (type_name Bfiq) in O3. rewrite E2 in O3.
  assert (HR : joined single_fs Bfiq = (fst (joined single_fs Bfiq), Ok tt)) by (rewrite <- O1; apply surjective_pairing).
  specialize (H _ _ _ _ _ _ _ _ _ _ single_hyps W HR E1 E2). revert H. exact (phases_other _ _ _ _ O2 O3).
Qed.
Print Assumptions C67_lost_refuted.

(** The texts must be byte strings of fixed length: with the station stored as a
    string of variable length, as h5py stores a Python text, the file can be read but
    not restructured. *)
Definition with_text (i : hitem) : hitem :=
  match i with HGroup ds als => HGroup ds (dict_set als (str "station") (HStr (str "sas"))) | i => i end.
Definition text_fs : hfs :=
  h5_close empty_fs (str "f") (mk_hfile (map (fun p => (fst p, with_text (snd p))) (h_items (file_in site_fs (str "f")))) []).
Lemma text_hyps : file_hyps text_fs BRawacf G6 raw_sizes wide_counts (records_in text_fs) (str "v0.6").
Proof. file_hyps ltac:(right; intros c [<-|[<-|[]]]; cbn; lia) no_phases. Qed.
Theorem C67_text_refuted :
  ~ (forall fs t g z cs rs v, file_hyps fs t g z cs rs v -> widest_first cs ->
       (role_of g t (str "pulse_phase_offset") Varying -> forall n r, In (n, r) rs -> phases_of_pulses r) ->
       snd (joined fs t) = Ok tt).
Proof.
  intros H. specialize (H _ _ _ _ _ _ _ text_hyps wide_first).
  assert (C : snd (joined text_fs BRawacf) = Ok tt) by (apply H; no_phases). vm_compute in C. discriminate C.
Qed.
Print Assumptions C67_text_refuted.
Example C67_text_case : snd (joined text_fs BRawacf) = Raise BorealisRestructureError /\
  records_in text_fs = records_in site_fs /\ exists sr, site_read text_fs (str "f") (str "rawacf") = Ok sr.
Proof. splits; [vm_compute; reflexivity|vm_compute; reflexivity|eexists; vm_compute; reflexivity]. Qed.
