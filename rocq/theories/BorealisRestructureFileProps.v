(** Properties of restructured files: C66. *)
From Coq Require Import String ZArith List Bool Lia.
From Verif Require Import BorealisCatalogue Base BytesProofs SDarnFormats BorealisTypes BorealisFormats BorealisChecks BorealisArrays
  BorealisTime BorealisFile BorealisRestructure BorealisSpec BorealisFileSpec BorealisRestructureSpec BorealisRestructureFileSpec BorealisCases
  BorealisCheckProofs BorealisFileProofs BorealisFileCaseProofs BorealisArrayProps BorealisFileProps BorealisRestructureProofs DmapFileProofs
  BorealisRestructureProps BorealisRestructureToSiteProofs.
Import ListNotations.
Open Scope list_scope.
Open Scope Z_scope.

(** Deciding the hypotheses for a concrete file. *)
Definition is_textb (t : btype) : bool := match t with BStr | BNpStr => true | _ => false end.
Definition text_nameb (F : format) (k : pystr) : bool :=
  existsb (fun p => str_eqb (fst p) k && is_textb (snd p)) (fm_array F ++ fm_single F).
Lemma text_nameb_ok F k : text_nameb F k = true <-> text_name F k.
Proof.
  unfold text_nameb, text_name. rewrite existsb_exists. split.
  - intros ([k' t] & HI & HT). cbn [fst snd] in HT. apply andb_true_iff in HT as [H1 H2]. apply str_eqb_eq in H1. subst k'.
    exists t. split; [now apply in_app_or|]. destruct t; try discriminate; auto.
  - intros (t & HI & HT). exists (k, t). split; [now apply in_or_app|]. cbn [fst snd]. rewrite str_eqb_refl.
    destruct HT as [-> | ->]; reflexivity.
Qed.

Definition is_itemb (d : hdset) : bool := match hd_item d with Some _ => true | None => false end.
Definition layoutb (F : format) (f : hfile) : bool :=
  nodupb (keys (h_items f)) && nodupb (keys (h_attrs f)) &&
  forallb (fun k => negb (str_mem k (keys (h_attrs f)))) (keys (h_items f)) &&
  forallb (fun k => str_mem k (keys (h_attrs f))) (keys (array_attrs F)) &&
  forallb (fun k => match dict_get (h_items f) k with
                    | Some (HDset d _) => Bool.eqb (is_itemb d) (text_nameb F k) | _ => false end) (keys (array_dsets F)).
Lemma layoutb_ok F f : layoutb F f = true -> array_layout F f.
Proof.
  unfold layoutb. intros H. repeat (apply andb_true_iff in H as [H ?]). rewrite forallb_forall in *.
  split; [now apply nodupb_ok|]. split; [now apply nodupb_ok|]. split; [|split].
  - intros k HK C. apply H2, negb_true_iff in HK. apply str_mem_In in C. congruence.
  - intros k t HA. apply str_mem_In, H1, keys_in. exists t. now apply in_array_attrs.
  - intros k t HA. assert (HK : In k (keys (array_dsets F))) by (apply keys_in; exists t; now apply in_array_dsets).
    apply H0 in HK. destruct (dict_get (h_items f) k) as [[|d al]|] eqn:E; try discriminate.
    apply SDarnChecks.dict_get_In in E. exists d, al. split; [exact E|]. right. apply eqb_prop in HK. rewrite <- text_nameb_ok, <- HK.
    unfold is_itemb. destruct (hd_item d); split; congruence.
Qed.

Definition not_negativeb (a : brecord) : bool :=
  forallb (fun k => match dict_get a k with
                    | Some (BArr _ _ l) => forallb (fun c => match c with CZ z => 0 <=? z | _ => true end) l
                    | _ => true end) count_fields.
Lemma not_negativeb_ok a : not_negativeb a = true -> counts_not_negative a.
Proof.
  intros H k t s l z HK HG HI. unfold not_negativeb in H. rewrite forallb_forall in H. apply H in HK. rewrite HG in HK.
  rewrite forallb_forall in HK. apply HK in HI. lia.
Qed.

Definition enoughb (a : brecord) : bool :=
  match dict_get a (str "pulse_phase_offset"), dict_get a (str "num_sequences") with
  | Some (BArr _ s _), Some (BArr _ _ l) =>
      forallb (fun c => match c with CZ z => z <=? Z.of_nat (size s) | _ => true end) l
  | _, _ => true
  end.
Lemma enoughb_ok a : enoughb a = true -> phases_enough a.
Proof.
  intros H t s l t' s' l' z H1 H2 HI. right. unfold enoughb in H. rewrite H1, H2 in H. rewrite forallb_forall in H. apply H in HI. lia.
Qed.

Definition wholeb (f : hfile) : bool :=
  forallb (fun p => match p with
                    | (k, HDset d _) => negb (str_eqb k (str "pulse_phase_offset") && (if list_eq_dec Nat.eq_dec (hd_shape d) [2%nat] then true else false))
                    | _ => true end) (h_items f).
Lemma wholeb_ok f : wholeb f = true -> phases_whole f.
Proof.
  intros H d al HI C. unfold wholeb in H. rewrite forallb_forall in H. apply H in HI. rewrite C in HI. vm_compute in HI. discriminate.
Qed.

(** C66. Restructuring an array file writes a site file that reads back as the
    records the array reader itself produces. *)
Theorem C66_to_site : forall av fs i o f t c rd rs,
  has_structures t -> i <> o -> holds fs i f -> array_layout (format_class (ar_gen rd) t) f -> phases_whole f ->
  array_read fs i (type_name t) = Ok rd -> counts_not_negative (ar_arrays rd) ->
  (role_of (ar_gen rd) t (str "pulse_phase_offset") Varying -> phases_enough (ar_arrays rd)) ->
  array_records (ar_gen rd) t (ar_arrays rd) = Ok rs -> rs <> [] -> number_of_times (ar_arrays rd) (length rs) ->
  (forall n r, In (n, r) rs -> storable (format_class (ar_gen rd) t) r) -> can_compress av c -> fs o = None ->
  exists fs' sr, restructure av fs i o (type_name t) (str "site") c = (fs', Ok tt) /\ only_file o fs fs' /\
    site_read fs' o (type_name t) = Ok sr /\ borealis_read fs' o (type_name t) None = Ok (SiteReader sr) /\
    sr_version sr = ar_version rd /\ sr_gen sr = ar_gen rd /\ sr_type sr = t /\ records_back rs (sr_records sr).
Proof. exact array_file_to_site. Qed.
Print Assumptions C66_to_site.

(** An array file of two bfiq records, and one of a record with fewer phase
    offsets than sequences. *)
Definition array_file (rs : brecords) : hfs :=
  match site_to_array (format_class G6 Bfiq) rs with
  | Ok a => fst (array_write h5py_filters empty_fs (str "g") (DArrays a) (str "bfiq") None)
  | Raise _ => empty_fs
  end.
Definition bf_few : brecords := [(str "1558583991060", bfiq6 t1 3 1 1 [2%nat] [CZ 7; CZ 8])].
Definition read_arrays (fs : hfs) : array_reader :=
  match array_read fs (str "g") (str "bfiq") with Ok rd => rd | Raise _ => mk_array_reader [] G6 Bfiq [] end.
Definition read_site (fs : hfs) : brecords :=
  match site_read fs (str "s") (str "bfiq") with Ok sr => sr_records sr | Raise _ => [] end.
Definition split_records (rd : array_reader) : brecords :=
  match array_records (ar_gen rd) Bfiq (ar_arrays rd) with Ok rs => rs | Raise _ => [] end.
Definition phase_offsets (rs : brecords) : list (option bval) :=
  map (fun p => dict_get (snd p) (str "pulse_phase_offset")) rs.
Definition split_file (rs : brecords) : hfs * res unit :=
  restructure h5py_filters (array_file rs) (str "g") (str "s") (str "bfiq") (str "site") None.
Strategy expand [split_file].

(** All hypotheses of C66_to_site but [phases_enough]. *)
Definition most_hyps (fs : hfs) (rd : array_reader) (rs : brecords) : Prop :=
  holds fs (str "g") (file_in fs (str "g")) /\ array_layout (format_class (ar_gen rd) Bfiq) (file_in fs (str "g")) /\
  phases_whole (file_in fs (str "g")) /\ array_read fs (str "g") (str "bfiq") = Ok rd /\ counts_not_negative (ar_arrays rd) /\
  array_records (ar_gen rd) Bfiq (ar_arrays rd) = Ok rs /\ rs <> [] /\ number_of_times (ar_arrays rd) (length rs) /\
  (forall n r, In (n, r) rs -> storable (format_class (ar_gen rd) Bfiq) r) /\ can_compress h5py_filters None /\ fs (str "s") = None.

Lemma all_storable F (rs : brecords) : forallb (fun p => keptb (site_attrs F) (fm_array F) (snd p)) rs = true ->
  forall n r, In (n, r) rs -> storable F r.
Proof. intros H n r HI. rewrite forallb_forall in H. apply H in HI. now apply storableb_ok. Qed.

Ltac most :=
  unfold most_hyps; splits;
  [vm_compute; reflexivity
  |apply layoutb_ok; vm_compute; reflexivity
  |apply wholeb_ok; vm_compute; reflexivity
  |vm_compute; reflexivity
  |apply not_negativeb_ok; vm_compute; reflexivity
  |vm_compute; reflexivity
  |intros C; vm_compute in C; discriminate C
  |eexists _, _, _; vm_compute; reflexivity
  |apply all_storable; vm_compute; reflexivity
  |left; reflexivity
  |vm_compute; reflexivity].

Example C66_case :
  let fs := array_file bf_two in let rd := read_arrays fs in let rs := split_records rd in
  most_hyps fs rd rs /\ phases_enough (ar_arrays rd) /\ keys rs = [str "1558583991060"; str "1558583991822"] /\
  snd (split_file bf_two) = Ok tt /\ keys (read_site (fst (split_file bf_two))) = [str "1558583991060"; str "1558583991822"].
Proof.
  cbv zeta. split; [most|]. split; [apply enoughb_ok; vm_compute; reflexivity|splits; vm_compute; reflexivity].
Qed.

(** The name, the phase offsets and the pulses of the first record. *)
Definition first_phases (rs : brecords) : option (pystr * option bval * option bval) :=
  match rs with
  | (n, r) :: _ => Some (n, dict_get r (str "pulse_phase_offset"), dict_get r (str "pulses"))
  | [] => None
  end.
Lemma first_phases_in rs n a b : first_phases rs = Some (n, a, b) ->
  exists r, In (n, r) rs /\ dict_get r (str "pulse_phase_offset") = a /\ dict_get r (str "pulses") = b.
Proof. destruct rs as [|[m r] l]; [discriminate|]. cbn [first_phases]. intros [= -> H2 H3]. exists r. split; [now left|now split]. Qed.

Lemma phases_differ rs rs' n b b' : first_phases rs = Some (n, Some (BArr BF32 [1%nat] [CZ 7]), Some (BArr BU32 [2%nat] b)) ->
  first_phases rs' = Some (n, Some (BArr BF32 [2%nat] [CZ 7; CZ 8]), b') -> ~ records_back rs rs'.
Proof.
  intros H1 H2 (_ & _ & HB). destruct (first_phases_in _ _ _ _ H1) as (r & I1 & P1 & P2).
  destruct (first_phases_in _ _ _ _ H2) as (r' & I2 & P3 & _). destruct (HB n r r' I1 I2) as [_ B2]. rewrite P1 in B2.
  destruct B2 as (p & s & sp & Q1 & Q2 & Q3 & _ & Q5). rewrite P2 in Q1. injection Q1 as <-. cbn [has_shape] in Q2, Q3. subst s sp.
  rewrite P3 in Q5. assert (C : [1%nat] <> [2%nat]) by discriminate. apply Q5 in C. discriminate C.
Qed.

(** [phases_enough] is needed: with 3 sequences and the phase offsets of 2 pulses,
    the array reader loses the last phase offset, so its record is stored with
    zeros; the restructured file has both offsets. *)
Theorem C66_phases_refuted :
  ~ (forall fs rd rs fs' sr, most_hyps fs rd rs ->
       restructure h5py_filters fs (str "g") (str "s") (str "bfiq") (str "site") None = (fs', Ok tt) ->
       site_read fs' (str "s") (str "bfiq") = Ok sr -> records_back rs (sr_records sr)).
Proof.
  intros H.
  destruct (site_read (fst (split_file bf_few)) (str "s") (str "bfiq")) as [sr|] eqn:E; [|vm_compute in E; discriminate E].
  assert (HS : sr_records sr = read_site (fst (split_file bf_few))) by (unfold read_site; now rewrite E).
  assert (HM : most_hyps (array_file bf_few) (read_arrays (array_file bf_few)) (split_records (read_arrays (array_file bf_few)))) by most.
  assert (HO : snd (split_file bf_few) = Ok tt) by (vm_compute; reflexivity).
  assert (HR : split_file bf_few = (fst (split_file bf_few), Ok tt)) by (rewrite <- HO; apply surjective_pairing).
  specialize (H (array_file bf_few) (read_arrays (array_file bf_few)) (split_records (read_arrays (array_file bf_few)))
                (fst (split_file bf_few)) sr HM).
  fold (split_file bf_few) in H. specialize (H HR E). rewrite HS in H. revert H.
  apply (phases_differ _ _ (str "1558583991060") [CZ 0; CZ 9] (Some (BArr BU32 [2%nat] [CZ 0; CZ 9]))); vm_compute; reflexivity.
Qed.
Print Assumptions C66_phases_refuted.

(** The number of records is needed: of two records that start in the same
    millisecond the array reader keeps the second, but restructuring fails, and
    leaves a file with the first. *)
Definition bf_clash : brecords :=
  [(str "1558583991060", bfiq6 t1 2 1 1 [2; 2]%nat (ints 1 4)); (str "x", bfiq6 t1' 2 1 1 [2; 2]%nat (ints 1 4))].
Theorem C66_clash_refuted :
  ~ (forall fs rd rs, array_read fs (str "g") (str "bfiq") = Ok rd -> array_records (ar_gen rd) Bfiq (ar_arrays rd) = Ok rs -> rs <> [] ->
       array_layout (format_class (ar_gen rd) Bfiq) (file_in fs (str "g")) -> phases_whole (file_in fs (str "g")) ->
       counts_not_negative (ar_arrays rd) -> phases_enough (ar_arrays rd) ->
       (forall n r, In (n, r) rs -> storable (format_class (ar_gen rd) Bfiq) r) -> fs (str "s") = None ->
       snd (restructure h5py_filters fs (str "g") (str "s") (str "bfiq") (str "site") None) = Ok tt).
Proof.
  intros H.
  specialize (H (array_file bf_clash) (read_arrays (array_file bf_clash)) (split_records (read_arrays (array_file bf_clash)))).
  assert (C : snd (split_file bf_clash) = Ok tt).
  { apply H.
    - vm_compute. reflexivity.
    - vm_compute. reflexivity.
    - intros C. vm_compute in C. discriminate C.
    - apply layoutb_ok. vm_compute. reflexivity.
    - apply wholeb_ok. vm_compute. reflexivity.
    - apply not_negativeb_ok. vm_compute. reflexivity.
    - apply enoughb_ok. vm_compute. reflexivity.
    - apply all_storable. vm_compute. reflexivity.
    - vm_compute. reflexivity. }
  vm_compute in C. discriminate C.
Qed.
Print Assumptions C66_clash_refuted.

Example C66_clash_case :
  snd (split_file bf_clash) = Raise BorealisRestructureError /\
  keys (split_records (read_arrays (array_file bf_clash))) = [str "1558583991060"] /\
  keys (h_items (file_in (fst (split_file bf_clash)) (str "s"))) = [str "1558583991060"].
Proof. splits; vm_compute; reflexivity. Qed.
