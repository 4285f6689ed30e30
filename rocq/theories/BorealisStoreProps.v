(** The property C94: what writing Borealis data puts into a file, and what it leaves there
    when it fails. *)
From Coq Require Import String ZArith List Bool Lia Permutation Sorted.
From Verif Require Import Base BytesProofs SDarnFormats BorealisTypes BorealisFormats BorealisArrays BorealisCases BorealisFile
  BorealisSpec BorealisFileSpec SDarnChecks DmapFileProofs BorealisCheckProofs BorealisFileCaseProofs BorealisFileProofs BorealisFileProps BorealisStoreSpec BorealisStoreProofs.
Import ListNotations.
Open Scope list_scope.
Open Scope Z_scope.

(** ** C94 What a write leaves in a file *)

(** Records that pass the checks: there is an outcome, *)
Theorem C94_records_total : forall av t g rs c v old, has_structures t -> proper rs ->
  (forall n r, In (n, r) rs -> group_name n /\ site_record_ok (format_class g t) r /\ known_fields (site_attribute (format_class g t)) r) ->
  records_version rs v -> supported v g ->
  exists its o, records_outcome (site_attribute (format_class g t)) av c old rs its o.
Proof. intros av t g rs c v old HT HP HR HV HS. exact (site_total av (fun _ => None) [] t g rs c v HT HP HR HV HS old). Qed.
Print Assumptions C94_records_total.
(** and this is how the write ends and what is in the file after it. *)
Theorem C94_records : forall av fs name t g rs c v, has_structures t -> proper rs ->
  (forall n r, In (n, r) rs -> group_name n /\ site_record_ok (format_class g t) r /\ known_fields (site_attribute (format_class g t)) r) ->
  records_version rs v -> supported v g ->
  (fs name = Some NotHdf -> site_write av fs name (DRecords rs) (type_name t) c = (fs, Raise OSError)) /\
  forall f its o, file_before fs name f -> records_outcome (site_attribute (format_class g t)) av c (h_items f) rs its o ->
    exists fs', site_write av fs name (DRecords rs) (type_name t) c = (fs', o) /\
      holds fs' name (mk_hfile (h_items f ++ its) (h_attrs f)) /\ only_file name fs fs'.
Proof.
  intros av fs name t g rs c v HT HP HR HV HS. split; [exact (site_not_hdf av fs name t g rs c v HT HP HR HV HS)|].
  exact (site_outcome av fs name t g rs c v HT HP HR HV HS).
Qed.
Print Assumptions C94_records.
(** So the outcome is one. *)
Theorem C94_records_one : forall av t g rs c v old its o its' o', has_structures t -> proper rs ->
  (forall n r, In (n, r) rs -> group_name n /\ site_record_ok (format_class g t) r /\ known_fields (site_attribute (format_class g t)) r) ->
  records_version rs v -> supported v g ->
  records_outcome (site_attribute (format_class g t)) av c old rs its o -> records_outcome (site_attribute (format_class g t)) av c old rs its' o' ->
  its = its' /\ o = o'.
Proof.
  intros av t g rs c v old its o its' o' HT HP HR HV HS O1 O2.
  destruct (C94_records av (fun _ => Some (Hdf (mk_hfile old []))) [] t g rs c v HT HP HR HV HS) as [_ H].
  destruct (H (mk_hfile old []) its o (or_introl eq_refl) O1) as (fs1 & W1 & H1 & _).
  destruct (H (mk_hfile old []) its' o' (or_introl eq_refl) O2) as (fs2 & W2 & H2 & _).
  rewrite W1 in W2. injection W2 as E ->. subst fs2. unfold holds in H1, H2. rewrite H1 in H2. injection H2 as E. cbn [h_items] in E.
  apply app_inv_head in E. auto.
Qed.
Print Assumptions C94_records_one.

(** The same of arrays; the attributes replace those of the file. *)
Theorem C94_arrays_total : forall av t g a c h v old, has_structures t -> NoDup (keys a) -> arrays_ok (format_class g t) a ->
  known_fields (array_attribute (format_class g t)) a -> dict_get a (str "borealis_git_hash") = Some (BText h) -> hash_version h v -> supported v g ->
  exists ds als o, arrays_outcome (array_attribute (format_class g t)) av c old a ds als o.
Proof. intros av t g a c h v old HT HN HO HK HH HV HS. exact (array_total av (fun _ => None) [] t g a c h v HT HN HO HK HH HV HS old). Qed.
Print Assumptions C94_arrays_total.
Theorem C94_arrays : forall av fs name t g a c h v, has_structures t -> NoDup (keys a) -> arrays_ok (format_class g t) a ->
  known_fields (array_attribute (format_class g t)) a -> dict_get a (str "borealis_git_hash") = Some (BText h) -> hash_version h v -> supported v g ->
  (fs name = Some NotHdf -> array_write av fs name (DArrays a) (type_name t) c = (fs, Raise OSError)) /\
  forall f ds als o, file_before fs name f -> arrays_outcome (array_attribute (format_class g t)) av c (h_items f) a ds als o ->
    exists fs' at', array_write av fs name (DArrays a) (type_name t) c = (fs', o) /\
      holds fs' name (mk_hfile (h_items f ++ map (fun p => (fst p, HDset (snd p) [])) ds) at') /\ laid_over (h_attrs f) als at' /\ only_file name fs fs'.
Proof.
  intros av fs name t g a c h v HT HN HO HK HH HV HS. split; [exact (array_not_hdf av fs name t g a c h v HT HN HO HH HV HS)|].
  exact (array_outcome av fs name t g a c h v HT HN HO HK HH HV HS).
Qed.
Print Assumptions C94_arrays.

(** *** Cases *)

Lemma kept_known F r : site_record_ok F r -> storable F r -> known_fields (site_attribute F) r.
Proof.
  intros (O1 & _) [S1 S2] k v I. split.
  - intros (t & H). destruct (S1 k v t I H); constructor; auto.
  - intros H. assert (FK : site_field F k) by (apply O1, keys_in; eauto). destruct FK as (t & [FK|FK]); [exfalso; apply H; now exists t|].
    destruct (S2 k v t I FK) as [ty s l _ R|s l _ _ T]; [now constructor|apply dk_texts].
    eapply Forall_impl; [|exact T]. intros c (x & -> & X & _). now exists x.
Qed.
Lemma kept_known_arrays F a : arrays_ok F a -> storable_arrays F a -> known_fields (array_attribute F) a.
Proof.
  intros (O1 & _) [S1 S2] k v I. split.
  - intros (t & H). destruct (S1 k v t I H); constructor; auto.
  - intros H. assert (FK : array_field F k) by (apply O1, keys_in; eauto). destruct FK as (t & [FK|FK]); [exfalso; apply H; now exists t|].
    destruct (S2 k v t I FK) as [ty s l _ R|s l _ _ T]; [now constructor|apply dk_texts].
    eapply Forall_impl; [|exact T]. intros c (x & -> & X & _). now exists x.
Qed.
Lemma known_text A r k s : NoDup (keys r) -> known_fields A r -> A k -> known_fields A (dict_set r k (BText s)).
Proof.
  intros N K HA k' v' I. apply set_in in I as [[-> ->]|[_ I]]; [|now apply K|exact N]. split; [constructor|contradiction].
Qed.

(** The second record has a comment that is not ASCII. *)
Definition accented : brecord := dict_set (raw6 5 2 1 1) (str "experiment_comment") (BText [233; 116; 233]).
Definition accents : brecords := [(str "1558583991822", raw6 9 3 2 2); (str "1558583991060", accented)].
Definition accented_arrays : brecord := dict_set two_arrays (str "experiment_comment") (BText [233; 116; 233]).
(** The numbers of datasets and attributes in the groups of a file. *)
Definition counts (fs : hfs) : list (pystr * (nat * nat)) :=
  match fs (str "f") with
  | Some (Hdf f) => map (fun p => (fst p, match snd p with HGroup d a => (length d, length a) | HDset _ _ => (1, 0) end)%nat) (h_items f)
  | _ => []
  end.
Definition root_counts (fs : hfs) : nat * nat :=
  match fs (str "f") with Some (Hdf f) => (length (h_items f), length (h_attrs f)) | _ => (0, 0)%nat end.

Lemma comment_attr : site_attribute (format_class G6 BRawacf) (str "experiment_comment").
Proof.
  destruct (site_tables G6 BRawacf) as (sa & sd & E1 & _ & _ & _ & _ & HA & _); [discriminate|].
  assert (I : str_mem (str "experiment_comment") (match site_single_element_types (format_class G6 BRawacf) with Ok d => keys d | Raise _ => [] end) = true)
    by (vm_compute; reflexivity).
  rewrite E1 in I. apply mem_keys in I as (ty & I). exists ty. now apply HA.
Qed.
Lemma accents_good n r : In (n, r) accents -> group_name n /\ site_record_ok (format_class G6 BRawacf) r /\ known_fields (site_attribute (format_class G6 BRawacf)) r.
Proof.
  intros [E|[E|[]]]; injection E as <- <-; (split; [apply digits_name; [discriminate|reflexivity]|]).
  - destruct (two_good (str "1558583991822") (raw6 9 3 2 2) (or_introl eq_refl)) as (_ & O & S). split; [exact O|]. exact (kept_known _ _ O S).
  - destruct (two_good (str "1558583991060") (raw6 5 2 1 1) (or_intror (or_introl eq_refl))) as (_ & O & S). split; [good_record|].
    apply known_text; [apply nodupb_ok; vm_compute; reflexivity|exact (kept_known _ _ O S)|exact comment_attr].
Qed.
Lemma accents_proper : proper accents.
Proof.
  split; [apply nodupb_ok; vm_compute; reflexivity|]. intros n r [E|[E|[]]]; injection E as <- <-; apply nodupb_ok; vm_compute; reflexivity.
Qed.
Lemma accents_version : records_version accents (str "v0.6").
Proof.
  destruct two_version as (n & r & h & V1 & V2 & V3 & V4). exists (str "1558583991060"), accented, (str "v0.6-61-gc13ad17").
  split; [right; now left|]. split.
  - intros n' [<-|[<-|[]]]; [right; repeat (first [apply lt_head; vm_compute; reflexivity|apply lt_tail])|now left].
  - split; [vm_compute; reflexivity|]. exact (ver_two (str "v0") (str "6") (str "-61-gc13ad17") ltac:(vm_compute; intuition discriminate) ltac:(vm_compute; intuition discriminate)
      ltac:(vm_compute; intuition discriminate) ltac:(vm_compute; intuition discriminate) ltac:(right; left; reflexivity)).
Qed.
Definition write_to (fs : hfs) (rs : brecords) (c : option pystr) : hfs * res unit := site_write h5py_filters fs (str "f") (DRecords rs) (str "rawacf") c.

Definition left_behind (w : hfs * res unit) : res unit * list (pystr * (nat * nat)) := let '(fs, r) := w in (r, counts fs).

(** The group of the record is there with the fields before the comment; a name that is
    taken; a filter that is not there. *)
Example C94_case :
  proper accents /\ records_version accents (str "v0.6") /\ supported (str "v0.6") G6 /\
  (forall n r, In (n, r) accents -> group_name n /\ site_record_ok (format_class G6 BRawacf) r /\ known_fields (site_attribute (format_class G6 BRawacf)) r) /\
  left_behind (write_to empty_fs accents None) =
    (Raise UnicodeEncodeError, [(str "1558583991822", (12, 29)); (str "1558583991060", (0, 3))]%nat) /\
  snd (write_to two_fs accents None) = Raise ValueError /\
  left_behind (write_to empty_fs accents (Some (str "zlib"))) = (Raise ValueError, [(str "1558583991822", (0, 18))]%nat).
Proof.
  split; [exact accents_proper|]. split; [exact accents_version|]. split; [exact v06|]. split; [exact accents_good|].
  repeat split; vm_compute; reflexivity.
Qed.
Example C94_arrays_case :
  (NoDup (keys two_arrays) /\ arrays_ok (format_class G6 BRawacf) two_arrays /\ known_fields (array_attribute (format_class G6 BRawacf)) two_arrays /\
   dict_get two_arrays (str "borealis_git_hash") = Some (BText (str "v0.6-61-gc13ad17"))) /\
  (let '(fs, r) := array_write h5py_filters empty_fs (str "f") (DArrays accented_arrays) (str "rawacf") None in (r, root_counts fs)) =
    (Raise UnicodeEncodeError, (0, 2)%nat).
Proof.
  split. { destruct two_arrays_good as (N & O & S & H). splits; auto. now apply kept_known_arrays. }
  repeat split; vm_compute; reflexivity.
Qed.
