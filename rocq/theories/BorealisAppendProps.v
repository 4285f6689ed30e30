(** Writing to files that are there (C58); files and arguments that are refused
    (C59). *)
From Coq Require Import String ZArith List Bool Lia Sorted.
From Verif Require Import Base BytesProofs Utf8 SDarnFormats BorealisTypes BorealisFormats BorealisChecks BorealisArrays
  BorealisTime BorealisFile BorealisRestructure BorealisSpec BorealisFileSpec BorealisRestructureSpec BorealisAppendSpec BorealisCases
  BorealisCheckProofs BorealisFileProofs BorealisFileCaseProofs BorealisFileProps BorealisRestructureProofs BorealisAppendProofs
  SDarnChecks DmapFileProofs.
Import ListNotations.
Open Scope list_scope.
Open Scope Z_scope.

(** ** C58 Writing to a file that is there *)

(** Whatever is written and however it ends, no other file changes and no group or
    dataset of the file is changed or removed. *)
Theorem C58_kept : forall av fs name d ft s c fs' r, borealis_write av fs name d ft s c = (fs', r) ->
  only_file name fs fs' /\ file_kept name fs fs'.
Proof. exact write_kept. Qed.
Print Assumptions C58_kept.

(** Records with new names are added to the groups of the file. *)
Theorem C58_added : forall av fs name t g rs c v f,
  has_structures t -> proper rs ->
  (forall n r, In (n, r) rs -> group_name n /\ site_record_ok (format_class g t) r /\ storable (format_class g t) r) ->
  records_version rs v -> supported v g -> can_compress av c -> holds fs name f ->
  (forall n, In n (keys rs) -> ~ In n (keys (h_items f))) ->
  exists fs' its, site_write av fs name (DRecords rs) (type_name t) c = (fs', Ok tt) /\
    holds fs' name (mk_hfile (h_items f ++ its) (h_attrs f)) /\ keys its = keys rs /\
    (forall n r, In (n, r) rs -> exists i r', In (n, i) its /\ read_record i = Ok r' /\ same_fields_as r r').
Proof. exact site_added. Qed.
Print Assumptions C58_added.

(** A name that is taken is a ValueError; the file does not change if it is the first
    name. *)
Theorem C58_clash : forall av fs name t g rs c v f n,
  has_structures t -> proper rs ->
  (forall n r, In (n, r) rs -> group_name n /\ site_record_ok (format_class g t) r /\ storable (format_class g t) r) ->
  records_version rs v -> supported v g -> can_compress av c -> holds fs name f ->
  In n (keys rs) -> In n (keys (h_items f)) ->
  exists fs', site_write av fs name (DRecords rs) (type_name t) c = (fs', Raise ValueError) /\
    (n = hd [] (keys rs) -> fs' name = fs name).
Proof. exact site_clash. Qed.
Print Assumptions C58_clash.

(** So the same records cannot be written twice. *)
Theorem C58_twice : forall av fs name t g rs c c2 v,
  has_structures t -> proper rs ->
  (forall n r, In (n, r) rs -> group_name n /\ site_record_ok (format_class g t) r /\ storable (format_class g t) r) ->
  records_version rs v -> supported v g -> can_compress av c -> can_compress av c2 -> fs name = None ->
  exists fs1 fs2, site_write av fs name (DRecords rs) (type_name t) c = (fs1, Ok tt) /\
    site_write av fs1 name (DRecords rs) (type_name t) c2 = (fs2, Raise ValueError) /\
    (forall n, fs2 n = fs1 n).
Proof.
  intros av fs name t g rs c c2 v HT HP HR HVer HV HC HC2 HN.
  destruct (site_written av fs name t g rs c v HT HP HR HVer HV HC HN) as (sa & its & W & _ & _ & HI).
  exists (h5_close fs name (mk_hfile its [])). pose proof (rel_keys _ _ _ HI) as KE.
  assert (NE : In (hd [] (keys rs)) (keys rs)).
  { destruct HVer as (n & r & _ & V & _). destruct rs as [|[m q] rs]; [destruct V|now left]. }
  assert (IN : In (hd [] (keys rs)) (keys (h_items (mk_hfile its [])))) by (cbn [h_items]; rewrite KE; exact NE).
  destruct (site_clash av (h5_close fs name (mk_hfile its [])) name t g rs c2 v (mk_hfile its []) (hd [] (keys rs))
    HT HP HR HVer HV HC2 (holds_close _ _ _) NE IN) as (fs2 & W2 & E).
  exists fs2. split; [exact W|]. split; [exact W2|]. intros n.
  pose proof (site_write_kept av (h5_close fs name (mk_hfile its [])) name (DRecords rs) (type_name t) c2) as [OK _].
  rewrite W2 in OK. cbn [fst] in OK. destruct (str_eqb n name) eqn:EN; [apply str_eqb_eq in EN; subst n; now apply E|].
  apply OK. intros ->. rewrite str_eqb_refl in EN. discriminate EN.
Qed.
Print Assumptions C58_twice.

(** Arrays can be written to a site file; afterwards it is not readable without naming
    the structure. *)
Theorem C58_mixed : forall av fs name t g a c h v f n,
  has_structures t -> NoDup (keys a) -> arrays_ok (format_class g t) a -> storable_arrays (format_class g t) a ->
  dict_get a (str "borealis_git_hash") = Some (BText h) -> hash_version h v -> supported v g ->
  can_compress av c -> holds fs name f -> h_attrs f = [] -> In n (keys (h_items f)) ->
  (forall m i, In (m, i) (h_items f) -> is_group i /\ ~ In m (keys a)) ->
  exists fs', array_write av fs name (DArrays a) (type_name t) c = (fs', Ok tt) /\
    array_read fs' name (type_name t) = Raise TypeError /\
    borealis_read fs' name (type_name t) None = Raise TypeError.
Proof.
  intros av fs name t g a c h v f n HT HN HO HS HH HVer HV HC HF HE HI HM.
  apply keys_in in HI as (i & HI). destruct (HM n i HI) as [(ds & als & ->) _]. now apply (arrays_on_site av fs name t g a c h v f n ds als).
Qed.
Print Assumptions C58_mixed.

(** A third record with a new name; then one with a new name before the name of
    [two]. *)
Definition third : brecords := [(str "1558583992500", raw6 7 1 2 3)].
Definition clashing : brecords := third ++ [(str "1558583991060", raw6 5 2 1 1)].
Definition names_in (fs : hfs) : list pystr :=
  match fs (str "f") with Some (Hdf f) => keys (h_items f) | _ => [] end.
Definition two_file : hfile := match two_fs (str "f") with Some (Hdf f) => f | _ => mk_hfile [] [] end.

Lemma third_good n r : In (n, r) third ->
  group_name n /\ site_record_ok (format_class G6 BRawacf) r /\ storable (format_class G6 BRawacf) r.
Proof.
  intros [E|[]]; injection E as <- <-; (split; [apply digits_name; [discriminate|reflexivity]|split; [good_record|apply storableb_ok; vm_compute; reflexivity]]).
Qed.

Example C58_case :
  holds two_fs (str "f") two_file /\
  (forall n, In n (keys third) -> ~ In n (keys (h_items two_file))) /\
  snd (site_write h5py_filters two_fs (str "f") (DRecords third) (str "rawacf") None) = Ok tt /\
  names_in (fst (site_write h5py_filters two_fs (str "f") (DRecords third) (str "rawacf") None)) =
    [str "1558583991822"; str "1558583991060"; str "1558583992500"] /\
  snd (site_write h5py_filters two_fs (str "f") (DRecords clashing) (str "rawacf") None) = Raise ValueError /\
  names_in (fst (site_write h5py_filters two_fs (str "f") (DRecords clashing) (str "rawacf") None)) =
    [str "1558583991822"; str "1558583991060"; str "1558583992500"] /\
  h_attrs two_file = [] /\
  (forall m i, In (m, i) (h_items two_file) -> is_group i /\ ~ In m (keys two_arrays)) /\
  snd (array_write h5py_filters two_fs (str "f") (DArrays two_arrays) (str "rawacf") None) = Ok tt.
Proof.
  assert (EK : keys (h_items two_file) = [str "1558583991822"; str "1558583991060"]) by (vm_compute; reflexivity).
  splits.
  - vm_compute. reflexivity.
  - intros n [<-|[]]. rewrite EK. intros [C|[C|[]]]; vm_compute in C; discriminate C.
  - vm_compute. reflexivity.
  - vm_compute. reflexivity.
  - vm_compute. reflexivity.
  - vm_compute. reflexivity.
  - vm_compute. reflexivity.
  - assert (G : forallb (fun p => match snd p with HGroup _ _ => negb (str_mem (fst p) (keys two_arrays)) | _ => false end) (h_items two_file) = true)
      by (vm_compute; reflexivity).
    intros m i H. rewrite forallb_forall in G. apply G in H. cbn [fst snd] in H. destruct i as [ds als|]; [|discriminate H].
    split; [now exists ds, als|]. apply negb_true_iff in H. intros C. apply str_mem_In in C. congruence.
  - vm_compute. reflexivity.
Qed.

(** ** C59 Files and arguments that are refused *)

(** A file that is not there is a FileNotFoundError, one that is not HDF5 an OSError,
    with every reader. *)
Theorem C59_missing : forall fs name t e,
  (fs name = None /\ e = FileNotFoundError) \/ (fs name = Some NotHdf /\ e = OSError) ->
  site_read fs name (type_name t) = Raise e /\ array_read fs name (type_name t) = Raise e /\
  (forall s, s = None \/ s = Some (str "site") \/ s = Some (str "array") -> borealis_read fs name (type_name t) s = Raise e).
Proof. exact read_missing. Qed.
Print Assumptions C59_missing.

(** A file whose first group has no hash, or that has no member, is not a site file; if
    it has no hash at its root either, it is a BorealisStructureError to read. *)
Theorem C59_no_hash : forall fs name f t, holds fs name f -> NoDup (keys (h_items f)) -> no_first_hash f ->
  site_read fs name (type_name t) = Raise BorealisStructureError /\
  borealis_read fs name (type_name t) (Some (str "site")) = Raise BorealisStructureError /\
  (~ In (str "borealis_git_hash") (keys (h_attrs f)) ->
   array_read fs name (type_name t) = Raise BorealisStructureError /\
   borealis_read fs name (type_name t) None = Raise BorealisStructureError).
Proof.
  intros fs name f t HF HN HH.
  assert (ES : site_read fs name (type_name t) = Raise BorealisStructureError).
  { unfold site_read, h5_open. rewrite type_name_of. unfold holds in HF. rewrite HF. cbn [rbind]. now rewrite site_no_hash. }
  assert (EB : borealis_read fs name (type_name t) (Some (str "site")) = Raise BorealisStructureError).
  { unfold borealis_read. rewrite type_name_of. change (str_eqb (str "site") (str "site")) with true. cbv iota. now rewrite ES. }
  splits; auto. intros HR. destruct (no_root_hash fs name f t HF HR) as [A B]. split; [exact A|]. now rewrite B.
Qed.
Print Assumptions C59_no_hash.

(** Restructuring such a file: an IndexError if it has no member. *)
Theorem C59_restructure_empty : forall av fs i o f t s c, has_structures t -> s = str "site" \/ s = str "array" -> i <> o ->
  holds fs i f -> h_items f = [] -> ~ In (str "borealis_git_hash") (keys (h_attrs f)) ->
  restructure av fs i o (type_name t) s c = (fs, Raise IndexError).
Proof.
  intros av fs i o f t s c HT HS NE HF HI HR. unfold restructure. rewrite (restructured_name t HT).
  assert (E1 : negb (str_eqb s (str "site") || str_eqb s (str "array")) = false) by (destruct HS as [-> | ->]; reflexivity).
  rewrite E1. rewrite (proj2 (str_eqb_neq i o) NE). unfold h5_open. unfold holds in HF. rewrite HF. cbn [rbind].
  unfold input_format.
  assert (ES : borealis_structure (record_names f) = str "site").
  { destruct (structure_two f) as [E|E]; [|exact E]. apply structure_array in E as [E|E]; [rewrite HI in E; destruct E|contradiction]. }
  rewrite ES. unfold file_version, members. change (str_eqb (str "site") (str "array")) with false.
  change (str_eqb (str "site") (str "site")) with true. cbv iota. now rewrite HI.
Qed.
Print Assumptions C59_restructure_empty.

(** Unknown file types.  BorealisSiteWrite fails with an AttributeError where the
    others say what is wrong. *)
Theorem C59_type : forall av fs name ft s d c, (forall t, ft <> type_name t) ->
  site_read fs name ft = Raise BorealisFileTypeError /\ array_read fs name ft = Raise BorealisFileTypeError /\
  borealis_read fs name ft s = Raise BorealisFileTypeError /\
  array_write av fs name d ft c = (fs, Raise BorealisFileTypeError) /\
  site_write av fs name d ft c = (fs, Raise AttributeError) /\
  borealis_write av fs name d ft None (Some c) = (fs, Raise BorealisFileTypeError).
Proof.
  intros av fs name ft s d c H. apply known_type in H.
  unfold borealis_write, return_writer, site_read, array_read, borealis_read, array_write, site_write. rewrite H. cbn [falls_back]. splits; reflexivity.
Qed.
Print Assumptions C59_type.

(** Unknown structures. *)
Theorem C59_structure : forall av fs name t s d c, s <> str "site" -> s <> str "array" ->
  borealis_read fs name (type_name t) (Some s) = Raise BorealisStructureError /\
  borealis_write av fs name d (type_name t) (Some s) c = (fs, Raise BorealisStructureError).
Proof.
  intros av fs name t s d c H1 H2. unfold borealis_read, borealis_write. rewrite type_name_of.
  rewrite (proj2 (str_eqb_neq s _) H1), (proj2 (str_eqb_neq s _) H2). split; reflexivity.
Qed.
Print Assumptions C59_structure.

(** Records can be written without a compression argument, whatever filters there
    are. *)
Theorem C59_default_site : forall av fs name t g rs v s,
  has_structures t -> proper rs -> ~ In (str "borealis_git_hash") (keys rs) ->
  (forall n r, In (n, r) rs -> group_name n /\ site_record_ok (format_class g t) r /\ storable (format_class g t) r) ->
  records_version rs v -> supported v g -> fs name = None -> s = None \/ s = Some (str "site") ->
  exists fs', borealis_write av fs name (DRecords rs) (type_name t) s None = (fs', Ok WroteSite).
Proof.
  intros av fs name t g rs v s HT HP HH HR HVer HV HN HS.
  destruct (site_file_round_trip av fs name t g rs None v HT HP HR HVer HV (or_introl eq_refl) HN) as (fs' & rd & W & _).
  exists fs'. assert (E : borealis_write av fs name (DRecords rs) (type_name t) (Some (str "site")) None = (fs', Ok WroteSite)).
  { unfold borealis_write. change (str_eqb (str "site") (str "site")) with true. cbv iota. unfold site_compression. now rewrite W. }
  destruct HS as [-> | ->]; [|exact E]. now rewrite write_records_site.
Qed.
Print Assumptions C59_default_site.

(** Attributes of the libraries do not matter to a reader. *)
Theorem C59_library_attributes : forall fs fs' name f f' ft s, holds fs name f -> holds fs' name f' -> same_file f f' ->
  site_read fs' name ft = site_read fs name ft /\ array_read fs' name ft = array_read fs name ft /\
  borealis_read fs' name ft s = borealis_read fs name ft s /\
  borealis_structure (record_names f') = borealis_structure (record_names f).
Proof.
  intros fs fs' name f f' ft s H1 H2 HS. destruct (same_reads f f' HS) as (E1 & E2 & E3 & E4 & E5). unfold holds in *.
  assert (ES : site_read fs' name ft = site_read fs name ft).
  { unfold site_read, site_read_file, h5_open. rewrite H1, H2. cbn [rbind]. now rewrite E1, E3. }
  assert (EA : array_read fs' name ft = array_read fs name ft).
  { unfold array_read, array_read_file, h5_open. rewrite H1, H2. cbn [rbind]. now rewrite E2, E4. }
  splits; auto.
  - unfold borealis_read, return_reader. now rewrite ES, EA.
  - now rewrite E5.
Qed.
Print Assumptions C59_library_attributes.

(** With compression only arrays with a dimension can be datasets, and the filter must
    be there. *)
Theorem C59_compression : forall av fs name rs t n fs' m r k v,
  site_write av fs name (DRecords rs) (type_name t) (Some n) = (fs', Ok tt) ->
  In (m, r) rs -> In (k, v) r -> (forall g ty, ~ site_attr (format_class g t) k ty) -> has_structures t ->
  av n = true /\ exists ty s l, v = BArr ty s l /\ s <> [].
Proof. exact compressed_site. Qed.
Print Assumptions C59_compression.

Definition no_hash_file : hfile := mk_hfile [(str "1558583991060", HGroup [] [(str "intf_antenna_count", HBytes [])])] [].
Definition no_hash_fs : hfs := h5_close empty_fs (str "f") no_hash_file.
Definition bare_file : hfs := h5_close empty_fs (str "f") (mk_hfile [] []).
Example C59_case :
  (empty_fs (str "f") = None /\ site_read empty_fs (str "f") (str "rawacf") = Raise FileNotFoundError) /\
  holds no_hash_fs (str "f") no_hash_file /\ no_first_hash no_hash_file /\
  ~ In (str "borealis_git_hash") (keys (h_attrs no_hash_file)) /\
  borealis_read no_hash_fs (str "f") (str "rawacf") None = Raise BorealisStructureError /\
  snd (restructure h5py_filters bare_file (str "f") (str "g") (str "rawacf") (str "array") None) = Raise IndexError /\
  (forall t, str "fitacf" <> type_name t) /\
  ~ In (str "borealis_git_hash") (keys two) /\
  (exists f, same_file two_file f /\ dict_get (h_attrs f) (str "TITLE") = Some (HBytes [])) /\
  snd (site_write h5py_filters empty_fs (str "f") (DRecords two) (str "rawacf") (Some (str "gzip"))) = Ok tt /\
  In (str "pulses", BArr BU32 [2%nat] [CZ 0; CZ 9]) (raw6 9 3 2 2) /\
  (forall g ty, ~ site_attr (format_class g BRawacf) (str "pulses") ty).
Proof.
  splits; try (vm_compute; reflexivity).
  - right. eexists _, _. split; [now left|]. split; [intros n' [<-|[]]; now left|]. intros [C|[]]. vm_compute in C. discriminate C.
  - intros [].
  - intros t C. destruct t; vm_compute in C; discriminate C.
  - intros [C|[C|[]]]; vm_compute in C; discriminate C.
  - exists (mk_hfile (h_items two_file) [(str "TITLE", HBytes [])]). split; [|vm_compute; reflexivity]. split.
    + cbn [h_items]. assert (R : forall a, same_attrs a a) by (induction a as [|[] a IH]; constructor; exact IH).
      induction (h_items two_file) as [|[n i] l IH]; constructor; [|exact IH]. split; [reflexivity|]. cbn [snd]. destruct i; constructor; apply R.
    + change (h_attrs two_file) with (@nil (pystr * hattr)). apply sa_right; [right; now left|constructor].
  - vm_compute. tauto.
  - intros g ty C. destruct (site_tables g BRawacf ltac:(discriminate)) as (sa & sd & E1 & _ & _ & _ & _ & HA & _). apply HA in C.
    assert (K : In (str "pulses") (keys sa)) by (apply keys_in; eauto). clear - E1 K.
    assert (X : match site_single_element_types (format_class g BRawacf) with Ok a => str_mem (str "pulses") (keys a) | Raise _ => true end = false)
      by (destruct g; vm_compute; reflexivity). rewrite E1 in X. apply str_mem_In in K. congruence.
Qed.
