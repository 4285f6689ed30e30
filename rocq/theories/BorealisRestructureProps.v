(** Properties of BorealisRestructure: C43. *)
From Coq Require Import String ZArith List Bool Lia.
From Verif Require Import Base BytesProofs SDarnFormats BorealisTypes BorealisFormats BorealisChecks BorealisArrays
  BorealisTime BorealisFile BorealisRestructure BorealisSpec BorealisFileSpec BorealisRestructureSpec BorealisCases
  BorealisCheckProofs BorealisFileProofs BorealisFileCaseProofs BorealisArrayProps BorealisFileProps BorealisRestructureProofs DmapFileProofs.
Import ListNotations.
Open Scope list_scope.
Open Scope Z_scope.

(** ** Cases *)

(** Two rawacf records, the first with more beams, in a site file "f"; their arrays in
    a file "g". *)
Definition raw_wide : brecords :=
  [(str "1558583991060", raw6 t1 3 2 2); (str "1558583991822", raw6 t2 2 1 1)].
Definition site_fs : hfs :=
  fst (site_write h5py_filters empty_fs (str "f") (DRecords raw_wide) (str "rawacf") None).
Definition both : hfs * res unit := restructure h5py_filters site_fs (str "f") (str "g") (str "rawacf") (str "array") None.
Definition file_in (fs : hfs) (n : pystr) : hfile := match fs n with Some (Hdf f) => f | _ => mk_hfile [] [] end.

(** The same file with the hash of a release without a format. *)
Definition late_file : hfile :=
  mk_hfile [] [(str "borealis_git_hash", HBytes (str "v1.0-3-gc13ad17"))].
Definition late_fs : hfs := h5_close empty_fs (str "f") late_file.

Lemma site_fs_facts : holds site_fs (str "f") (file_in site_fs (str "f")) /\
  NoDup (keys (h_items (file_in site_fs (str "f")))) /\
  has_structure (file_in site_fs (str "f")) (str "site") /\ has_version (file_in site_fs (str "f")) (str "v0.6").
Proof.
  assert (ND : NoDup (keys (h_items (file_in site_fs (str "f"))))) by (apply nodupb_ok; vm_compute; reflexivity).
  assert (HS : has_structure (file_in site_fs (str "f")) (str "site")) by (apply structure_iff; vm_compute; reflexivity).
  splits.
  - vm_compute. reflexivity.
  - exact ND.
  - exact HS.
  - exists (str "v0.6-61-gc13ad17"). split; [exact v06_hash|]. right. split.
    + destruct HS as [[C _]|[_ N]]; [vm_compute in C; discriminate C|exact N].
    + apply first_hash_eq; [exact ND|vm_compute; reflexivity].
Qed.

(** ** C43 Restructuring *)

(** Types, structures and names are checked first, whatever the input file is. *)
Theorem C43_type : forall av fs i o ft s c, (forall t, has_structures t -> ft <> type_name t) ->
  restructure av fs i o ft s c = (fs, Raise BorealisFileTypeError).
Proof. exact restructure_type. Qed.
Print Assumptions C43_type.

Theorem C43_structure : forall av fs i o t s c, has_structures t -> s <> str "site" -> s <> str "array" ->
  restructure av fs i o (type_name t) s c = (fs, Raise BorealisStructureError).
Proof. exact restructure_structure. Qed.
Print Assumptions C43_structure.

Theorem C43_overwrite : forall av fs i t s c, has_structures t -> s = str "site" \/ s = str "array" ->
  restructure av fs i i (type_name t) s c = (fs, Raise ConvertFileOverWriteError).
Proof. exact restructure_overwrite. Qed.
Print Assumptions C43_overwrite.

(** Nothing happens to a file that has the structure already. *)
Theorem C43_nothing : forall av fs i o f t s c v g, has_structures t -> i <> o -> holds fs i f ->
  NoDup (keys (h_items f)) -> has_version f v -> supported v g -> has_structure f s ->
  restructure av fs i o (type_name t) s c = (fs, Ok tt).
Proof.
  intros av fs i o f t s c v g HT HO HF HN HV HG HS.
  assert (HT2 : s = str "site" \/ s = str "array") by (destruct HS as [[-> _]|[-> _]]; auto).
  rewrite (restructure_start av fs i o f t s c v) by assumption. apply supported_gen in HG. rewrite HG.
  apply structure_iff in HS. rewrite HS, str_eqb_refl. reflexivity.
Qed.
Print Assumptions C43_nothing.

(** An unsupported version is a KeyError, not a BorealisVersionError; nothing is written. *)
Theorem C43_version : forall av fs i o f t s c v, has_structures t -> s = str "site" \/ s = str "array" -> i <> o ->
  holds fs i f -> NoDup (keys (h_items f)) -> has_version f v -> (forall g, ~ supported v g) ->
  restructure av fs i o (type_name t) s c = (fs, Raise KeyError).
Proof.
  intros av fs i o f t s c v HT HS HO HF HN HV HG. rewrite (restructure_start av fs i o f t s c v) by assumption.
  apply not_supported in HG. now rewrite HG.
Qed.
Print Assumptions C43_version.

(** Only the output file can change, whatever happens; in particular never the
    input file. *)
Theorem C43_only_output : forall av fs i o ft s c fs' r, restructure av fs i o ft s c = (fs', r) ->
  only_file o fs fs' /\ fs' i = fs i.
Proof.
  intros av fs i o ft s c fs' r E.
  assert (H : only_file o fs fs') by (pose proof (restructure_only av fs i o ft s c) as H; now rewrite E in H).
  split; [exact H|]. destruct (list_eq_dec Z.eq_dec i o) as [->|N]; [|now apply H].
  destruct (restructured_type ft) as [t|] eqn:ET.
  - destruct (restructured_iff ft t ET) as [-> HT].
    destruct (str_eqb s (str "site")) eqn:E1; [|destruct (str_eqb s (str "array")) eqn:E2].
    + apply str_eqb_eq in E1. rewrite restructure_overwrite in E by auto. now injection E as <- _.
    + apply str_eqb_eq in E2. rewrite restructure_overwrite in E by auto. now injection E as <- _.
    + rewrite restructure_structure in E; [now injection E as <- _|exact HT| |]; now apply str_eqb_neq.
  - unfold restructure in E. rewrite ET in E. now injection E as <- _.
Qed.
Print Assumptions C43_only_output.

(** The documentation says that the data are put into a file of the given name. *)
Theorem C43_output_refuted :
  ~ (forall av fs i o t s c fs', restructure av fs i o (type_name t) s c = (fs', Ok tt) -> exists f, holds fs' o f).
Proof.
  intros H. destruct site_fs_facts as (F1 & F2 & F3 & F4).
  destruct (H h5py_filters site_fs (str "f") (str "h") BRawacf (str "site") None site_fs) as (f & E).
  - refine (C43_nothing h5py_filters site_fs _ _ _ BRawacf _ None _ G6 _ _ F1 F2 F4 v06 F3); [discriminate|].
    intros C. vm_compute in C. discriminate C.
  - vm_compute in E. discriminate E.
Qed.
Print Assumptions C43_output_refuted.

Definition names_of_file (r : res hfile) : option (nat * nat) :=
  match r with Ok f => Some (length (h_items f), length (h_attrs f)) | Raise _ => None end.
Example C43_case :
  (holds site_fs (str "f") (file_in site_fs (str "f")) /\ NoDup (keys (h_items (file_in site_fs (str "f")))) /\
   has_structure (file_in site_fs (str "f")) (str "site") /\ has_version (file_in site_fs (str "f")) (str "v0.6")) /\
  supported (str "v0.6") G6 /\
  (forall t, has_structures t -> str "rawrf" <> type_name t) /\
  snd both = Ok tt /\ names_of_file (h5_open (fst both) (str "g")) = Some (22%nat, 20%nat) /\
  holds late_fs (str "f") late_file /\ has_version late_file (str "v1.0") /\ (forall g, ~ supported (str "v1.0") g).
Proof.
  split; [exact site_fs_facts|]. split; [exact v06|]. split; [|split; [|split; [|split; [|split]]]].
  - intros t HT C. destruct t; vm_compute in C; try discriminate C. now apply HT.
  - vm_compute. reflexivity.
  - vm_compute. reflexivity.
  - reflexivity.
  - exists (str "v1.0-3-gc13ad17"). split; [apply version_of_ok; vm_compute; reflexivity|]. left.
    eexists. split; vm_compute; reflexivity.
  - intros g [E|[E|[E|[E|[E|[E|[]]]]]]]; discriminate E.
Qed.
