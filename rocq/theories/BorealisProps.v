(** Properties of the Borealis field tables and checks (C36-C38, C53). *)
From Coq Require Import String ZArith List Bool Lia.
From Verif Require Import Base BytesProofs SDarnFormats BorealisTypes BorealisFormats BorealisChecks
  BorealisSpec BorealisCatalogue BorealisCases BorealisCheckProofs BorealisCatalogueProofs DmapFileProofs SDarnChecks.
Import ListNotations.
Open Scope list_scope.
Open Scope Z_scope.

(** ** C36 Site records *)

(** Records are accepted exactly when each has exactly the fields of its format,
    with the declared types. *)
Theorem C36_accepts : forall g t rs, has_structures t -> proper rs ->
  check_site_records (format_class g t) rs = Ok tt <->
  forall n r, In (n, r) rs -> site_record_ok (format_class g t) r.
Proof. exact site_check_iff. Qed.
Print Assumptions C36_accepts.

(** What is raised otherwise.  A report names every bad record and no other, with
    its missing, else its extra, else its mistyped fields; the first record with
    no field at all, or with a value that has no numpy type, ends the check. *)
Theorem C36_report : forall g t rs, has_structures t -> proper rs ->
  let F := format_class g t in
  match check_site_records F rs with
  | Ok _ => forall n r, In (n, r) rs -> verdict F r (Ok tt)
  | Raise (BorealisBadRecordsError m x i) =>
      (m <> [] \/ x <> [] \/ i <> []) /\
      reports F rs m BorealisFieldMissingError /\ reports F rs x BorealisExtraFieldError /\
      reports F rs i BorealisDataFormatTypeError /\
      (forall n r, In (n, r) rs -> ~ verdict F r (Raise BorealisStructureError) /\ ~ verdict F r (Raise AttributeError))
  | Raise e =>
      (e = BorealisStructureError \/ e = AttributeError) /\
      exists pre n r post, rs = pre ++ (n, r) :: post /\ verdict F r (Raise e) /\
        forall n' r', In (n', r') pre ->
          ~ verdict F r' (Raise BorealisStructureError) /\ ~ verdict F r' (Raise AttributeError)
  end.
Proof. exact site_check_report. Qed.
Print Assumptions C36_report.

(** The attributes and datasets meant in [site_record_ok] and [verdict] are those
    of the catalogue, except the fields made for array files. *)
Theorem C36_fields : forall g t, has_structures t -> let F := format_class g t in
  (forall k ty, site_attr F k ty <-> exists ro, listed g t k One ty ro /\ ro <> MadeArray) /\
  (forall k ty, site_dset F k ty <-> exists ro, listed g t k Many ty ro).
Proof. intros g t HT. destruct (spec_tables g t HT) as (H1 & H2 & _). split; assumption. Qed.
Print Assumptions C36_fields.

(** Two records with different dimensions; one with a field missing, one with a
    field too many, one with experiment_id of the type of older versions; a
    record of another world; a Python int. *)
Definition raw6_names : list pystr := map fst (raw6 1 2 1 1).
Definition raw6_short : brecord := dict_pop (raw6 1 2 1 1) (str "freq").
Definition raw6_long : brecord := raw6 1 2 1 1 ++ [(str "num_beams", BScalar BU32 (CZ 1))].
Definition raw6_old : brecord := dict_set (raw6 1 2 1 1) (str "experiment_id") (BScalar BI64 (CZ 3503)).
Definition raw6_plain : brecord := dict_set (raw6 1 2 1 1) (str "freq") BPlain.

Example C36_case :
  let F := format_class G6 BRawacf in
  check_site_records F [(str "1", raw6 1 2 1 1); (str "2", raw6 50 3 2 2)] = Ok tt /\
  check_site_records F [(str "1", raw6_short); (str "2", raw6 50 3 2 2); (str "3", raw6_long); (str "4", raw6_old)] =
    Raise (BorealisBadRecordsError [(str "1", [str "freq"])] [(str "3", [str "num_beams"])]
             [(str "4", [str "experiment_id"])]) /\
  check_site_records F [(str "1", raw6_short); (str "2", [(str "a", BText [])]); (str "3", raw6_plain)] =
    Raise BorealisStructureError /\
  check_site_records F [(str "1", raw6_short); (str "3", raw6_plain)] = Raise AttributeError.
Proof. cbv zeta. splits; vm_compute; reflexivity. Qed.

Example C36_case_proper : has_structures BRawacf /\
  proper [(str "1", raw6_short); (str "2", raw6 50 3 2 2); (str "3", raw6_long); (str "4", raw6_old)].
Proof.
  split; [discriminate|]. split; [apply nodupb_ok; vm_compute; reflexivity|].
  intros n r [H|[H|[H|[H|[]]]]]; inversion H; subst; apply nodupb_ok; vm_compute; reflexivity.
Qed.

(** ** C37 Array dictionaries *)

(** An array dictionary is accepted exactly when it has exactly the fields of its
    format, each an attribute or an array of the right type, and all fields that
    vary from record to record have the same number of rows. *)
Theorem C37_accepts : forall g t a, has_structures t -> NoDup (keys a) ->
  check_array_dict (format_class g t) a = Ok tt <-> arrays_ok (format_class g t) a.
Proof. exact arrays_ok_check. Qed.
Print Assumptions C37_accepts.

(** What is raised otherwise. *)
Theorem C37_verdict : forall g t a, has_structures t -> NoDup (keys a) ->
  array_verdict (format_class g t) a (check_array_dict (format_class g t) a).
Proof. exact array_check_verdict. Qed.
Print Assumptions C37_verdict.

(** The attributes, datasets and per-record fields meant, by the catalogue. *)
Theorem C37_fields : forall g t, has_structures t -> let F := format_class g t in
  (forall k ty, array_attr F k ty <-> listed g t k One ty Common) /\
  (forall k ty, array_dset F k ty <->
     (exists ro, listed g t k Many ty ro /\ ro <> MadeSite) \/
     (exists ro, listed g t k One ty ro /\ ro <> Common)) /\
  (forall k, per_record F k <-> role_of g t k Varying).
Proof. intros g t HT. destruct (spec_tables g t HT) as (_ & _ & H). exact H. Qed.
Print Assumptions C37_fields.

(** A good dictionary of two records; one with three entries of int_time; one with
    an array for an attribute; one where the broken pulse_phase_offset of two
    int64 passes, and a text array for a number. *)
Example C37_case :
  let F := format_class G4 AntennasIq in
  check_array_dict F ant4_arrays = Ok tt /\
  check_array_dict F (dict_set ant4_arrays (str "int_time") (BArr BF32 [3%nat] [CZ 1; CZ 2; CZ 3])) =
    Raise BorealisNumberOfRecordsError /\
  check_array_dict F (dict_set ant4_arrays (str "freq") (BArr BU32 [1%nat] [CZ 1])) = Raise BorealisStructureError /\
  check_array_dict F (dict_set ant4_arrays (str "freq") (BScalar BI64 (CZ 1))) =
    Raise (BorealisDataFormatTypeError [str "freq"]) /\
  check_array_dict F (dict_pop ant4_arrays (str "num_beams")) =
    Raise (BorealisFieldMissingError [str "num_beams"]) /\
  check_array_dict F (ant4_arrays ++ [(str "slice_id", BScalar BU32 (CZ 1))]) =
    Raise (BorealisExtraFieldError [str "slice_id"]) /\
  check_array_dict F (dict_set ant4_arrays (str "pulse_phase_offset") (BArr BI64 [2%nat] [CZ 1; CZ 0])) = Ok tt /\
  check_array_dict F (dict_set ant4_arrays (str "pulses") (BArr BNpStr [1%nat] [CS (str "x")])) = Ok tt /\
  NoDup (keys ant4_arrays).
Proof. cbv zeta. splits; try (vm_compute; reflexivity). apply nodupb_ok. vm_compute. reflexivity. Qed.

(** ** C38 The tables *)

(** The tables of every version and file type are those of the catalogue:
    single-element and array types, shared fields (pulse_phase_offset also where
    it varies), unshared fields (the same in the dimension tables of both
    structures), the fields made for each structure, and the fields of both
    structures. *)
Theorem C38_tables : forall g t, has_structures t ->
  let F := format_class g t in
  (forall k ty, In (k, ty) (fm_single F) <-> exists ro, listed g t k One ty ro) /\
  (forall k ty, In (k, ty) (fm_array F) <-> exists ro, listed g t k Many ty ro) /\
  (forall k, In k (fm_shared F) <->
     role_of g t k Common \/ (k = str "pulse_phase_offset" /\ role_of g t k Varying)) /\
  (exists u s a, unshared_fields F = Ok u /\ site_fields F = Ok s /\ array_fields F = Ok a /\
     (forall k, In k u <-> role_of g t k Varying) /\
     (forall k, In k s <-> exists ro, role_of g t k ro /\ ro <> MadeArray) /\
     (forall k, In k a <-> exists ro, role_of g t k ro /\ ro <> MadeSite)) /\
  (forall k, In k (map fst (fm_dims_site F)) <-> role_of g t k Varying) /\
  (forall k, In k (array_specific_fields F) <-> role_of g t k MadeArray \/ role_of g t k MadeBoth) /\
  (forall k, In k (site_specific_fields F) <-> role_of g t k MadeSite \/ role_of g t k MadeBoth).
Proof. exact catalogue_lists. Qed.
Print Assumptions C38_tables.

(** A field has one kind, one type and one role; so the classes above are
    disjoint, but for pulse_phase_offset. *)
Theorem C38_one_role : forall g t k kd ty ro kd' ty' ro',
  listed g t k kd ty ro -> listed g t k kd' ty' ro' -> kd = kd' /\ ty = ty' /\ ro = ro'.
Proof. exact listed_unique. Qed.
Print Assumptions C38_one_role.

(** Every version of the version table has one of the four generations. *)
Theorem C38_versions : forall v,
  (exists g, version_generation v = Some g) <-> In v versions.
Proof.
  intros v. unfold version_generation, versions. split.
  - intros [g H]. apply dict_get_In in H. cbn [In] in *.
    repeat (destruct H as [H|H]; [inversion H; auto 10|]). contradiction.
  - intros H. cbn [In] in H.
    repeat (destruct H as [<-|H]; [eexists; vm_compute; reflexivity|]). contradiction.
Qed.
Print Assumptions C38_versions.

Example C38_case :
  listed G7 Bfiq (str "scan_start_marker") One BBool Varying /\
  listed G6 AntennasIq (str "pulse_phase_offset") Many BF32 Varying /\
  ~ (exists kd ty ro, listed G6 AntennasIq (str "lags") kd ty ro).
Proof.
  splits.
  - exists (mk_row (str "scan_start_marker") One (until 7 BU8 BBool) all3 (fixed Varying)).
    splits; try (vm_compute; reflexivity). unfold catalogue. cbn [In]. auto 60.
  - exists (mk_row (str "pulse_phase_offset") Many (fixed BF32) iq (until 6 Common Varying)).
    splits; try (vm_compute; reflexivity). unfold catalogue. cbn [In]. auto 60.
  - intros (kd & ty & ro & r & Hc & Hn & _ & _ & Hi & _).
    assert (E : forallb (fun r => negb (str_eqb (fr_name r) (str "lags") && fr_in r AntennasIq G6)) catalogue = true)
      by (vm_compute; reflexivity).
    rewrite forallb_forall in E. apply E in Hc. rewrite Hn, Hi in Hc. vm_compute in Hc. discriminate.
Qed.

(** Shared and unshared fields are not disjoint in general: pulse_phase_offset is
    in both lists from version 0.6 on. *)
Theorem C38_disjoint_refuted :
  ~ (forall g t, has_structures t -> forall u, unshared_fields (format_class g t) = Ok u ->
       forall k, In k (fm_shared (format_class g t)) -> ~ In k u).
Proof.
  intros H. destruct (unshared_fields (format_class G6 Bfiq)) as [u|] eqn:E; [|vm_compute in E; discriminate E].
  assert (HS : str_mem (str "pulse_phase_offset") (fm_shared (format_class G6 Bfiq)) = true) by (vm_compute; reflexivity).
  apply (H G6 Bfiq ltac:(discriminate) u E (str "pulse_phase_offset")); apply str_mem_In; [assumption|].
  revert E. vm_compute. intros E. inversion E. reflexivity.
Qed.
Print Assumptions C38_disjoint_refuted.

(** ** C53 Raw RF files *)

(** No raw RF record or array dictionary ever passes the checks, whatever its
    fields: the format has no site or array fields. *)
Theorem C53_rawrf : forall g n r rs a,
  let e := match g with G7 => AttributeError | _ => BorealisStructureError end in
  check_site_records (format_class g Rawrf) ((n, r) :: rs) = Raise e /\
  check_array_dict (format_class g Rawrf) a = Raise e.
Proof. intros g n r rs a. destruct g; cbn; split; reflexivity. Qed.
Print Assumptions C53_rawrf.

(** The raw RF tables do list fields, so a record with exactly those is refused. *)
Definition rawrf_record : brecord :=
  map (fun p => (fst p, BScalar (snd p) (CZ 0))) (fm_single (format_class G5 Rawrf)) ++
  map (fun p => (fst p, BArr (snd p) [1%nat] [CZ 0])) (fm_array (format_class G5 Rawrf)).
Example C53_case : zlen rawrf_record = 21 /\
  check_site_records (format_class G5 Rawrf) [(str "1", rawrf_record)] = Raise BorealisStructureError.
Proof. split; vm_compute; reflexivity. Qed.
