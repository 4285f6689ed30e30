(** What the writers of Borealis data refuse (C82). *)
From Coq Require Import String ZArith List Bool.
From Verif Require Import Base BytesProofs SDarnFormats SDarnChecks BorealisTypes BorealisFormats BorealisChecks BorealisArrays BorealisFile
  BorealisSpec BorealisFileSpec BorealisCases DmapFileProofs BorealisCheckProofs BorealisFileCaseProofs BorealisFileProofs BorealisFileProps BorealisAppendProps BorealisProps
  BorealisRefuseSpec BorealisRefuseProofs.
Import ListNotations.
Open Scope list_scope.
Open Scope Z_scope.

(** ** C82 Only checked data reach a file, and every refusal leaves the files as they are *)

(** Whatever [BorealisSiteWrite] does, either it raised and no file changed, or the file
    type is known and every record fits the format of the version of the first. *)
Theorem C82_site_checked : forall av fs name rs ft c fs' r, proper rs -> site_write av fs name (DRecords rs) ft c = (fs', r) ->
  (fs' = fs /\ exists e, r = Raise e) \/
  exists t g v, ft = type_name t /\ has_structures t /\ records_version rs v /\ supported v g /\
    forall n r, In (n, r) rs -> site_record_ok (format_class g t) r.
Proof. exact site_checked. Qed.
Print Assumptions C82_site_checked.

(** The same of [BorealisArrayWrite]. *)
Theorem C82_array_checked : forall av fs name a ft c fs' r, NoDup (keys a) -> array_write av fs name (DArrays a) ft c = (fs', r) ->
  (fs' = fs /\ exists e, r = Raise e) \/
  exists t g h v, ft = type_name t /\ has_structures t /\ dict_get a (str "borealis_git_hash") = Some (BText h) /\ hash_version h v /\
    supported v g /\ arrays_ok (format_class g t) a.
Proof. exact array_checked. Qed.
Print Assumptions C82_array_checked.

(** The same of [BorealisWrite] given records and not told to write arrays. *)
Theorem C82_write_checked : forall av fs name rs ft s c fs' r, proper rs -> ~ In (str "borealis_git_hash") (keys rs) ->
  s <> Some (str "array") -> borealis_write av fs name (DRecords rs) ft s c = (fs', r) ->
  (fs' = fs /\ exists e, r = Raise e) \/
  exists t g v, ft = type_name t /\ has_structures t /\ records_version rs v /\ supported v g /\
    forall n r, In (n, r) rs -> site_record_ok (format_class g t) r.
Proof. exact write_records_checked. Qed.
Print Assumptions C82_write_checked.

(** What each refusal of records is: no record, no hash in the first record, a hash that
    is not a text, a version without formats, a record that does not fit. *)
Theorem C82_site_refused : forall av fs name rs t c, proper rs ->
  (rs = [] -> site_write av fs name (DRecords rs) (type_name t) c = (fs, Raise BorealisStructureError)) /\
  (forall n r, first_record rs n r -> ~ In (str "borealis_git_hash") (keys r) ->
     site_write av fs name (DRecords rs) (type_name t) c = (fs, Raise KeyError)) /\
  (forall n r v, first_record rs n r -> dict_get r (str "borealis_git_hash") = Some v -> not_text v ->
     site_write av fs name (DRecords rs) (type_name t) c = (fs, Raise AttributeError)) /\
  (forall v, records_version rs v -> (forall g, ~ supported v g) ->
     site_write av fs name (DRecords rs) (type_name t) c = (fs, Raise BorealisVersionError)) /\
  (forall v g n r, has_structures t -> records_version rs v -> supported v g -> In (n, r) rs -> ~ site_record_ok (format_class g t) r ->
     exists e, site_write av fs name (DRecords rs) (type_name t) c = (fs, Raise e) /\ refusal (format_class g t) rs e).
Proof. exact site_refused. Qed.
Print Assumptions C82_site_refused.

(** What each refusal of arrays is. *)
Theorem C82_array_refused : forall av fs name a t c, NoDup (keys a) ->
  (~ In (str "borealis_git_hash") (keys a) ->
     array_write av fs name (DArrays a) (type_name t) c = (fs, Raise BorealisStructureError)) /\
  (forall v, dict_get a (str "borealis_git_hash") = Some v -> not_text v ->
     array_write av fs name (DArrays a) (type_name t) c = (fs, Raise AttributeError)) /\
  (forall h v, dict_get a (str "borealis_git_hash") = Some (BText h) -> hash_version h v -> (forall g, ~ supported v g) ->
     array_write av fs name (DArrays a) (type_name t) c = (fs, Raise BorealisVersionError)) /\
  (forall h v g, has_structures t -> dict_get a (str "borealis_git_hash") = Some (BText h) -> hash_version h v -> supported v g ->
     ~ arrays_ok (format_class g t) a ->
     exists e, array_write av fs name (DArrays a) (type_name t) c = (fs, Raise e) /\ array_verdict (format_class g t) a (Raise e)).
Proof. exact array_refused. Qed.
Print Assumptions C82_array_refused.

(** *** Cases *)

(** A second record without a field; a first record without its hash; a hash that is a
    number; a version that never was. *)
Definition lacking : brecords := [(str "1558583991060", raw6 5 2 1 1); (str "1558583991822", raw6_short)].
Definition hashless : brecords :=
  [(str "1558583991822", raw6 9 3 2 2); (str "1558583991060", dict_pop (raw6 5 2 1 1) (str "borealis_git_hash"))].
Definition numbered : brecords :=
  [(str "1558583991060", dict_set (raw6 5 2 1 1) (str "borealis_git_hash") (BScalar BF64 (CZ 7)))].
Definition ancient : brecords := [(str "1558583991060", dict_set (raw6 5 2 1 1) (str "borealis_git_hash") (BText (str "v0.1-5-gabc")))].

Definition wrote (rs : brecords) : res unit := snd (site_write h5py_filters empty_fs (str "f") (DRecords rs) (str "rawacf") None).
Definition wrote_arrays (a : brecord) : res unit := snd (array_write h5py_filters empty_fs (str "f") (DArrays a) (str "rawacf") None).

Example C82_case :
  (proper lacking /\ proper hashless /\ proper numbered /\ proper ancient) /\
  first_record hashless (str "1558583991060") (dict_pop (raw6 5 2 1 1) (str "borealis_git_hash")) /\
  ~ In (str "borealis_git_hash") (keys (dict_pop (raw6 5 2 1 1) (str "borealis_git_hash"))) /\
  not_text (BScalar BF64 (CZ 7)) /\
  records_version ancient (str "v0.1") /\ (forall g, ~ supported (str "v0.1") g) /\
  records_version lacking (str "v0.6") /\ supported (str "v0.6") G6 /\ ~ site_record_ok (format_class G6 BRawacf) raw6_short /\
  wrote [] = Raise BorealisStructureError /\
  wrote hashless = Raise KeyError /\
  wrote numbered = Raise AttributeError /\
  wrote ancient = Raise BorealisVersionError /\
  wrote lacking = Raise (BorealisBadRecordsError [(str "1558583991822", [str "freq"])] [] []) /\
  wrote_arrays (dict_pop two_arrays (str "borealis_git_hash")) = Raise BorealisStructureError /\
  wrote_arrays (dict_set two_arrays (str "borealis_git_hash") (BScalar BF64 (CZ 7))) = Raise AttributeError /\
  wrote_arrays (dict_set two_arrays (str "borealis_git_hash") (BText (str "v0.1"))) = Raise BorealisVersionError /\
  wrote_arrays (dict_pop two_arrays (str "num_beams")) = Raise (BorealisFieldMissingError [str "num_beams"]) /\
  wrote_arrays two_arrays = Ok tt.
Proof.
  assert (P : forall rs, (nodupb (keys rs) && forallb (fun p => nodupb (keys (snd p))) rs)%bool = true -> proper rs).
  { intros rs H. apply andb_prop in H as [H1 H2]. split; [now apply nodupb_ok|]. intros n r I. rewrite forallb_forall in H2.
    apply nodupb_ok. exact (H2 _ I). }
  split; [splits; apply P; vm_compute; reflexivity|].
  split. { split; [right; now left|]. intros n' [<-|[<-|[]]]; [right|now left]. vm_compute. repeat first [apply lt_head; reflexivity|apply lt_tail]. }
  split. { intros H. apply str_mem_In in H. vm_compute in H. discriminate H. }
  split; [constructor; discriminate|].
  split. { eexists _, _, _. split; [now left|]. split; [intros n' [<-|[]]; now left|]. split; [vm_compute; reflexivity|].
    apply version_of_ok. vm_compute. reflexivity. }
  split. { intros g H. apply supported_gen in H. vm_compute in H. discriminate H. }
  split. { eexists _, _, _. split; [now left|]. split; [|split; [vm_compute; reflexivity|apply version_of_ok; vm_compute; reflexivity]].
    intros n' [<-|[<-|[]]]; [now left|right]. vm_compute. repeat first [apply lt_head; reflexivity|apply lt_tail]. }
  split. { apply supported_gen. vm_compute. reflexivity. }
  split. { intros H. assert (K : check_site_records (format_class G6 BRawacf) [(str "1", raw6_short)] = Ok tt).
    { apply (proj2 (C36_accepts G6 BRawacf [(str "1", raw6_short)] ltac:(discriminate) ltac:(apply P; vm_compute; reflexivity))).
      intros n r [I|[]]. injection I as <- <-. exact H. }
    vm_compute in K. discriminate K. }
  splits; vm_compute; reflexivity.
Qed.

(** The documented error for records whose version cannot be read is a
    BorealisStructureError; a missing hash is a KeyError instead. *)
Theorem C82_documented_refuted :
  ~ (forall av fs name rs t c n r, proper rs -> first_record rs n r -> ~ In (str "borealis_git_hash") (keys r) ->
       exists fs', site_write av fs name (DRecords rs) (type_name t) c = (fs', Raise BorealisStructureError)).
Proof.
  intros H. destruct C82_case as ((_ & P & _) & F & K & _).
  destruct (H h5py_filters empty_fs (str "f") hashless BRawacf None _ _ P F K) as (fs' & E).
  destruct (C82_site_refused h5py_filters empty_fs (str "f") hashless BRawacf None P) as (_ & R & _). rewrite (R _ _ F K) in E. discriminate E.
Qed.
Print Assumptions C82_documented_refuted.

(** *** Data of the other structure *)

(** Records handed to the writer of arrays. *)
Theorem C82_records_as_arrays : forall av fs name rs t c, ~ In (str "borealis_git_hash") (keys rs) ->
  array_write av fs name (DRecords rs) (type_name t) c = (fs, Raise BorealisStructureError).
Proof. exact records_to_arrays. Qed.
Print Assumptions C82_records_as_arrays.

(** Arrays handed to the writer of records: a BorealisStructureError, except those of
    version 0.5 rawacf files, whose first field by name is a text and no array. *)
Theorem C82_arrays_as_records : forall av fs name a g t t' c, has_structures t -> NoDup (keys a) -> arrays_ok (format_class g t) a ->
  (~ (g = G5 /\ t = BRawacf) -> site_write av fs name (DArrays a) (type_name t') c = (fs, Raise BorealisStructureError)) /\
  (g = G5 -> t = BRawacf -> forall m, dict_get a (str "averaging_method") = Some (BText m) ->
     site_write av fs name (DArrays a) (type_name t') c = (fs, Raise TypeError)).
Proof. exact arrays_to_site. Qed.
Print Assumptions C82_arrays_as_records.

(** A record of version 0.5. *)
Definition raw5 (id : Z) (ns nb bl : nat) : brecord :=
  fold_left dict_pop [str "agc_status_word"; str "lp_status_word"; str "gps_locked"; str "gps_to_system_time_diff"]
    (dict_set (dict_set (raw6 id ns nb bl) (str "borealis_git_hash") (BText (str "v0.5-61-gc13ad17")))
       (str "experiment_id") (BScalar BI64 (CZ 3503))).
Definition arrays5 : brecord :=
  match site_to_array (format_class G5 BRawacf) [(str "1558583991060", raw5 5 2 1 1); (str "1558583991822", raw5 9 3 2 2)] with Ok a => a | Raise _ => [] end.
Example C82_swapped_case :
  ~ In (str "borealis_git_hash") (keys two) /\
  array_write h5py_filters empty_fs (str "f") (DRecords two) (str "rawacf") None = (empty_fs, Raise BorealisStructureError) /\
  NoDup (keys two_arrays) /\ arrays_ok (format_class G6 BRawacf) two_arrays /\
  site_write h5py_filters empty_fs (str "f") (DArrays two_arrays) (str "rawacf") None = (empty_fs, Raise BorealisStructureError) /\
  NoDup (keys arrays5) /\ arrays_ok (format_class G5 BRawacf) arrays5 /\
  dict_get arrays5 (str "averaging_method") = Some (BText (str "mean")) /\
  site_write h5py_filters empty_fs (str "f") (DArrays arrays5) (str "rawacf") None = (empty_fs, Raise TypeError).
Proof.
  split. { intros H. apply str_mem_In in H. vm_compute in H. discriminate H. }
  split. { apply (C82_records_as_arrays _ _ _ _ BRawacf). intros H. apply str_mem_In in H. vm_compute in H. discriminate H. }
  destruct two_arrays_good as (A1 & A2 & _). split; [exact A1|]. split; [exact A2|].
  assert (N6 : ~ (G6 = G5 /\ BRawacf = BRawacf)) by (intros [C _]; discriminate C).
  split; [exact (proj1 (C82_arrays_as_records h5py_filters empty_fs (str "f") two_arrays G6 BRawacf BRawacf None ltac:(discriminate) A1 A2) N6)|].
  assert (B1 : NoDup (keys arrays5)) by (apply nodupb_ok; vm_compute; reflexivity).
  assert (B2 : arrays_ok (format_class G5 BRawacf) arrays5) by (apply arrays_ok_check; [discriminate|exact B1|vm_compute; reflexivity]).
  assert (B3 : dict_get arrays5 (str "averaging_method") = Some (BText (str "mean"))) by (vm_compute; reflexivity).
  split; [exact B1|]. split; [exact B2|]. split; [exact B3|].
  exact (proj2 (C82_arrays_as_records h5py_filters empty_fs (str "f") arrays5 G5 BRawacf BRawacf None ltac:(discriminate) B1 B2) eq_refl eq_refl _ B3).
Qed.
