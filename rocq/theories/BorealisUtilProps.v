(** C97: the checks of BorealisUtilities, for any tables of fields. *)
From Coq Require Import ZArith List Bool Lia.
From Verif Require Import Base DmapFileProofs SDarnFormats BorealisTypes BorealisFormats BorealisChecks BorealisSpec
  BorealisUtil BorealisUtilSpec BorealisUtilProofs.
Import ListNotations.
Open Scope list_scope.
Open Scope Z_scope.

(** Missing fields: all of them are reported, as a wrong structure exactly when no
    field is there and no two tables share one.  This includes tables without any
    field.  Without tables the check itself fails. *)
Theorem C97_missing : forall tables names, Forall (fun t => NoDup (keys t)) tables ->
  (tables = [] -> tables_missing_check tables names = Raise TypeError) /\
  (tables <> [] ->
    (tables_missing_check tables names = Ok tt <->
       (forall k, ~ lacking tables names k) /\ exists k, declared tables k) /\
    (tables_missing_check tables names = Raise BorealisStructureError <-> nothing_there tables names) /\
    (forall e, tables_missing_check tables names = Raise e -> e <> BorealisStructureError ->
       exists l, e = BorealisFieldMissingError l /\ l <> [] /\ NoDup l /\ lists l (lacking tables names))).
Proof. exact missing_names. Qed.
Print Assumptions C97_missing.

(** Extra fields: reported exactly when there are names that no table has. *)
Theorem C97_extra : forall tables names,
  (tables = [] -> tables_extra_check tables names = Raise TypeError) /\
  (tables <> [] ->
    (tables_extra_check tables names = Ok tt <-> forall k, ~ unknown tables names k) /\
    (forall e, tables_extra_check tables names = Raise e ->
       exists l, e = BorealisExtraFieldError l /\ l <> [] /\ NoDup l /\ lists l (unknown tables names))).
Proof. exact extra_names. Qed.
Print Assumptions C97_extra.

(** The checks that the readers and writers make are these, for two tables. *)
Theorem C97_two : forall attrs dsets names,
  NoDup (keys attrs) -> NoDup (keys dsets) -> NoDup names ->
  tables_missing_check [attrs; dsets] names = missing_field_check attrs dsets names /\
  tables_extra_check [attrs; dsets] names = extra_field_check attrs dsets names.
Proof. intros a d n Ha Hd Hn. exact (conj (two_missing a d n Ha Hd) (two_extra a d n Hn)). Qed.
Print Assumptions C97_two.

(** Types of a record: the lines of the tables are looked at in order, attributes
    first.  The first field that is not there, or whose type cannot be told, ends
    the check; otherwise exactly the fields of a wrong type are reported. *)
Theorem C97_record_types : forall r, NoDup (keys r) -> forall attrs dsets,
  (record_incorrect_types_check attrs dsets r = Ok tt <-> Forall (fits r) (all_lines attrs dsets)) /\
  (record_incorrect_types_check attrs dsets r = Raise KeyError <->
     exists pre p post, all_lines attrs dsets = pre ++ p :: post /\ Forall (judged r) pre /\
       ~ In (line_name p) (keys r)) /\
  (record_incorrect_types_check attrs dsets r = Raise AttributeError <->
     exists pre p post, all_lines attrs dsets = pre ++ p :: post /\ Forall (judged r) pre /\
       In (line_name p) (keys r) /\ ~ judged r p) /\
  (forall e, record_incorrect_types_check attrs dsets r = Raise e -> e <> KeyError -> e <> AttributeError ->
     Forall (judged r) (all_lines attrs dsets) /\
     exists l, e = BorealisDataFormatTypeError l /\ l <> [] /\
       lists l (fun k => exists p, In p (all_lines attrs dsets) /\ line_name p = k /\ ~ fits r p)).
Proof. exact record_types. Qed.
Print Assumptions C97_record_types.

(** Types of an array dictionary: the first that applies of seven cases. *)
Theorem C97_array_types : forall attrs dsets r, NoDup (keys r) ->
  array_types attrs dsets r (array_incorrect_types_check attrs dsets r).
Proof. exact array_types_ok. Qed.
Print Assumptions C97_array_types.

Theorem C97_array_types_once : forall attrs dsets r, NoDup (keys r) -> forall x y,
  array_types attrs dsets r x -> array_types attrs dsets r y -> same_outcome x y.
Proof. exact array_types_once. Qed.
Print Assumptions C97_array_types_once.

(** Numbers of records: the check passes exactly when all the fields are arrays
    with the same number of entries.  The first field that is not there or has no
    shape ends it; so does, if all have one, a value without elements that comes
    before any single one. *)
Theorem C97_counts : forall r, NoDup (keys r) -> forall l,
  (array_num_records_check l r = Ok tt <-> exists n, forall k, In k l -> has_entries r n k) /\
  (array_num_records_check l r = Raise KeyError <->
     exists pre k post, l = pre ++ k :: post /\ Forall (shaped r) pre /\ ~ In k (keys r)) /\
  (array_num_records_check l r = Raise AttributeError <->
     exists pre k post, l = pre ++ k :: post /\ Forall (shaped r) pre /\ In k (keys r) /\ ~ shaped r k) /\
  (array_num_records_check l r = Raise TypeError <->
     Forall (shaped r) l /\
     exists pre k post t, l = pre ++ k :: post /\ Forall (counted r) pre /\ In (k, BEmpty t) r) /\
  (forall e, array_num_records_check l r = Raise e -> e <> KeyError -> e <> AttributeError -> e <> TypeError ->
     e = BorealisNumberOfRecordsError /\ Forall (shaped r) l).
Proof. exact counts. Qed.
Print Assumptions C97_counts.

(** Tables with fields a, b and b, c. *)
Definition ab : dict btype := [([97], BI32); ([98], BF32)].
Definition bc : dict btype := [([98], BF32); ([99], BU8)].
Definition cd : dict btype := [([99], BU8); ([100], BStr)].

(** That no field is there does not always make it a wrong structure: not if two
    tables share a field. *)
Theorem C97_no_field_refuted : ~ forall tables names, Forall (fun t => NoDup (keys t)) tables -> tables <> [] ->
  (forall k, declared tables k -> ~ In k names) ->
  tables_missing_check tables names = Raise BorealisStructureError.
Proof.
  intros H. assert (E : tables_missing_check [ab; bc] [] = Raise (BorealisFieldMissingError [[97]; [98]; [99]])) by reflexivity.
  rewrite H in E; [discriminate| |discriminate|intros k _ []].
  repeat (apply Forall_cons || apply Forall_nil); cbn; repeat (apply NoDup_cons || apply NoDup_nil); cbn; intuition discriminate.
Qed.
Print Assumptions C97_no_field_refuted.

Lemma tables_ok : NoDup (keys ab) /\ NoDup (keys bc) /\ NoDup (keys cd).
Proof. splits; cbn; repeat (apply NoDup_cons || apply NoDup_nil); cbn; intuition discriminate. Qed.

Example C97_missing_case :
  Forall (fun t => NoDup (keys t)) [ab; bc; cd] /\
  tables_missing_check [ab; bc; cd] [[98]; [120]; [98]; [99]] = Raise (BorealisFieldMissingError [[97]; [100]]) /\
  tables_missing_check [ab; cd] [[120]] = Raise BorealisStructureError /\ nothing_there [ab; cd] [[120]] /\
  tables_missing_check [[]; []] [[120]] = Raise BorealisStructureError /\
  tables_missing_check [ab; []] [[98]; [97]] = Ok tt.
Proof.
  destruct tables_ok as (H1 & H2 & H3). splits; try reflexivity; [repeat (apply Forall_cons; [assumption|]); apply Forall_nil|].
  split.
  - intros k (t & Ht & Hk) [<-|[]]. cbn in Ht. destruct Ht as [<-|[<-|[]]]; cbn in Hk; intuition discriminate.
  - assert (N : NoDup (all_keys [ab; cd])).
    { cbn. repeat (apply NoDup_cons || apply NoDup_nil); cbn; intuition discriminate. }
    apply all_keys_nodup in N; auto.
Qed.

Example C97_extra_case :
  tables_extra_check [ab; bc] [[120]; [97]; [120]; [99]] = Raise (BorealisExtraFieldError [[120]]) /\
  tables_extra_check [ab; bc] [[99]; [97]] = Ok tt.
Proof. split; reflexivity. Qed.

(** An array where a single element is due, a text of a wrong type. *)
Definition a_record (v : bval) : brecord := [([97], v); ([98], BScalar BF32 (CZ 0)); ([99], BArr BU8 [1%nat] [CZ 7]); ([100], BArr BNpStr [] [CS []])].

Example C97_record_types_case :
  NoDup (keys (a_record BPlain)) /\
  record_incorrect_types_check ab cd (a_record (BScalar BI32 (CZ 1))) = Raise (BorealisDataFormatTypeError [[100]]) /\
  record_incorrect_types_check ab bc (a_record (BEmpty BF64)) = Ok tt /\
  record_incorrect_types_check cd ab (a_record (BScalar BI64 (CZ 1))) = Raise (BorealisDataFormatTypeError [[99]; [100]; [97]]) /\
  record_incorrect_types_check ab ([([120], BI16)] ++ bc) (a_record BPlain) = Raise AttributeError /\
  record_incorrect_types_check ([([120], BI16)] ++ ab) bc (a_record BPlain) = Raise KeyError.
Proof.
  splits; try reflexivity. cbn; repeat (apply NoDup_cons || apply NoDup_nil); cbn; intuition discriminate.
Qed.

Example C97_array_types_case :
  array_incorrect_types_check ab [([99], BI16); ([100], BI16)] (a_record (BScalar BI32 (CZ 1))) =
    Raise (BorealisDataFormatTypeError [[99]]) /\
  array_incorrect_types_check ab cd (a_record (BScalar BI32 (CZ 1))) = Ok tt /\
  array_incorrect_types_check ab bc (a_record (BScalar BI32 (CZ 1))) = Raise BorealisStructureError /\
  array_incorrect_types_check cd ab (a_record BPlain) = Raise BorealisStructureError /\
  array_incorrect_types_check ab [([120], BI16)] (a_record BPlain) = Raise AttributeError /\
  array_incorrect_types_check ab [([120], BI16)] (a_record (BEmpty BI32)) = Raise KeyError.
Proof. splits; reflexivity. Qed.

Example C97_counts_case :
  let r := [([97], BArr BU8 [2%nat; 1%nat] [CZ 7; CZ 8]); ([98], BArr BF32 [2%nat] [CZ 0; CZ 0]); ([99], BScalar BU8 (CZ 1)); ([100], BPlain); ([101], BEmpty BF32)] in
  NoDup (keys r) /\
  array_num_records_check [[97]; [98]] r = Ok tt /\
  array_num_records_check [[97]; [98]; [99]] r = Raise BorealisNumberOfRecordsError /\
  array_num_records_check [[99]; [100]; [120]] r = Raise AttributeError /\
  array_num_records_check [[99]; [120]; [100]] r = Raise KeyError /\
  array_num_records_check [[97]; [101]; [99]] r = Raise TypeError /\
  array_num_records_check [[97]; [99]; [101]] r = Raise BorealisNumberOfRecordsError /\
  array_num_records_check [[101]; [120]] r = Raise KeyError.
Proof.
  cbv zeta. splits; try reflexivity.
  cbn; repeat (apply NoDup_cons || apply NoDup_nil); cbn; intuition discriminate.
Qed.
