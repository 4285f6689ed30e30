(** C95: the other structure of the data that were read or are to be written. *)
From Coq Require Import String ZArith List Bool Lia.
From Verif Require Import Base Bytes BytesProofs SDarnFormats BorealisTypes BorealisFormats BorealisChecks BorealisArrays BorealisTime BorealisFile
  BorealisSpec BorealisFileSpec BorealisReadFaultSpec DmapFileProofs BorealisCheckProofs BorealisFileProofs BorealisFileCaseProofs
  BorealisCases BorealisFileProps BorealisReadFaultProps BorealisOtherProofs.
Import ListNotations.
Open Scope list_scope.
Open Scope Z_scope.

(** The arrays made of any records fit the format; or there are none and the error is a
    BorealisRestructureError.  [OutOfModel] marks the calls of numpy that are not modelled. *)
Theorem C95_arrays : forall g t rs,
  match site_arrays g t rs with
  | Ok a => has_structures t /\ NoDup (keys a) /\ arrays_ok (format_class g t) a
  | Raise e => e = BorealisRestructureError \/ (has_structures t /\ e = OutOfModel)
  end.
Proof. exact other_arrays. Qed.
Print Assumptions C95_arrays.

(** The records made of any arrays. *)
Theorem C95_records : forall g t a,
  match array_records g t a with
  | Ok rs => has_structures t /\ proper rs /\ forall n r, In (n, r) rs -> site_record_ok (format_class g t) r
  | Raise e => e = BorealisRestructureError \/ (has_structures t /\ e = OutOfModel)
  end.
Proof. exact other_records. Qed.
Print Assumptions C95_records.

(** Data that have no other structure: no records, and arrays without times. *)
Theorem C95_none : forall g t a,
  site_arrays g t [] = Raise BorealisRestructureError /\
  (~ In (str "sqn_timestamps") (keys a) -> array_records g t a = Raise BorealisRestructureError).
Proof. intros g t a. split; [apply none_arrays|apply timeless]. Qed.
Print Assumptions C95_none.

(** Whatever is read, both [records] and [arrays] of the reader fit the format, or the
    one that was not in the file is a BorealisRestructureError. *)
Theorem C95_reader : forall fs name f t rd, holds fs name f -> file_known f -> has_structures t ->
  borealis_read fs name (type_name t) None = Ok rd ->
  exists g,
  match reader_records rd with
  | Ok rs => forall n r, In (n, r) rs -> site_record_ok (format_class g t) r
  | Raise e => (e = BorealisRestructureError \/ e = OutOfModel) /\ exists a, reader_arrays rd = Ok a
  end /\
  match reader_arrays rd with
  | Ok a => arrays_ok (format_class g t) a
  | Raise e => (e = BorealisRestructureError \/ e = OutOfModel) /\ exists rs, reader_records rd = Ok rs
  end.
Proof.
  intros fs name f t rd H1 H2 H3 E.
  pose proof (C50_read fs name t _ E) as R.
  destruct rd as [rd|rd]; cbn [reader_records reader_arrays].
  - destruct R as [R _]. pose proof (C88_site fs name f t H1 H2 H3) as C. rewrite R in C. destruct C as (T & _ & C).
    exists (sr_gen rd). split; [exact C|]. pose proof (C95_arrays (sr_gen rd) (sr_type rd) (sr_records rd)) as O.
    destruct (site_arrays _ _ _) as [a|e]; [rewrite T in O; apply O|]. split; [destruct O as [O|[_ O]]; auto|]. eexists; reflexivity.
  - pose proof (C88_array fs name f t H1 H2 H3) as C. rewrite R in C. destruct C as (T & _ & C).
    exists (ar_gen rd). split; [|exact C]. pose proof (C95_records (ar_gen rd) (ar_type rd) (ar_arrays rd)) as O.
    destruct (array_records _ _ _) as [a|e]; [rewrite T in O; apply O|]. split; [destruct O as [O|[_ O]]; auto|]. eexists; reflexivity.
Qed.
Print Assumptions C95_reader.

(** Records handed to the writer of arrays, when one of them is named like the hash: there
    is a hash then, but it is no text. *)
Theorem C95_hash_named : forall av fs name rs t c r, dict_get rs (str "borealis_git_hash") = Some r ->
  array_write av fs name (DRecords rs) (type_name t) c = (fs, Raise AttributeError).
Proof. exact hash_named. Qed.
Print Assumptions C95_hash_named.

(** *** Cases *)

(** Two records with their arrays, which give one record since the times are the same; and records whose data do not fit together: in the
    second one there are more lags than in the first. *)
Definition uneven : brecords :=
  [(str "1558583991060", raw6 5 2 1 1);
   (str "1558583991822", dict_set (raw6 9 3 2 2) (str "correlation_dimensions") (BArr BU32 [3%nat] [CZ 7; CZ 7; CZ 7]))].

Example C95_case :
  site_arrays G6 BRawacf two = Ok two_arrays /\ match array_records G6 BRawacf two_arrays with Ok rs => length rs = 1%nat | Raise _ => False end /\
  site_arrays G6 BRawacf uneven = Raise BorealisRestructureError /\
  site_arrays G6 Rawrf two = Raise BorealisRestructureError /\
  array_records G6 BRawacf (dict_pop two_arrays (str "sqn_timestamps")) = Raise BorealisRestructureError /\
  array_records G6 BRawacf (dict_set two_arrays (str "sqn_timestamps") (BArr BF64 [1%nat] [CZ 0])) = Raise BorealisRestructureError.
Proof. vm_compute. repeat (split; [reflexivity|]). reflexivity. Qed.

(** Uneven records pass the checks: they can be written and read, but have no arrays. *)
Example C95_uneven_case :
  proper uneven /\ check_site_records (format_class G6 BRawacf) uneven = Ok tt /\
  dict_get [(str "borealis_git_hash", raw6 5 2 1 1)] (str "borealis_git_hash") = Some (raw6 5 2 1 1).
Proof.
  split; [|split; vm_compute; reflexivity]. split; [apply nodupb_ok; vm_compute; reflexivity|].
  intros n r [E|[E|[]]]; injection E as <- <-; apply nodupb_ok; vm_compute; reflexivity.
Qed.
