(** Properties of the change between site and array structure (C40-C42, C54). *)
From Coq Require Import String ZArith List Bool Lia.
From Verif Require Import Base BytesProofs FloatBits SDarnFormats BorealisTypes BorealisFormats BorealisChecks
  BorealisArrays BorealisSpec BorealisCatalogue BorealisShapes BorealisCases BorealisTime
  BorealisCheckProofs BorealisCatalogueProofs BorealisCaseProofs BorealisRestructProofs BorealisTimeProofs
  DmapFileProofs SDarnChecks.
Import ListNotations.
Open Scope list_scope.
Open Scope nat_scope.

(** ** Cases *)

Ltac fits := repeat (apply Forall2_cons; [apply fitsb_ok; vm_compute; reflexivity|]); apply Forall2_nil.


(** Two rawacf records of version 0.6: 2 sequences, 1 beam, 1 blanked sample and 3
    sequences, 2 beams, 2 blanked samples.  The timestamps are in May 2019. *)
Definition t1 : Z := 4744323983061800714.
Definition t2 : Z := 4744323983065000000.
Definition raw_two : brecords :=
  [(str "1558583991060", raw6 t1 2 1 1); (str "1558583991822", raw6 t2 3 2 2)].
Definition raw_sizes : sizes := mk_sizes 1 2 3 1 1.
Definition raw_counts : list counts := [mk_counts 2 1 1; mk_counts 3 2 2].

Lemma raw_two_consistent : consistent G6 BRawacf raw_sizes raw_counts raw_two.
Proof.
  constructor.
  - fits.
  - discriminate.
  - apply commonb_ok. vm_compute. reflexivity.
  - right. intros c [<-|[<-|[]]]; cbn; lia.
  - intros C. exfalso. revert C. apply no_varying_ok. vm_compute. reflexivity.
Qed.
Lemma raw_two_named : named_by record_name raw_two.
Proof.
  split.
  - apply nodupb_ok. vm_compute. reflexivity.
  - intros n r [E|[E|[]]]; inversion E; subst.
    + exists t1. split; [|vm_compute; reflexivity]. eexists _, _, _. vm_compute. reflexivity.
    + exists t2. split; [|vm_compute; reflexivity]. eexists _, _, _. vm_compute. reflexivity.
Qed.

(** Two bfiq records of version 0.6 with a phase for every sequence and pulse. *)
Definition bf_two : brecords :=
  [(str "1558583991060", bfiq6 t1 2 1 0 [2; 2] (ints 1 4)); (str "1558583991822", bfiq6 t2 3 2 0 [3; 2] (ints 7 6))].
Definition bf_sizes : sizes := mk_sizes 2 1 1 3 1.
Definition bf_counts : list counts := [mk_counts 2 1 0; mk_counts 3 2 0].

Lemma bf_two_consistent : consistent G6 Bfiq bf_sizes bf_counts bf_two.
Proof.
  constructor.
  - fits.
  - discriminate.
  - apply commonb_ok. vm_compute. reflexivity.
  - left. intros c [<-|[<-|[]]]; reflexivity.
  - intros _. exists (fun c => [c_seq c; 2]). split; [constructor; lia|].
    repeat (apply Forall2_cons; [eexists; split; [vm_compute; reflexivity|reflexivity]|]); apply Forall2_nil.
Qed.
Lemma bf_two_named : named_by record_name bf_two.
Proof.
  split.
  - apply nodupb_ok. vm_compute. reflexivity.
  - intros n r [E|[E|[]]]; inversion E; subst.
    + exists t1. split; [|vm_compute; reflexivity]. eexists _, _, _. vm_compute. reflexivity.
    + exists t2. split; [|vm_compute; reflexivity]. eexists _, _, _. vm_compute. reflexivity.
Qed.

(** ** C40 Site to array to site *)

(** Consistent records come back under their names, with every field as it was;
    the names of the dimensions come back in their standard form. *)
Theorem C40_round_trip : forall g t z cs rs name, has_structures t -> consistent g t z cs rs -> named_by name rs ->
  exists a rs', site_to_array (format_class g t) rs = Ok a /\ array_to_site name (format_class g t) a = Ok rs' /\
    keys rs' = keys rs /\ Forall2 (fun p p' => same_record g t (snd p) (snd p')) rs rs'.
Proof.
  intros g t z cs rs name HT HC HN. destruct (restructure_named g t z cs rs HT HC) as (a & A1 & _ & A3).
  destruct (A3 name HN) as (rs' & R1 & R2 & R3). exists a, rs'. splits; auto.
  clear - R3. induction R3 as [|p p' rs rs' [H _] R3 IH]; constructor; auto.
Qed.
Print Assumptions C40_round_trip.

(** The hypotheses are met by records whose sequences, beams and blanked samples
    differ, and these do come back field by field. *)
Definition same_fields (r r' : brecord) : bool :=
  forallb (fun p => opt_eqb (dict_get r' (fst p)) (Some (snd p))) r && Nat.eqb (length r) (length r').
Definition round_trip (g : generation) (t : filetype) (rs : brecords) : bool :=
  match site_to_array (format_class g t) rs with
  | Ok a => match array_to_site record_name (format_class g t) a with
            | Ok rs' => forallb (fun p => str_eqb (fst (fst p)) (fst (snd p)) && same_fields (snd (fst p)) (snd (snd p)))
                                (combine rs rs') && Nat.eqb (length rs) (length rs')
            | Raise _ => false
            end
  | Raise _ => false
  end.
Example C40_case :
  consistent G6 BRawacf raw_sizes raw_counts raw_two /\ named_by record_name raw_two /\
  round_trip G6 BRawacf raw_two = true /\
  consistent G6 Bfiq bf_sizes bf_counts bf_two /\ named_by record_name bf_two /\ round_trip G6 Bfiq bf_two = true.
Proof.
  splits; [exact raw_two_consistent|exact raw_two_named|vm_compute; reflexivity|
    exact bf_two_consistent|exact bf_two_named|vm_compute; reflexivity].
Qed.

(** Without the condition on blanked samples it fails: records of which one has
    no blanked samples cannot be made into arrays. *)
Theorem C40_blanked_refuted :
  ~ (forall g t z cs rs, has_structures t ->
       Forall2 (fun c p => record_fits g t z c (snd p)) cs rs -> rs <> [] ->
       (forall k n r n' r', role_of g t k Common -> In (n, r) rs -> In (n', r') rs -> dict_get r k = dict_get r' k) ->
       (role_of g t (str "pulse_phase_offset") Varying -> False) ->
       exists a, site_to_array (format_class g t) rs = Ok a).
Proof.
  intros H. destruct (H G6 BRawacf raw_sizes [mk_counts 2 1 0; mk_counts 3 2 2]
    [(str "1558583991060", raw6 t1 2 1 0); (str "1558583991822", raw6 t2 3 2 2)]) as (a & E).
  - discriminate.
  - fits.
  - discriminate.
  - apply commonb_ok. vm_compute. reflexivity.
  - apply no_varying_ok. vm_compute. reflexivity.
  - vm_compute in E. discriminate.
Qed.
Print Assumptions C40_blanked_refuted.
Example C40_blanked_error :
  site_to_array (format_class G6 BRawacf)
    [(str "1558583991060", raw6 t1 2 1 0); (str "1558583991822", raw6 t2 3 2 2)] = Raise ValueError.
Proof. vm_compute. reflexivity. Qed.

(** Nor can the condition on the pulses go: a single record of 3 sequences with
    one phase for each of 2 pulses loses the last phase. *)
Definition bf_pulses : brecords := [(str "1558583991060", bfiq6 t1 3 1 0 [2] (ints 1 2))].
Theorem C40_pulses_refuted :
  ~ (forall g t z cs rs name, has_structures t -> named_by name rs ->
       Forall2 (fun c p => record_fits g t z c (snd p)) cs rs -> rs <> [] ->
       (forall k n r n' r', role_of g t k Common -> In (n, r) rs -> In (n', r') rs -> dict_get r k = dict_get r' k) ->
       ((forall c, In c cs -> c_blank c = 0) \/ (forall c, In c cs -> 1 <= c_blank c)) ->
       (exists p, Forall2 (fun _ q => exists data,
          dict_get (snd q) (str "pulse_phase_offset") = Some (BArr BF32 [p] data) /\ length data = p) cs rs) ->
       exists a rs', site_to_array (format_class g t) rs = Ok a /\ array_to_site name (format_class g t) a = Ok rs' /\
         Forall2 (fun p p' => same_record g t (snd p) (snd p')) rs rs').
Proof.
  intros H. destruct (H G6 Bfiq bf_sizes [mk_counts 3 1 0] bf_pulses record_name) as (a & rs' & E1 & E2 & E3).
  - discriminate.
  - split; [apply nodupb_ok; vm_compute; reflexivity|]. intros n r [E|[]]; inversion E; subst.
    exists t1. split; [|vm_compute; reflexivity]. eexists _, _, _. vm_compute. reflexivity.
  - fits.
  - discriminate.
  - apply commonb_ok. vm_compute. reflexivity.
  - left. intros c [<-|[]]. reflexivity.
  - exists 2. apply Forall2_cons; [eexists; split; [vm_compute; reflexivity|reflexivity]|]; apply Forall2_nil.
  - assert (B : match site_to_array (format_class G6 Bfiq) bf_pulses with
                | Ok a => match array_to_site record_name (format_class G6 Bfiq) a with
                          | Ok ((_, r) :: _) => dict_get r (str "pulse_phase_offset")
                          | _ => None
                          end
                | _ => None
                end = Some (BArr BF32 [1] [CZ 1])) by (vm_compute; reflexivity).
    rewrite E1, E2 in B. inversion E3 as [|p p' l l' [S _] _]; subst. destruct p' as [n r]. cbn [snd] in S.
    rewrite (S (str "pulse_phase_offset")) in B by (vm_compute; discriminate). vm_compute in B. discriminate.
Qed.
Print Assumptions C40_pulses_refuted.

(** ** C41 The arrays *)

(** What the array dictionary of consistent records holds: see [arrays_of]. *)
Theorem C41_arrays : forall g t z cs rs, has_structures t -> consistent g t z cs rs ->
  exists a, site_to_array (format_class g t) rs = Ok a /\ arrays_of g t z cs rs a.
Proof.
  intros g t z cs rs HT HC. destruct (restructure_main g t z cs rs HT HC) as (a & A1 & A2 & _). now exists a.
Qed.
Print Assumptions C41_arrays.

Example C41_case : consistent G6 BRawacf raw_sizes raw_counts raw_two /\
  match site_to_array (format_class G6 BRawacf) raw_two with
  | Ok a => dict_get a (str "beam_nums") = Some (BArr BU32 [2; 2] [CZ 3; CZ 0; CZ 3; CZ 4]) /\
            dict_get a (str "sqn_timestamps") = Some (BArr BF64 [2; 3]
              [CZ t1; CZ (t1 + 1); CZ 9221120237041090560; CZ t2; CZ (t2 + 1); CZ (t2 + 2)]) /\
            dict_get a (str "num_beams") = Some (BArr BU32 [2] [CZ 1; CZ 2]) /\
            dict_get a (str "num_sequences") = Some (BArr BI64 [2] [CZ 2; CZ 3])
  | Raise _ => False
  end.
Proof. split; [exact raw_two_consistent|]. vm_compute. repeat split. Qed.

(** ** C42 Names of the records *)

(** Whatever the arrays, the records are named by the first timestamps of the
    rows; equal names give one record. *)
Theorem C42_names : forall name F a rs ty n w data, array_to_site name F a = Ok rs ->
  dict_get a (str "sqn_timestamps") = Some (BArr ty [n; w] data) -> length data = n * w ->
  exists nms, length nms = n /\ keys rs = first_names nms /\
    forall i nm, nth_error nms i = Some nm -> exists b, nth_error data (i * w) = Some (CZ b) /\ name b = Ok nm.
Proof. exact site_names. Qed.
Print Assumptions C42_names.

(** Of records that get the same name the last one is kept. *)
Theorem C42_merge : forall g t z cs rs name nms, has_structures t -> consistent g t z cs rs -> names_of name rs nms ->
  exists a rs', site_to_array (format_class g t) rs = Ok a /\ array_to_site name (format_class g t) a = Ok rs' /\
    keys rs' = first_names nms /\
    forall i n r nm, nth_error rs i = Some (n, r) -> nth_error nms i = Some nm ->
      (forall j, i < j -> nth_error nms j <> Some nm) ->
      exists r', dict_get rs' nm = Some r' /\ same_record g t r r'.
Proof.
  intros g t z cs rs name nms HT HC HN. destruct (restructure_main g t z cs rs HT HC) as (a & A1 & _ & A3).
  destruct (A3 name nms HN) as (rs' & R1 & R2 & R3). exists a, rs'. splits; auto.
  intros i n r nm H1 H2 H3. destruct (R3 i n r nm H1 H2 H3) as (r' & X1 & X2 & _). now exists r'.
Qed.
Print Assumptions C42_merge.

(** The name is the timestamp in milliseconds, rounded to microseconds first and
    then down, between November 2004 and January 2038.  The timestamp is
    [s / 2^22] seconds. *)
Theorem C42_milliseconds : forall b s m, (0 <= b)%Z -> f64_sign b = 0%Z -> f64_exp b = 1053%Z ->
  s = (f64_man b + 2 ^ 52)%Z -> rounds_to s m -> (1099511628776000 < m < 2147483648000000)%Z ->
  record_name b = Ok (dec (m / 1000)).
Proof. exact record_name_era. Qed.
Print Assumptions C42_milliseconds.

(** So the names of two records of that time collide exactly if the records
    start in the same millisecond. *)
Theorem C42_collide : forall b s m b' s' m', (0 <= b)%Z -> f64_sign b = 0%Z -> f64_exp b = 1053%Z ->
  s = (f64_man b + 2 ^ 52)%Z -> rounds_to s m -> (1099511628776000 < m < 2147483648000000)%Z ->
  (0 <= b')%Z -> f64_sign b' = 0%Z -> f64_exp b' = 1053%Z ->
  s' = (f64_man b' + 2 ^ 52)%Z -> rounds_to s' m' -> (1099511628776000 < m' < 2147483648000000)%Z ->
  record_name b = record_name b' <-> (m / 1000 = m' / 1000)%Z.
Proof.
  intros b s m b' s' m' H1 H2 H3 H4 H5 H6 K1 K2 K3 K4 K5 K6.
  rewrite (record_name_era b s m), (record_name_era b' s' m') by assumption. split.
  - intros E. apply dec_inj. congruence.
  - now intros ->.
Qed.
Print Assumptions C42_collide.

(** 1558583991.06 s; two records 0.3 ms apart; the second of them survives. *)
Definition t1' : Z := (t1 + 1258)%Z.
Definition raw_clash : brecords := [(str "1558583991060", raw6 t1 2 1 1); (str "x", raw6 t1' 3 2 2)].
Example C42_case :
  (f64_sign t1 = 0 /\ f64_exp t1 = 1053 /\ rounds_to (f64_man t1 + 2 ^ 52) 1558583991060000)%Z /\
  record_name t1 = Ok (str "1558583991060") /\ record_name t1' = Ok (str "1558583991060") /\
  consistent G6 BRawacf raw_sizes raw_counts raw_clash /\
  names_of record_name raw_clash [str "1558583991060"; str "1558583991060"] /\
  match site_to_array (format_class G6 BRawacf) raw_clash with
  | Ok a => match array_to_site record_name (format_class G6 BRawacf) a with
            | Ok [(n, r)] => n = str "1558583991060" /\ same_fields (raw6 t1' 3 2 2) r = true
            | _ => False
            end
  | Raise _ => False
  end.
Proof.
  split; [|split; [vm_compute; reflexivity|split; [vm_compute; reflexivity|split; [|split]]]].
  - splits; [vm_compute; reflexivity|vm_compute; reflexivity|]. split; vm_compute; [discriminate|]. intros; reflexivity || discriminate.
  - constructor.
    + fits.
    + discriminate.
    + apply commonb_ok. vm_compute. reflexivity.
    + right. intros c [<-|[<-|[]]]; cbn; lia.
    + intros C. exfalso. revert C. apply no_varying_ok. vm_compute. reflexivity.
  - apply Forall2_cons; [|apply Forall2_cons; [|apply Forall2_nil]].
    + exists t1. split; [|vm_compute; reflexivity]. eexists _, _, _. vm_compute. reflexivity.
    + exists t1'. split; [|vm_compute; reflexivity]. eexists _, _, _. vm_compute. reflexivity.
  - vm_compute. split; reflexivity.
Qed.

(** Outside that time the name can be a millisecond early: 1.001 s is "1000". *)
Theorem C42_exact_refuted :
  ~ (forall b m, micros b = Ok m -> (0 <= m)%Z -> record_name b = Ok (dec (m / 1000))).
Proof. intros H. specialize (H 4607186922399644778%Z 1001000%Z eq_refl ltac:(lia)). vm_compute in H. discriminate. Qed.
Print Assumptions C42_exact_refuted.

(** ** C54 Checks after restructuring *)

(** If the records pass the check on site records, their arrays pass the check on
    arrays. *)
Theorem C54_arrays_pass : forall g t z cs rs a, has_structures t -> consistent g t z cs rs -> proper rs ->
  common_arrays g t rs -> check_site_records (format_class g t) rs = Ok tt ->
  site_to_array (format_class g t) rs = Ok a -> check_array_dict (format_class g t) a = Ok tt.
Proof.
  intros g t z cs rs a HT HC HP HA HK E. destruct (restructure_main g t z cs rs HT HC) as (a' & A1 & A2 & _).
  assert (a' = a) by congruence. subst a'. eapply arrays_pass; eauto.
Qed.
Print Assumptions C54_arrays_pass.

(** The records that come back pass the check on site records, but those of bfiq
    files of version 0.7 never do. *)
Theorem C54_records_pass : forall g t z cs rs name a rs', has_structures t -> consistent g t z cs rs -> proper rs ->
  named_by name rs -> check_site_records (format_class g t) rs = Ok tt ->
  site_to_array (format_class g t) rs = Ok a -> array_to_site name (format_class g t) a = Ok rs' ->
  check_site_records (format_class g t) rs' = Ok tt <-> ~ (g = G7 /\ t = Bfiq).
Proof.
  intros g t z cs rs name a rs' HT HC HP HN HK E1 E2. destruct (restructure_named g t z cs rs HT HC) as (a' & A1 & _ & A3).
  assert (a' = a) by congruence. subst a'. destruct (A3 name HN) as (rs'' & R1 & R2 & R3).
  assert (rs'' = rs') by congruence. subst rs''. apply (sites_pass g t rs); auto. apply (co_some _ _ _ _ _ HC).
Qed.
Print Assumptions C54_records_pass.

Example C54_case : proper raw_two /\ common_arrays G6 BRawacf raw_two /\
  check_site_records (format_class G6 BRawacf) raw_two = Ok tt /\
  match site_to_array (format_class G6 BRawacf) raw_two with
  | Ok a => check_array_dict (format_class G6 BRawacf) a = Ok tt /\
      match array_to_site record_name (format_class G6 BRawacf) a with
      | Ok rs' => check_site_records (format_class G6 BRawacf) rs' = Ok tt
      | Raise _ => False
      end
  | Raise _ => False
  end.
Proof.
  split; [|split; [|split]].
  - split; [apply nodupb_ok; vm_compute; reflexivity|]. intros n r [E|[E|[]]]; inversion E; apply nodupb_ok; vm_compute; reflexivity.
  - exact (common_arraysb_ok G6 BRawacf raw_two eq_refl).
  - vm_compute. reflexivity.
  - vm_compute. split; reflexivity.
Qed.
