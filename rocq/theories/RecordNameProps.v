(** C108: what the name of a record says about its time. *)
From Coq Require Import String ZArith List Bool Lia Sorting.Sorted.
From Verif Require Import Base SDarnFormats SDarnChecks FloatBits FloatSpec NumeralSpec NumeralProofs BorealisTypes BorealisFormats
  BorealisArrays BorealisSpec BorealisTime BorealisCases BorealisFileSpec BorealisArrayProps RecordNameSpec RecordNameProofs.
Import ListNotations.
Open Scope list_scope.
Open Scope Z_scope.

(** ** Cases *)

(** About 1558583991.060 and 1558583991.822 seconds, in May 2019. *)
Ltac era := split; [split; [discriminate|reflexivity]|vm_compute; split; discriminate].
Lemma t1_era : in_era t1. Proof. era. Qed.
Lemma t2_era : in_era t2. Proof. era. Qed.
Lemma t1_t2 : well_after t1 t2. Proof. vm_compute. reflexivity. Qed.
Lemma t1_name : record_name t1 = Ok (str "1558583991060"). Proof. vm_compute. reflexivity. Qed.
Lemma t2_name : record_name t2 = Ok (str "1558583991822"). Proof. vm_compute. reflexivity. Qed.

(** ** Every time up to the end of the year 9999 has a name, the numeral of a whole
    number of milliseconds *)
Theorem C108_name : forall b, not_negative b -> f64_val b <= 253402300799 * second ->
  exists n ms, record_name b = Ok n /\ numeral ms n.
Proof.
  intros b H H'. destruct (name_total b H H') as [n E]. destruct (name_numeral b n H E) as [ms N]. now exists n, ms.
Qed.
Print Assumptions C108_name.

(** ** which is at most 0.05 milliseconds more than the time and at most 1.05
    milliseconds less *)
Theorem C108_near : forall b n ms, not_negative b -> record_name b = Ok n -> numeral ms n ->
  20000 * f64_val b - 21 * second <= 20 * ms * second <= 20000 * f64_val b + second.
Proof. exact name_near. Qed.
Print Assumptions C108_near.

(** ** A later time never has an earlier name *)
Theorem C108_order : forall b b' n n' ms ms', not_negative b -> not_negative b' -> f64_val b <= f64_val b' ->
  record_name b = Ok n -> record_name b' = Ok n' -> numeral ms n -> numeral ms' n' -> ms <= ms'.
Proof. exact name_order. Qed.
Print Assumptions C108_order.

(** ** and has a later one if it is more than 1.1 milliseconds later *)
Theorem C108_apart : forall b b' n n' ms ms', not_negative b -> not_negative b' -> well_after b b' ->
  record_name b = Ok n -> record_name b' = Ok n' -> numeral ms n -> numeral ms' n' -> ms < ms'.
Proof. exact names_apart. Qed.
Print Assumptions C108_apart.

Example C108_case :
  not_negative t1 /\ not_negative t2 /\ well_after t1 t2 /\ f64_val t1 <= f64_val t2 /\ f64_val t2 <= 253402300799 * second /\
  record_name t1 = Ok (str "1558583991060") /\ record_name t2 = Ok (str "1558583991822") /\
  numeral 1558583991060 (str "1558583991060") /\ numeral 1558583991822 (str "1558583991822").
Proof.
  split; [apply t1_era|]. split; [apply t2_era|]. split; [exact t1_t2|]. split; [vm_compute; discriminate|]. split; [vm_compute; discriminate|].
  split; [exact t1_name|]. split; [exact t2_name|]. split; [exact (decimal_numeral 1558583991060)|exact (decimal_numeral 1558583991822)].
Qed.

(** ** From 2001 to 2286 the names are also in order as texts, which is the order of
    [sorted] *)
Theorem C108_text : forall b b' n n', in_era b -> in_era b' -> well_after b b' ->
  record_name b = Ok n -> record_name b' = Ok n' -> str_lt n n'.
Proof. exact names_sorted. Qed.
Print Assumptions C108_text.

Example C108_text_case : in_era t1 /\ in_era t2 /\ well_after t1 t2.
Proof. exact (conj t1_era (conj t2_era t1_t2)). Qed.

(** ** So an array file in which each record starts more than 1.1 milliseconds after
    the ones before gives as many site records, in the order of their names and of
    their times *)
Theorem C108_site : forall F a rs ty n w data bs, array_to_site record_name F a = Ok rs ->
  dict_get a (str "sqn_timestamps") = Some (BArr ty [n; w] data) -> length data = (n * w)%nat ->
  length bs = n -> (forall i b, nth_error bs i = Some b -> nth_error data (i * w) = Some (CZ b)) ->
  Forall in_era bs -> StronglySorted well_after bs ->
  length rs = n /\ StronglySorted str_lt (keys rs) /\ Forall2 (fun b k => record_name b = Ok k) bs (keys rs).
Proof. exact site_all. Qed.
Print Assumptions C108_site.

(** The two records with the times [t1] and [t2], as arrays and back. *)
Example C108_site_case :
  Forall in_era [t1; t2] /\ StronglySorted well_after [t1; t2] /\
  match site_to_array (format_class G6 BRawacf) raw_two with
  | Ok a =>
      match dict_get a (str "sqn_timestamps"), array_to_site record_name (format_class G6 BRawacf) a with
      | Some (BArr _ [n; w] data), Ok rs =>
          n = 2%nat /\ length data = (n * w)%nat /\ nth_error data (0 * w) = Some (CZ t1) /\ nth_error data (1 * w) = Some (CZ t2) /\
          keys rs = [str "1558583991060"; str "1558583991822"]
      | _, _ => False
      end
  | _ => False
  end.
Proof.
  split; [apply Forall_cons; [exact t1_era|apply Forall_cons; [exact t2_era|apply Forall_nil]]|].
  split; [constructor; [constructor; [constructor|apply Forall_nil]|apply Forall_cons; [exact t1_t2|apply Forall_nil]]|].
  vm_compute. repeat split.
Qed.

(** ** Different times can have the same name: [t1] and the next number, *)
Theorem C108_same_refuted : ~ (forall b b' n, not_negative b -> not_negative b' -> f64_val b < f64_val b' ->
  record_name b = Ok n -> record_name b' <> Ok n).
Proof.
  intros H. apply (H t1 (t1 + 1) (str "1558583991060")); [apply t1_era|split; [discriminate|reflexivity]|vm_compute; reflexivity|exact t1_name|vm_compute; reflexivity].
Qed.
Print Assumptions C108_same_refuted.

(** even if they are a whole millisecond apart: 0.9999997 s and 1.001 s; *)
Theorem C108_whole_refuted : ~ (forall b b' n, not_negative b -> not_negative b' ->
  second <= 1000 * (f64_val b' - f64_val b) -> record_name b = Ok n -> record_name b' <> Ok n).
Proof.
  intros H. apply (H 4607182416097857632 4607186922399644778 (str "1000"));
    [split; [discriminate|reflexivity]|split; [discriminate|reflexivity]|vm_compute; discriminate|vm_compute; reflexivity|vm_compute; reflexivity].
Qed.
Print Assumptions C108_whole_refuted.

(** and outside these years the texts can be out of order: 999999999 s and
    1000000001 s. *)
Theorem C108_text_refuted : ~ (forall b b' n n', not_negative b -> not_negative b' -> well_after b b' ->
  record_name b = Ok n -> record_name b' = Ok n' -> str_lt n n').
Proof.
  intros H. assert (L : str_lt (str "999999999000") (str "1000000001000")).
  { apply (H 4741671816358002688 4741671816374779904); [split; [discriminate|reflexivity]|split; [discriminate|reflexivity]|vm_compute; reflexivity|vm_compute; reflexivity|vm_compute; reflexivity]. }
  inversion L; subst; discriminate.
Qed.
Print Assumptions C108_text_refuted.
