(** C108: the order in which site files are read. *)
From Coq Require Import String ZArith List Bool Lia Sorting.Sorted Sorting.Permutation.
From Verif Require Import Base SDarnFormats FloatBits FloatSpec NumeralSpec NumeralProofs BorealisTypes BorealisFormats BorealisChecks BorealisArrays
  BorealisTime BorealisFile BorealisSpec BorealisCases BorealisFileSpec BorealisFileProofs BorealisFillProofs BorealisConvertSameProofs BorealisArrayProps BorealisFileProps
  RecordNameSpec RecordNameProofs RecordNameProps.
Import ListNotations.
Open Scope list_scope.
Open Scope Z_scope.

(** Names of these years in the order of texts: the times are in order. *)
Lemma times_follow b b' n n' : in_era b -> in_era b' -> record_name b = Ok n -> record_name b' = Ok n' -> str_lt n n' -> f64_val b < f64_val b'.
Proof.
  intros E E' H H' L. destruct (name_numeral b n (proj1 E) H) as [ms N]. destruct (name_numeral b' n' (proj1 E') H') as [ms' N'].
  apply (names_text ms ms' n n') in L; eauto using era_bound.
  destruct (Z.lt_ge_cases (f64_val b) (f64_val b')) as [|G]; [assumption|exfalso].
  pose proof (name_order b' b n' n ms' ms (proj1 E') (proj1 E) G H' H N' N). lia.
Qed.

Lemma list_follows bs nms : Forall2 (fun b n => record_name b = Ok n) bs nms -> Forall in_era bs -> StronglySorted str_lt nms ->
  StronglySorted (fun b b' => f64_val b < f64_val b') bs.
Proof.
  induction 1 as [|b n bs nms H H2 IH]; intros HE HS; [constructor|].
  apply Forall_inv in HE as HE1. apply Forall_inv_tail in HE. inversion_clear HS as [|? ? HS' HF]. constructor; [now apply IH|].
  clear IH HS'. induction H2 as [|b' n' bs nms H' H2 IH]; [apply Forall_nil|].
  apply Forall_cons; [exact (times_follow b b' n n' HE1 (Forall_inv HE) H H' (Forall_inv HF))|].
  apply IH; [exact (Forall_inv_tail HE)|exact (Forall_inv_tail HF)].
Qed.

Lemma fix_keys rs rs' : ppo_site_fix rs = Ok rs' -> keys rs' = keys rs.
Proof.
  rewrite ppo_site_fix_mapM. intros H. apply mapM_inv in H.
  induction H as [|x y l l' E F IH]; [reflexivity|]. unfold keys in *. cbn [map]. rewrite IH. f_equal.
  destruct (ppo_site_fix_record (snd x)); cbn [rbind] in E; [|discriminate E]. injection E as <-. reflexivity.
Qed.
Lemma read_keys f rs : read_records f = Ok rs -> keys rs = keys (sort_dict (h_items f)).
Proof.
  unfold read_records. intros H. apply mapM_inv in H.
  induction H as [|x y l l' E F IH]; [reflexivity|]. unfold keys in *. cbn [map]. rewrite IH. f_equal.
  destruct (read_record (snd x)); cbn [rbind] in E; [|discriminate E]. injection E as <-. reflexivity.
Qed.
Lemma site_read_keys fs name f ft rd : holds fs name f -> NoDup (keys (h_items f)) -> site_read fs name ft = Ok rd ->
  keys (sr_records rd) = keys (sort_dict (h_items f)).
Proof.
  intros HF ND. unfold site_read, h5_open. rewrite HF. destruct (filetype_of ft) as [t|]; [|discriminate]. cbn [rbind].
  destruct (site_hash f) as [h|]; [|discriminate]. cbn [rbind]. destruct (generation_of (version_of h)) as [g|]; [|discriminate]. cbn [rbind].
  unfold site_read_file. destruct (site_single_element_types _); [|discriminate]. cbn [rbind].
  destruct (site_array_dtypes _); [|discriminate]. cbn [rbind].
  destruct (read_records f) as [rs|] eqn:ER; [|discriminate]. cbn [rbind]. destruct (ppo_site_fix rs) as [rs'|] eqn:EF; [|discriminate]. cbn [rbind].
  destruct (check_site_records _ rs') as [u|]; [|discriminate]. cbn [rbind]. intros H. injection H as <-. cbn [sr_records].
  rewrite sort_id; rewrite (fix_keys _ _ EF), (read_keys _ _ ER); [reflexivity|now apply sort_sorted].
Qed.

(** ** Reading a site file gives its records, and if their names are those of times
    between 2001 and 2286, then in the order of these times, wherever the groups are
    in the file and however close the times are *)
Theorem C108_read : forall fs name f ft rd, holds fs name f -> NoDup (keys (h_items f)) -> site_read fs name ft = Ok rd ->
  Permutation (keys (sr_records rd)) (keys (h_items f)) /\
  forall bs, Forall2 (fun b k => record_name b = Ok k) bs (keys (sr_records rd)) -> Forall in_era bs ->
    StronglySorted (fun b b' => f64_val b < f64_val b') bs.
Proof.
  intros fs name f ft rd HF ND H. pose proof (site_read_keys fs name f ft rd HF ND H) as E. rewrite E. split.
  - unfold keys. apply Permutation_map, sort_perm.
  - intros bs HB HE. exact (list_follows _ _ HB HE (sort_sorted _ ND)).
Qed.
Print Assumptions C108_read.

(** A file written from [two], where the record of [t2] is the first. *)
Definition two_file : hfile := Eval vm_compute in match two_fs (str "f") with Some (Hdf f) => f | _ => mk_hfile [] [] end.
Example C108_read_case :
  holds two_fs (str "f") two_file /\ keys (h_items two_file) = [str "1558583991822"; str "1558583991060"] /\
  names_read (site_read two_fs (str "f") (str "rawacf")) = Some [str "1558583991060"; str "1558583991822"] /\
  Forall2 (fun b k => record_name b = Ok k) [t1; t2] [str "1558583991060"; str "1558583991822"] /\ Forall in_era [t1; t2].
Proof.
  split; [vm_compute; reflexivity|]. split; [vm_compute; reflexivity|]. split; [vm_compute; reflexivity|].
  split; [constructor; [exact t1_name|constructor; [exact t2_name|constructor]]|].
  apply Forall_cons; [exact t1_era|apply Forall_cons; [exact t2_era|apply Forall_nil]].
Qed.

(** A site file with records of 999999999 s and 1000000001 s is read with the later
    one first. *)
Definition turn : brecords := [(str "999999999000", raw6 9 3 2 2); (str "1000000001000", raw6 5 2 1 1)].
Definition turn_fs : hfs := fst (site_write h5py_filters empty_fs (str "f") (DRecords turn) (str "rawacf") None).
Definition turn_file : hfile := Eval vm_compute in match turn_fs (str "f") with Some (Hdf f) => f | _ => mk_hfile [] [] end.
Lemma turn_read : exists rd, site_read turn_fs (str "f") (str "rawacf") = Ok rd /\ keys (sr_records rd) = [str "1000000001000"; str "999999999000"].
Proof.
  assert (H : names_read (site_read turn_fs (str "f") (str "rawacf")) = Some [str "1000000001000"; str "999999999000"]) by (vm_compute; reflexivity).
  destruct (site_read turn_fs (str "f") (str "rawacf")) as [rd|]; [|discriminate H]. exists rd. split; [reflexivity|]. cbn [names_read] in H. congruence.
Qed.
Theorem C108_read_refuted : ~ (forall fs name f ft rd bs, holds fs name f -> NoDup (keys (h_items f)) -> site_read fs name ft = Ok rd ->
  Forall2 (fun b k => record_name b = Ok k) bs (keys (sr_records rd)) -> Forall not_negative bs ->
  StronglySorted (fun b b' => f64_val b < f64_val b') bs).
Proof.
  intros H. destruct turn_read as (rd & R & K).
  specialize (H turn_fs (str "f") turn_file (str "rawacf") rd [4741671816374779904; 4741671816358002688]).
  assert (S : StronglySorted (fun b b' => f64_val b < f64_val b') [4741671816374779904; 4741671816358002688]).
  { apply H; [vm_compute; reflexivity| |exact R| |].
    - apply BorealisCheckProofs.nodupb_ok. vm_compute. reflexivity.
    - rewrite K. constructor; [vm_compute; reflexivity|constructor; [vm_compute; reflexivity|constructor]].
    - apply Forall_cons; [split; [discriminate|reflexivity]|apply Forall_cons; [split; [discriminate|reflexivity]|apply Forall_nil]]. }
  inversion_clear S as [|? ? _ F]. apply Forall_inv in F. vm_compute in F. discriminate F.
Qed.
Print Assumptions C108_read_refuted.
