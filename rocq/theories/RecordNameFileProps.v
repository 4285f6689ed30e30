(** C108: the order of the groups of a restructured file. *)
From Coq Require Import String ZArith List Bool Lia Sorting.Sorted.
From Verif Require Import Base BytesProofs FloatBits SDarnFormats BorealisTypes BorealisFormats BorealisChecks BorealisArrays
  BorealisTime BorealisFile BorealisRestructure BorealisSpec BorealisShapes BorealisFileSpec BorealisRestructureSpec BorealisAppendSpec
  BorealisRestructureNamesSpec BorealisCases BorealisCheckProofs BorealisFileProofs BorealisTimeProofs BorealisFileCaseProofs BorealisArrayProps BorealisFileProps
  BorealisRestructureProofs BorealisRestructureProps BorealisRestructureFileProps BorealisRestructureNamesProofs BorealisRestructureNamesProps
  RecordNameSpec RecordNameProofs RecordNameProps.
Import ListNotations.
Open Scope list_scope.
Open Scope Z_scope.

Lemma sorted_by_places {A} (R : A -> A -> Prop) l :
  (forall j k x y, (j < k)%nat -> nth_error l j = Some x -> nth_error l k = Some y -> R x y) -> StronglySorted R l.
Proof.
  induction l as [|a l IH]; intros H; constructor.
  - apply IH. intros j k x y L E E'. exact (H (S j) (S k) x y (proj1 (Nat.succ_lt_mono j k) L) E E').
  - apply Forall_forall. intros y HY. apply In_nth_error in HY. destruct HY as [k E]. exact (H 0%nat (S k) a y (Nat.lt_0_succ k) eq_refl E).
Qed.

(** ** Restructuring an array file in which each record starts more than 1.1
    milliseconds after the ones before appends groups in the order of their names,
    whatever the result and whatever the output file had before, so their order as
    texts is the order of their times *)
Theorem C108_file : forall av fs i o f ft c f0 fs' r, holds fs i f -> NoDup (keys (h_items f)) -> BorealisRestructureSpec.array_file f ->
  output_before fs o f0 ->
  (forall j b, row_time f j b -> in_era b) ->
  (forall j k b b', (j < k)%nat -> row_time f j b -> row_time f k b' -> well_after b b') ->
  restructure av fs i o ft (str "site") c = (fs', r) ->
  exists its, (holds fs' o (mk_hfile (h_items f0 ++ its) (h_attrs f0)) \/ (its = [] /\ fs' o = fs o)) /\
    StronglySorted str_lt (keys its) /\
    (forall j n, nth_error (keys its) j = Some n -> exists b, row_time f j b /\ record_name b = Ok n) /\
    (r = Ok tt -> forall n, time_rows f n -> length its = n).
Proof.
  intros av fs i o f ft c f0 fs' r HF ND HA OB HE HW H.
  destruct (restructure_groups av fs i o f ft c f0 fs' r HF ND HA OB H) as (its & HO & _ & _ & _ & HN & HL).
  exists its. split; [exact HO|]. split; [|split; [exact HN|exact HL]].
  apply sorted_by_places. intros j k x y L E E'.
  destruct (HN j x E) as (b & RB & NB). destruct (HN k y E') as (b' & RB' & NB').
  exact (names_sorted b b' x y (HE j b RB) (HE k b' RB') (HW j k b b' L RB RB') NB NB').
Qed.
Print Assumptions C108_file.

(** The array file with the times [t1] and [t2]. *)
Definition two_in : hfile := Eval vm_compute in file_in (BorealisRestructureFileProps.array_file bf_two) (str "g").
Lemma two_nodup : NoDup (keys (h_items two_in)). Proof. apply nodupb_ok. vm_compute. reflexivity. Qed.
Lemma two_rows j b : row_time two_in j b -> (j = 0%nat /\ b = t1) \/ (j = 1%nat /\ b = t2).
Proof.
  intros (d & al & n & w & HI & HS & HJ & HD). apply (dict_in_get _ _ _ two_nodup) in HI.
  assert (G : forall x, dict_get (h_items two_in) (str "sqn_timestamps") = Some x -> exists e, x = HDset e (match x with HDset _ l => l | _ => al end) /\
    exists v, hd_shape e = [2%nat; v] /\ nth_error (hd_data e) (0 * v) = Some (CZ t1) /\ nth_error (hd_data e) (1 * v) = Some (CZ t2)).
  { intros x E. vm_compute in E. injection E as <-. eexists. split; [reflexivity|]. eexists. split; [reflexivity|]. split; reflexivity. }
  destruct (G _ HI) as (e & EE & v & SE & E0 & E1). injection EE as <-. rewrite SE in HS. injection HS as <- <-.
  destruct j as [|[|j]]; [left|right|lia].
  - split; [reflexivity|]. rewrite E0 in HD. now injection HD.
  - split; [reflexivity|]. rewrite E1 in HD. now injection HD.
Qed.
Example C108_file_case :
  let fs := BorealisRestructureFileProps.array_file bf_two in
  (holds fs (str "g") two_in /\ NoDup (keys (h_items two_in)) /\ BorealisRestructureSpec.array_file two_in /\
   output_before fs (str "s") (mk_hfile [] [])) /\
  (forall j b, row_time two_in j b -> in_era b) /\
  (forall j k b b', (j < k)%nat -> row_time two_in j b -> row_time two_in k b' -> well_after b b') /\
  (snd (split_file bf_two) = Ok tt /\ site_names (fst (split_file bf_two)) = Some [str "1558583991060"; str "1558583991822"]).
Proof.
  cbv zeta. split; [split; [|split; [|split]]|split; [|split]].
  - vm_compute. reflexivity.
  - exact two_nodup.
  - right. apply str_mem_In. vm_compute. reflexivity.
  - right. split; [vm_compute; reflexivity|reflexivity].
  - intros j b H. destruct (two_rows j b H) as [[_ ->]|[_ ->]]; [exact t1_era|exact t2_era].
  - intros j k b b' L H H'. destruct (two_rows j b H) as [[-> ->]|[-> ->]], (two_rows k b' H') as [[-> ->]|[-> ->]]; try lia. exact t1_t2.
  - split; vm_compute; reflexivity.
Qed.

(** ** An array file in which a record begins at a time without a name is not
    restructured *)
Lemma row_one f j b b' : NoDup (keys (h_items f)) -> row_time f j b -> row_time f j b' -> b = b'.
Proof.
  intros ND (d & al & n & w & HI & HS & _ & HD) (d' & al' & n' & w' & HI' & HS' & _ & HD').
  apply (dict_in_get _ _ _ ND) in HI. apply (dict_in_get _ _ _ ND) in HI'. rewrite HI in HI'. injection HI' as <- <-.
  rewrite HS in HS'. injection HS' as <- <-. rewrite HD in HD'. now injection HD'.
Qed.
Theorem C108_none_file : forall av fs i o f ft c f0 fs' r j b e, holds fs i f -> NoDup (keys (h_items f)) -> BorealisRestructureSpec.array_file f ->
  output_before fs o f0 -> row_time f j b -> record_name b = Raise e ->
  restructure av fs i o ft (str "site") c = (fs', r) -> r <> Ok tt.
Proof.
  intros av fs i o f ft c f0 fs' r j b e HF ND HA OB HR HE H HO.
  destruct (restructure_groups av fs i o f ft c f0 fs' r HF ND HA OB H) as (its & _ & _ & _ & _ & HN & HL).
  pose proof HR as HR'. destruct HR' as (d & al & n & w & HI & HS & HJ & _).
  assert (L : length its = n) by (apply (HL HO); exists d, al, [w]; split; [exact HI|exact HS]).
  destruct (nth_error (keys its) j) as [nm|] eqn:E; [|apply nth_error_None in E; unfold keys in E; rewrite map_length in E; lia].
  destruct (HN j nm E) as (b' & RB & NB). rewrite (row_one f j b' b ND RB HR) in NB. rewrite HE in NB. discriminate NB.
Qed.
Print Assumptions C108_none_file.

(** The same file with an infinite time for the second record: the first record is
    written. *)
Definition two_endless : hfile := Eval vm_compute in
  mk_hfile (map (fun p => if str_eqb (fst p) (str "sqn_timestamps")
                          then (fst p, match snd p with
                                       | HDset d al => HDset (mk_hdset (hd_type d) (hd_shape d)
                                           (firstn (nth 1 (hd_shape d) 0%nat) (hd_data d) ++ CZ 9218868437227405312 :: skipn (S (nth 1 (hd_shape d) 0%nat)) (hd_data d)) (hd_item d)) al
                                       | x => x end)
                          else p) (h_items two_in)) (h_attrs two_in).
Definition endless_fs : hfs := fun n => if str_eqb n (str "g") then Some (Hdf two_endless) else None.
Example C108_none_file_case :
  holds endless_fs (str "g") two_endless /\ NoDup (keys (h_items two_endless)) /\ BorealisRestructureSpec.array_file two_endless /\
  output_before endless_fs (str "s") (mk_hfile [] []) /\ row_time two_endless 1 9218868437227405312 /\ record_name 9218868437227405312 = Raise OverflowError /\
  site_names (fst (again endless_fs)) = Some [str "1558583991060"].
Proof.
  split; [vm_compute; reflexivity|]. split; [apply nodupb_ok; vm_compute; reflexivity|]. split; [right; apply str_mem_In; vm_compute; reflexivity|].
  split; [right; split; [vm_compute; reflexivity|reflexivity]|]. split; [eapply row_of; vm_compute; reflexivity|]. split; vm_compute; reflexivity.
Qed.
