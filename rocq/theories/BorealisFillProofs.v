(** Filling the arrays of the array structure: loops over records and fields. *)
From Coq Require Import String ZArith List Bool Lia.
From Verif Require Import Base SDarnFormats BorealisTypes BorealisFormats BorealisChecks BorealisArrays
  BytesProofs DmapWriteProofs DmapWriteFacts DmapFileProofs SDarnChecks BorealisNumpyProofs.
Import ListNotations.
Open Scope list_scope.
Open Scope nat_scope.

(** ** Loops *)

Lemma forall2_length {A B} (R : A -> B -> Prop) l m : Forall2 R l m -> length l = length m.
Proof. induction 1; cbn; congruence. Qed.

Lemma mapM_Forall2 {A B} (f : A -> res B) l l' : Forall2 (fun x y => f x = Ok y) l l' -> mapM f l = Ok l'.
Proof. induction 1 as [|x y l l' E H IH]; cbn [mapM]; [reflexivity|]. rewrite E. cbn [rbind]. now rewrite IH. Qed.

Lemma mapM_map {A B} (f : A -> res B) (g : A -> B) l : (forall x, In x l -> f x = Ok (g x)) -> mapM f l = Ok (map g l).
Proof.
  intros H. apply mapM_Forall2. induction l as [|x l IH]; constructor; [apply H; now left|apply IH; intros; apply H; now right].
Qed.

Lemma mapM_inv {A B} (f : A -> res B) l l' : mapM f l = Ok l' -> Forall2 (fun x y => f x = Ok y) l l'.
Proof.
  revert l'. induction l as [|x l IH]; intros l' H; cbn [mapM] in H; [apply ok_inj in H as <-; constructor|].
  inv_rbind H y. inv_rbind H ys. apply ok_inj in H as <-. constructor; auto.
Qed.

(** A dictionary built field by field. *)
Lemma mapM_pairs {A V} (name : A -> pystr) (f : A -> res V) l : (forall p, In p l -> exists v, f p = Ok v) ->
  exists l', mapM (fun p => rlet v := f p in Ok (name p, v)) l = Ok l' /\ map fst l' = map name l /\
    (forall p v, In p l -> f p = Ok v -> In (name p, v) l').
Proof.
  induction l as [|x l IH]; intros H; cbn [mapM].
  - exists []. splits; auto.
  - destruct (H x) as (v & E); [now left|]. rewrite E. cbn [rbind].
    destruct IH as (l' & E1 & E2 & E3); [intros; apply H; now right|]. rewrite E1. cbn [rbind].
    eexists. splits; [reflexivity|cbn; now rewrite E2|]. intros p w [<-|Hp] Ew.
    + rewrite E in Ew. apply ok_inj in Ew as <-. now left.
    + right. auto.
Qed.

Lemma dict_get_update {A} (e d : dict A) k : NoDup (map fst e) ->
  dict_get (dict_update d e) k = match dict_get e k with Some v => Some v | None => dict_get d k end.
Proof.
  revert d. induction e as [|[k0 v0] e IH]; intros d HN; cbn [dict_update fold_left dict_get fst snd]; [reflexivity|].
  inversion HN as [|? ? N0 N1]; subst. unfold dict_update in IH. rewrite IH by assumption. rewrite dict_get_set.
  destruct (str_eqb k0 k) eqn:E; [|reflexivity]. apply str_eqb_eq in E. subst.
  replace (dict_get e k) with (@None A); [reflexivity|]. symmetry. now apply dict_get_none.
Qed.

Lemma dict_update_keys {A} (e d : dict A) k :
  In k (map fst (dict_update d e)) <-> In k (map fst d) \/ In k (map fst e).
Proof.
  revert d. induction e as [|[k0 v0] e IH]; intros d; cbn [dict_update fold_left map fst snd In]; [tauto|].
  unfold dict_update in IH. rewrite IH, dict_set_keys.
  destruct (str_mem k0 (map fst d)) eqn:E; [|rewrite in_app_iff; cbn; tauto].
  apply str_mem_In in E. split; [tauto|]. intros [H|[<-|H]]; auto.
Qed.

Lemma dict_set_nodup {A} (d : dict A) k v : NoDup (map fst d) -> NoDup (map fst (dict_set d k v)).
Proof.
  intros H. rewrite dict_set_keys. destruct (str_mem k (map fst d)) eqn:E; [assumption|].
  assert (N : ~ In k (map fst d)) by (intros C; apply str_mem_In in C; congruence).
  clear E. induction (map fst d) as [|x l IH]; cbn; [constructor; auto; constructor|].
  inversion H; subst. constructor; [|apply IH; auto; intros C; apply N; now right].
  rewrite in_app_iff. intros [C|[<-|[]]]; [auto|]. apply N. now left.
Qed.

Lemma dict_update_nodup {A} (e d : dict A) : NoDup (map fst d) -> NoDup (map fst (dict_update d e)).
Proof.
  revert d. induction e as [|[k0 v0] e IH]; intros d H; cbn [dict_update fold_left]; [assumption|].
  unfold dict_update in IH. apply IH. now apply dict_set_nodup.
Qed.

(** ** One field over all records *)

Fixpoint fill_field (first : brecord) (rs : brecords) (rec : nat) (p : pystr * temp_array) : res (pystr * temp_array) :=
  match rs with
  | [] => Ok p
  | (_, r) :: rs' => rlet p' := temp_fill first r rec p in fill_field first rs' (rec + 1) p'
  end.

Lemma fill_loop_fields first rs : forall rec temps temps',
  Forall2 (fun p q => fill_field first rs rec p = Ok q) temps temps' ->
  fill_loop first rs rec temps = Ok temps'.
Proof.
  induction rs as [|[n r] rs IH]; intros rec temps temps' H; cbn [fill_loop].
  - f_equal. induction H as [|p q l l' E H IH]; [reflexivity|]. cbn [fill_field] in E. apply ok_inj in E. congruence.
  - assert (G : exists mid, Forall2 (fun p q => temp_fill first r rec p = Ok q) temps mid /\
      Forall2 (fun p q => fill_field first rs (rec + 1) p = Ok q) mid temps').
    { induction H as [|p q l l' E H IHH]; [exists []; auto|]. destruct IHH as (mid & M1 & M2).
      cbn [fill_field] in E. inv_rbind E p'. exists (p' :: mid). auto. }
    destruct G as (mid & M1 & M2). rewrite (mapM_Forall2 _ _ _ M1). cbn [rbind]. now apply IH.
Qed.

Definition nonzero (i : nat) : bool := negb (Nat.eqb i 0).

(** The value [v] of a field fills the corner [ss] of a row of shape [ds] with [b];
    [v0] is the value in the first record. *)
Definition block (ty : btype) (v0 v : bval) (ds ss : list nat) (b : list cell) : Prop :=
  assigned ty v = Ok (ss, b) /\ length b = size ss /\ Forall2 le ss ds /\
  region ds (if is_ndarray v0 then filter nonzero ss else []) = Ok ss /\ needs_shape v0 v = Ok tt.

Lemma assign_block ds data rec sl ss b n : length data = n * size ds -> rec < n ->
  Forall2 le ss ds -> length b = size ss -> region ds sl = Ok ss ->
  exists data', assign ds data rec sl ss b = Ok data' /\ length data' = n * size ds /\
    row_of ds rec data' = paste ds ss (row_of ds rec data) b /\
    (forall r, r < n -> r <> rec -> row_of ds r data' = row_of ds r data).
Proof.
  intros HL Hr Hle Hb HR. destruct (assign_same ds data rec ss b n HL Hr Hle Hb) as (data' & E & H).
  exists data'. split; [|exact H]. unfold assign in *. rewrite HR. rewrite region_le in E by assumption. exact E.
Qed.

Lemma fill_field_ok first f v0 ty ds n : dict_get first f = Some v0 ->
  forall rs vs rec data,
  Forall2 (fun p q => exists v, dict_get (snd p) f = Some v /\ block ty v0 v ds (fst q) (snd q)) rs vs ->
  length data = n * size ds -> rec + length rs <= n ->
  exists data', fill_field first rs rec (f, mk_temp ty ds data) = Ok (f, mk_temp ty ds data') /\
    length data' = n * size ds /\
    (forall i q, nth_error vs i = Some q ->
       row_of ds (rec + i) data' = paste ds (fst q) (row_of ds (rec + i) data) (snd q)) /\
    (forall i, i < rec -> row_of ds i data' = row_of ds i data).
Proof.
  intros H0. induction rs as [|[nm r] rs IH]; intros vs rec data HF HL Hn.
  - inversion HF; subst. exists data. splits; auto. intros [|i] q E; discriminate E.
  - inversion HF as [|? [ss b] ? vs' (v & Ev & B1 & B2 & B3 & B4 & B5) HF']; subst. cbn [fst snd] in *.
    cbn [length] in Hn.
    destruct (assign_block ds data rec _ ss b n HL ltac:(lia) B3 B2 B4) as (d1 & E1 & L1 & R1 & O1).
    destruct (IH vs' (rec + 1) d1 HF' L1 ltac:(lia)) as (d2 & E2 & L2 & R2 & O2).
    exists d2. cbn [fill_field]. unfold temp_fill, dict_item. rewrite H0, Ev. cbn [rbind ta_type ta_dims ta_data].
    rewrite B5. cbn [rbind]. rewrite B1. cbn [rbind fst snd]. change (fun i : nat => negb (Nat.eqb i 0)) with nonzero. rewrite E1. cbn [rbind]. rewrite E2. splits; auto.
    + intros [|i] q E; cbn [nth_error] in E.
      * inversion E; subst. rewrite Nat.add_0_r, O2 by lia. exact R1.
      * specialize (R2 i q E). replace (rec + S i) with (rec + 1 + i) by lia. rewrite R2. f_equal.
        apply O1; [|lia]. assert (i < length vs') by (apply nth_error_Some; congruence).
        apply forall2_length in HF'. lia.
    + intros i Hi. rewrite O2 by lia. apply O1; lia.
Qed.

(** A row of an array filled with one value. *)
Lemma row_of_repeat {A} ds n r (c : A) : r < n -> row_of ds r (repeat c (n * size ds)) = repeat c (size ds).
Proof.
  intros H. unfold row_of. replace (n * size ds) with (r * size ds + (size ds + (n - r - 1) * size ds)) by nia.
  rewrite !repeat_app, skipn_app, repeat_length, Nat.sub_diag, skipn_O.
  rewrite skipn_all2 by (rewrite repeat_length; lia). cbn [app].
  rewrite firstn_app, repeat_length, Nat.sub_diag, firstn_O, app_nil_r. apply firstn_all2. rewrite repeat_length. lia.
Qed.

(** A row with no dimensions is one element. *)
Lemma row_of_single {A} r (data : list A) c : row_of [] r data = [c] -> nth_error data r = Some c.
Proof.
  unfold row_of. cbn [size]. rewrite Nat.mul_1_r. revert data. induction r as [|r IH]; intros [|x data] H; cbn in *; try discriminate; auto.
  congruence.
Qed.

(** ** Text *)
Lemma last_cons {A} (x : A) l d : l <> [] -> last (x :: l) d = last l d.
Proof. destruct l; [contradiction|reflexivity]. Qed.

Lemma strip_nul_id s : last s 1%Z <> 0%Z -> strip_nul s = s.
Proof.
  induction s as [|c s IH]; intros H; [reflexivity|]. cbn [strip_nul]. destruct s as [|c' s].
  - cbn in *. destruct (Z.eqb_spec c 0); [contradiction|reflexivity].
  - rewrite last_cons in H by discriminate. rewrite IH by assumption. reflexivity.
Qed.

Lemma store_text_id s : length s <= 256 -> last s 1%Z <> 0%Z -> store_text s = s.
Proof. intros H1 H2. unfold store_text. rewrite firstn_all2 by assumption. now apply strip_nul_id. Qed.
