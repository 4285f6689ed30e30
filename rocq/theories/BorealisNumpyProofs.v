(** Facts about the numpy operations of BorealisTypes: rows, corners, pasting,
    broadcasting and multi-indices. *)
From Coq Require Import ZArith List Bool Lia.
From Verif Require Import Base BorealisTypes BorealisShapes BorealisArrays DmapWriteProofs DmapWriteFacts DmapFileProofs.
Import ListNotations.
Open Scope nat_scope.

(** ** Rows *)

Lemma rows_length {A} k n (l : list A) : length (rows k n l) = k.
Proof. revert l. induction k; intros l; cbn [rows length]; [reflexivity|]. now rewrite IHk. Qed.

Lemma rows_concat {A} k n (l : list A) : length l = k * n -> concat (rows k n l) = l.
Proof.
  revert l. induction k; intros l H; cbn [rows concat].
  - now destruct l.
  - rewrite IHk; [apply firstn_skipn|]. rewrite skipn_length. cbn in H. lia.
Qed.

Lemma rows_each {A} k n (l : list A) : length l = k * n -> Forall (fun r => length r = n) (rows k n l).
Proof.
  revert l. induction k; intros l H; cbn [rows]; constructor.
  - rewrite firstn_length. cbn in H. lia.
  - apply IHk. rewrite skipn_length. cbn in H. lia.
Qed.

Lemma rows_of_concat {A} n (ls : list (list A)) : Forall (fun r => length r = n) ls ->
  rows (length ls) n (concat ls) = ls.
Proof.
  induction 1 as [|r ls Hr Hl IH]; cbn [length rows concat]; [reflexivity|].
  rewrite firstn_app, skipn_app, Hr, Nat.sub_diag, firstn_O, app_nil_r, skipn_O.
  rewrite firstn_all2, skipn_all2 by lia. cbn. now rewrite IH.
Qed.

Lemma concat_length_const {A} n (ls : list (list A)) : Forall (fun r => length r = n) ls ->
  length (concat ls) = length ls * n.
Proof. induction 1; cbn; [reflexivity|]. rewrite app_length. lia. Qed.

Lemma skipn_skipn {A} x y (l : list A) : skipn x (skipn y l) = skipn (x + y) l.
Proof.
  revert l. induction y as [|y IH]; intros l; [now rewrite Nat.add_0_r|].
  rewrite Nat.add_succ_r. destruct l as [|a l]; [now rewrite !skipn_nil|]. cbn [skipn]. apply IH.
Qed.

Lemma nth_error_rows {A} k n (l : list A) i : length l = k * n -> i < k ->
  nth_error (rows k n l) i = Some (firstn n (skipn (i * n) l)).
Proof.
  revert l i. induction k; intros l i H Hi; [lia|]. cbn [rows]. destruct i; [reflexivity|].
  cbn [nth_error]. rewrite IHk by (rewrite ?skipn_length; cbn in H; lia).
  rewrite skipn_skipn. do 3 f_equal. cbn. lia.
Qed.

Lemma nth_error_concat {A} n (ls : list (list A)) i j : Forall (fun r => length r = n) ls -> j < n ->
  nth_error (concat ls) (i * n + j) =
  match nth_error ls i with Some r => nth_error r j | None => None end.
Proof.
  intros H Hj. revert i. induction H as [|r ls Hr Hl IH]; intros i; cbn [concat].
  - destruct i; cbn [nth_error]; apply nth_error_None; cbn; lia.
  - destruct i; cbn [nth_error].
    + rewrite nth_error_app1 by lia. reflexivity.
    + rewrite nth_error_app2 by (cbn; lia). replace (S i * n + j - length r) with (i * n + j) by (cbn; lia). apply IH.
Qed.

(** ** Corners and pasting *)

Lemma flat_map_concat_map {A B} (f : A -> list B) l : flat_map f l = concat (map f l).
Proof. induction l; cbn; [reflexivity|now rewrite IHl]. Qed.

(** What the first [s] rows become. *)
Lemma paste_rows {A} d ds s ss (l b : list A) : length l = size (d :: ds) -> length b = size (s :: ss) -> s <= d ->
  paste (d :: ds) (s :: ss) l b =
  concat (map (fun p => paste ds ss (fst p) (snd p)) (combine (firstn s (rows d (size ds) l)) (rows s (size ss) b))
          ++ skipn s (rows d (size ds) l)).
Proof. intros Hl Hb Hs. cbn [paste]. now rewrite concat_app, flat_map_concat_map. Qed.

Lemma Forall_firstn {A} (P : A -> Prop) n l : Forall P l -> Forall P (firstn n l).
Proof. intros H. apply Forall_forall. intros x Hx. rewrite Forall_forall in H. apply H.
  rewrite <- (firstn_skipn n l). apply in_or_app. now left. Qed.
Lemma Forall_skipn {A} (P : A -> Prop) n l : Forall P l -> Forall P (skipn n l).
Proof. intros H. apply Forall_forall. intros x Hx. rewrite Forall_forall in H. apply H.
  rewrite <- (firstn_skipn n l). apply in_or_app. now right. Qed.

Lemma paste_each {A} ds ss (ls bs : list (list A)) :
  Forall (fun r => length r = size ds) ls -> Forall (fun r => length r = size ss) bs ->
  (forall l b : list A, length l = size ds -> length b = size ss -> length (paste ds ss l b) = size ds) ->
  Forall (fun r => length r = size ds) (map (fun p => paste ds ss (fst p) (snd p)) (combine ls bs)).
Proof.
  intros Hl Hb HP. apply Forall_forall. intros x Hx. apply in_map_iff in Hx as ([u v] & <- & Hx). cbn [fst snd].
  rewrite Forall_forall in Hl, Hb. apply HP; [apply Hl; eapply in_combine_l; eauto|apply Hb; eapply in_combine_r; eauto].
Qed.

Lemma paste_length {A} ds ss (l b : list A) : Forall2 le ss ds -> length l = size ds -> length b = size ss ->
  length (paste ds ss l b) = size ds.
Proof.
  intros H. revert l b. induction H as [|s d ss ds Hs H IH]; intros l b Hl Hb; [exact Hb|].
  rewrite paste_rows by assumption. cbn [size] in *.
  pose proof (rows_each d (size ds) l Hl) as H1. pose proof (rows_each s (size ss) b Hb) as H2.
  rewrite (concat_length_const (size ds)).
  - rewrite app_length, map_length, combine_length, firstn_length, skipn_length, !rows_length. nia.
  - apply Forall_app. split; [|now apply Forall_skipn].
    apply (paste_each ds ss); [now apply Forall_firstn|assumption|assumption].
Qed.

Lemma map_combine_snd {A B C} (f : A * B -> C) (g : B -> C) (ls : list A) (bs : list B) :
  length ls = length bs -> (forall l b, In l ls -> In b bs -> f (l, b) = g b) ->
  map f (combine ls bs) = map g bs.
Proof.
  revert bs. induction ls as [|l ls IH]; intros [|b bs] HL H; try discriminate HL; [reflexivity|].
  cbn. f_equal; [apply H; now left|]. apply IH; [now inversion HL|]. intros; apply H; now right.
Qed.

Lemma corner_paste {A} ds ss (l b : list A) : Forall2 le ss ds -> length l = size ds -> length b = size ss ->
  corner ds ss (paste ds ss l b) = b.
Proof.
  intros H. revert l b. induction H as [|s d ss ds Hs H IH]; intros l b Hl Hb; [reflexivity|].
  rewrite paste_rows by assumption. cbn [size] in *. cbn [corner].
  pose proof (rows_each d (size ds) l Hl) as H1. pose proof (rows_each s (size ss) b Hb) as H2.
  set (M := map _ _).
  assert (HM : length M = s)
    by (unfold M; rewrite map_length, combine_length, firstn_length, !rows_length; lia).
  assert (HF : Forall (fun r => length r = size ds) (M ++ skipn s (rows d (size ds) l))).
  { apply Forall_app. split; [|now apply Forall_skipn].
    apply (paste_each ds ss); [now apply Forall_firstn|assumption|].
    intros; now apply paste_length. }
  replace d with (length (M ++ skipn s (rows d (size ds) l))) at 1
    by (rewrite app_length, skipn_length, rows_length; lia).
  rewrite rows_of_concat by assumption.
  rewrite firstn_app, HM, Nat.sub_diag, firstn_O, app_nil_r, firstn_all2 by lia.
  unfold M. rewrite flat_map_concat_map, map_map.
  rewrite (map_combine_snd _ (fun b => b)).
  - rewrite map_id. now apply rows_concat.
  - rewrite firstn_length, !rows_length. lia.
  - intros x y Hx Hy. cbn [fst snd]. apply IH.
    + rewrite Forall_forall in H1. apply H1. rewrite <- (firstn_skipn s (rows d (size ds) l)). apply in_or_app. now left.
    + rewrite Forall_forall in H2. now apply H2.
Qed.

(** ** Broadcasting to the same shape *)

Lemma spread_same {A} s (b : list A) : length b = size s -> spread s s b = Ok b.
Proof.
  revert b. induction s as [|x s IH]; intros b H; [reflexivity|]. cbn [spread]. rewrite Nat.eqb_refl.
  cbn [size] in H.
  assert (G : forall k (c : list A), length c = k * size s ->
    (fix go (l : list (list A)) : res (list A) :=
       match l with
       | [] => Ok []
       | r :: l' => rlet h := spread s s r in rlet t := go l' in Ok (h ++ t)
       end) (rows k (size s) c) = Ok c).
  { induction k; intros c Hc; cbn [rows].
    - now destruct c.
    - cbn in Hc. rewrite IH by (rewrite firstn_length; lia). cbn [rbind].
      rewrite IHk by (rewrite skipn_length; lia). cbn [rbind]. now rewrite firstn_skipn. }
  now apply G.
Qed.

Lemma broadcast_same {A} s (b : list A) : length b = size s -> broadcast s s b = Ok b.
Proof.
  intros H. unfold broadcast. rewrite Nat.leb_refl, Nat.sub_diag. cbn [repeat app]. now apply spread_same.
Qed.

Lemma region_le ds ss : Forall2 le ss ds -> region ds ss = Ok ss.
Proof.
  induction 1; cbn [region]; [reflexivity|]. rewrite IHForall2. cbn [rbind]. now rewrite Nat.min_l.
Qed.

Lemma slice_shape_le ds ss : Forall2 le ss ds -> slice_shape ds (map Z.of_nat ss) = Ok ss.
Proof.
  induction 1 as [|s d ss ds Hs H IH]; cbn [slice_shape map]; [reflexivity|]. rewrite IH. cbn [rbind].
  unfold slice_stop. destruct (Z.ltb_spec (Z.of_nat s) 0); [lia|]. rewrite Nat2Z.id, Nat.min_l by assumption. reflexivity.
Qed.

(** ** One row replaced *)

Lemma row_of_length {A} ds n r (data : list A) : length data = n * size ds -> r < n ->
  length (row_of ds r data) = size ds.
Proof. intros H Hr. unfold row_of. rewrite firstn_length, skipn_length. nia. Qed.

Lemma assign_same ds data rec ss b n : length data = n * size ds -> rec < n ->
  Forall2 le ss ds -> length b = size ss ->
  exists data', assign ds data rec ss ss b = Ok data' /\ length data' = n * size ds /\
    row_of ds rec data' = paste ds ss (row_of ds rec data) b /\
    (forall r, r < n -> r <> rec -> row_of ds r data' = row_of ds r data).
Proof.
  intros HL Hr Hle Hb. unfold assign. rewrite region_le by assumption. cbn [rbind].
  rewrite broadcast_same by assumption. cbn [rbind]. eexists. split; [reflexivity|].
  set (P := paste ds ss (row_of ds rec data) b).
  assert (HP : length P = size ds) by (apply paste_length; auto; eapply row_of_length; eauto).
  assert (HA : length (firstn (rec * size ds) data) = rec * size ds) by (rewrite firstn_length; nia).
  splits.
  - rewrite !app_length, HP, HA, skipn_length. nia.
  - unfold row_of. rewrite skipn_app, HA, Nat.sub_diag, skipn_O, skipn_all2 by lia. cbn [app].
    rewrite firstn_app, HP, Nat.sub_diag, firstn_O, app_nil_r. apply firstn_all2. lia.
  - intros r Hrn Hne. unfold row_of. destruct (Nat.lt_ge_cases r rec) as [Hlt|Hge].
    + rewrite skipn_app, HA. replace (r * size ds - rec * size ds) with 0 by nia. rewrite skipn_O.
      rewrite firstn_app. rewrite skipn_length, HA.
      replace (size ds - (rec * size ds - r * size ds)) with 0 by nia.
      rewrite firstn_O, app_nil_r.
      rewrite <- (firstn_skipn (rec * size ds) data) at 2. rewrite skipn_app, HA.
      replace (r * size ds - rec * size ds) with 0 by nia. rewrite skipn_O, firstn_app, skipn_length, HA.
      replace (size ds - (rec * size ds - r * size ds)) with 0 by nia. now rewrite firstn_O, app_nil_r.
    + f_equal. rewrite !skipn_app, HA, HP. rewrite skipn_all2 by (rewrite HA; nia). cbn [app].
      rewrite skipn_all2 by (rewrite HP; nia). cbn [app]. rewrite skipn_skipn. f_equal. nia.
Qed.

(** ** Multi-indices *)

Lemma offset_lt ds idx : Forall2 lt idx ds -> offset ds idx < size ds.
Proof. intros H. induction H as [|i d idx ds Hi H IH]; cbn; [lia|]. nia. Qed.

Lemma nth_error_split_row {A} d n (l : list A) i j : length l = d * n -> i < d -> j < n ->
  nth_error l (i * n + j) = nth_error (firstn n (skipn (i * n) l)) j.
Proof.
  intros HL Hi Hj. rewrite <- (rows_concat d n l HL) at 1.
  rewrite (nth_error_concat n) by (auto using rows_each). now rewrite nth_error_rows.
Qed.

Lemma nth_error_combine {A B} (l : list A) (m : list B) i u v :
  nth_error l i = Some u -> nth_error m i = Some v -> nth_error (combine l m) i = Some (u, v).
Proof.
  revert i m. induction l as [|x l IH]; intros [|i] [|y m] E1 E2; try discriminate; cbn in *.
  - congruence.
  - now apply IH.
Qed.

Lemma paste_at {A} ds ss (l b : list A) idx : Forall2 le ss ds -> length l = size ds -> length b = size ss ->
  Forall2 lt idx ds ->
  (Forall2 lt idx ss -> nth_error (paste ds ss l b) (offset ds idx) = nth_error b (offset ss idx)) /\
  (~ Forall2 lt idx ss -> nth_error (paste ds ss l b) (offset ds idx) = nth_error l (offset ds idx)).
Proof.
  intros H. revert l b idx. induction H as [|s d ss ds Hs H IH]; intros l b idx Hl Hb Hi.
  - inversion Hi; subst. cbn [paste offset]. split; [reflexivity|]. intros N. now destruct N.
  - inversion Hi as [|i d' idx' ds' Hid Hi']; subst. rewrite paste_rows by assumption. cbn [size offset] in *.
    pose proof (rows_each d (size ds) l Hl) as H1. pose proof (rows_each s (size ss) b Hb) as H2.
    set (M := map _ _).
    assert (HM : length M = s)
      by (unfold M; rewrite map_length, combine_length, firstn_length, !rows_length; lia).
    assert (HF : Forall (fun r => length r = size ds) (M ++ skipn s (rows d (size ds) l))).
    { apply Forall_app. split; [|now apply Forall_skipn].
      apply (paste_each ds ss); [now apply Forall_firstn|assumption|].
      intros; now apply paste_length. }
    assert (HO : offset ds idx' < size ds) by now apply offset_lt.
    rewrite (nth_error_concat (size ds)) by assumption.
    destruct (Nat.lt_ge_cases i s) as [Hlt|Hge].
    + rewrite nth_error_app1 by lia. unfold M. rewrite nth_error_map.
      assert (HC : nth_error (combine (firstn s (rows d (size ds) l)) (rows s (size ss) b)) i =
        Some (firstn (size ds) (skipn (i * size ds) l), firstn (size ss) (skipn (i * size ss) b))).
      { assert (E1 : nth_error (firstn s (rows d (size ds) l)) i = Some (firstn (size ds) (skipn (i * size ds) l))).
        { rewrite <- (nth_error_rows d (size ds) l i Hl Hid). rewrite <- (firstn_skipn s (rows d (size ds) l)) at 2.
          rewrite nth_error_app1; [reflexivity|]. rewrite firstn_length, rows_length. lia. }
        pose proof (nth_error_rows s (size ss) b i Hb Hlt) as E2.
        now apply nth_error_combine. }
      rewrite HC. cbn [option_map fst snd].
      destruct (IH (firstn (size ds) (skipn (i * size ds) l)) (firstn (size ss) (skipn (i * size ss) b)) idx') as [I1 I2].
      * rewrite firstn_length, skipn_length. nia.
      * rewrite firstn_length, skipn_length. nia.
      * assumption.
      * split; intros HN.
        -- assert (HN' : Forall2 lt idx' ss) by (inversion HN; assumption). rewrite I1 by assumption. symmetry.
           apply (nth_error_split_row s); auto. now apply offset_lt.
        -- rewrite I2 by (intros N; apply HN; now constructor). symmetry. now apply (nth_error_split_row d).
    + rewrite nth_error_app2 by lia. rewrite HM. split; intros HN; [inversion HN; lia|].
      assert (E : nth_error (skipn s (rows d (size ds) l)) (i - s) = Some (firstn (size ds) (skipn (i * size ds) l))).
      { rewrite <- (nth_error_rows d (size ds) l i Hl Hid). rewrite <- (firstn_skipn s (rows d (size ds) l)) at 2.
        rewrite nth_error_app2; rewrite firstn_length, rows_length; [|lia]. now rewrite Nat.min_l by lia. }
      rewrite E. symmetry. now apply (nth_error_split_row d).
Qed.
