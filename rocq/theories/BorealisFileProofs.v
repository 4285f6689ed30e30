(** Lemmas about the Borealis file layer. *)
From Coq Require Import String ZArith List Bool Lia Sorted Permutation.
From Verif Require Import Base BytesProofs Utf8 Utf8Proofs SDarnFormats BorealisTypes BorealisFormats BorealisChecks
  BorealisArrays BorealisTime BorealisFile BorealisSpec BorealisFileSpec BorealisCatalogue
  BorealisCheckProofs BorealisCatalogueProofs BorealisFillProofs
  DmapFileProofs SDarnChecks DmapWriteProofs.
Import ListNotations.
Open Scope list_scope.
Open Scope Z_scope.

(** ** Versions *)

Lemma split_at_none c s : ~ In c s -> split_at c s = [s].
Proof.
  induction s as [|x s IH]; cbn; intros H; [reflexivity|].
  destruct (x =? c) eqn:E; [apply Z.eqb_eq in E; subst; exfalso; apply H; now left|].
  rewrite IH by (intros HI; apply H; now right). reflexivity.
Qed.
Lemma split_at_app c s rest : ~ In c s -> split_at c (s ++ c :: rest) = s :: split_at c rest.
Proof.
  induction s as [|x s IH]; cbn; intros H.
  - now rewrite Z.eqb_refl.
  - destruct (x =? c) eqn:E; [apply Z.eqb_eq in E; subst; exfalso; apply H; now left|].
    rewrite IH by (intros HI; apply H; now right). reflexivity.
Qed.
Lemma split_at_hd c s rest : ~ In c s -> ends_part [c] rest -> hd [] (split_at c (s ++ rest)) = s.
Proof.
  intros H HE. destruct rest as [|x rest].
  - now rewrite app_nil_r, split_at_none.
  - destruct HE as [<-|[]]. now rewrite split_at_app.
Qed.
Lemma in_app_not {A} (x : A) a b : ~ In x a -> ~ In x b -> ~ In x (a ++ b).
Proof. intros H1 H2 H. apply in_app_or in H. tauto. Qed.

(** The part of a string before the first [c]. *)
Fixpoint before (c : Z) (s : pystr) : pystr :=
  match s with
  | [] => []
  | x :: s' => if x =? c then [] else x :: before c s'
  end.
Fixpoint after (c : Z) (s : pystr) : pystr :=
  match s with
  | [] => []
  | x :: s' => if x =? c then s else after c s'
  end.
Lemma before_after c s : s = before c s ++ after c s.
Proof. induction s as [|x s IH]; cbn; [reflexivity|]. destruct (x =? c); [reflexivity|]. cbn. now f_equal. Qed.
Lemma before_not c s : ~ In c (before c s).
Proof.
  induction s as [|x s IH]; cbn; [tauto|]. destruct (x =? c) eqn:E; [easy|].
  intros [->|H]; [rewrite Z.eqb_refl in E; discriminate|auto].
Qed.
Lemma after_ends c s : ends_part [c] (after c s).
Proof. induction s as [|x s IH]; cbn; [exact I|]. destruct (x =? c) eqn:E; [|exact IH]. apply Z.eqb_eq in E. cbn. now left. Qed.
Lemma before_in c x s : In x (before c s) -> In x s.
Proof. intros H. rewrite (before_after c s). apply in_or_app. now left. Qed.

Lemma hash_version_total h : exists v, hash_version h v.
Proof.
  pose proof (before_after 45 h) as E. pose proof (before_not 45 h) as N. pose proof (after_ends 45 h) as EN.
  set (p := before 45 h) in *. set (q := after 45 h) in *. clearbody p q. subst h.
  pose proof (before_after 46 p) as E. pose proof (before_not 46 p) as N2. pose proof (after_ends 46 p) as EN2.
  pose proof (before_in 46 45 p) as NI.
  set (x := before 46 p) in *. set (y := after 46 p) in *. clearbody x y. subst p.
  destruct y as [|d y].
  - exists x. rewrite app_nil_r. apply ver_one; auto; intros H; apply N; apply in_or_app; now left.
  - destruct EN2 as [<-|[]]. exists (x ++ 46 :: before 46 y).
    rewrite (before_after 46 y) at 1.
    replace ((x ++ 46 :: before 46 y ++ after 46 y) ++ q) with (x ++ 46 :: before 46 y ++ (after 46 y ++ q))
      by (rewrite <- !app_assoc; cbn; now rewrite <- app_assoc).
    apply ver_two; auto.
    + apply before_not.
    + intros H. apply N. apply in_or_app. right. right. eapply before_in; eauto.
    + pose proof (after_ends 46 y) as H. destruct (after 46 y) as [|c z]; cbn in *.
      * destruct q as [|c q]; cbn in *; [exact I|]. destruct EN as [<-|[]]. auto.
      * destruct H as [<-|[]]. auto.
Qed.

Lemma version_ok h v : hash_version h v -> version_of h = v.
Proof.
  intros H. unfold version_of. destruct H as [x y rest X1 X2 Y1 Y2 R|x rest X1 X2 R].
  - destruct rest as [|c rest].
    + rewrite app_nil_r. rewrite (split_at_none 45) by (apply in_app_not; [auto|intros [|]; [discriminate|auto]]).
      cbn [hd]. rewrite split_at_app, split_at_none by auto. reflexivity.
    + destruct R as [<-|[<-|[]]].
      * assert (E : hd [] (split_at 45 (x ++ 46 :: y ++ 46 :: rest)) = x ++ 46 :: y ++ 46 :: before 45 rest).
        { rewrite (before_after 45 rest) at 1.
          replace (x ++ 46 :: y ++ 46 :: before 45 rest ++ after 45 rest)
            with ((x ++ 46 :: y ++ 46 :: before 45 rest) ++ after 45 rest)
            by (rewrite <- app_assoc; cbn; rewrite <- app_assoc; reflexivity).
          apply split_at_hd; [|apply after_ends].
          apply in_app_not; [auto|]. intros [|H]; [discriminate|]. apply in_app_or in H as [|[|H]]; [auto|discriminate|].
          eapply before_not; eauto. }
        rewrite E. rewrite split_at_app, split_at_app by auto. reflexivity.
      * replace (x ++ 46 :: y ++ 45 :: rest) with ((x ++ 46 :: y) ++ 45 :: rest) by (rewrite <- app_assoc; reflexivity).
        rewrite (split_at_hd 45); [|apply in_app_not; [auto|intros [|]; [discriminate|auto]]|now left].
        rewrite split_at_app, split_at_none by auto. reflexivity.
  - rewrite (split_at_hd 45) by auto. rewrite split_at_none by auto. reflexivity.
Qed.

Lemma hash_version_fun h v v' : hash_version h v -> hash_version h v' -> v = v'.
Proof. intros H H'. apply version_ok in H. apply version_ok in H'. congruence. Qed.
Lemma version_iff h v : version_of h = v <-> hash_version h v.
Proof.
  split; [|apply version_ok]. intros <-. destruct (hash_version_total h) as [v H].
  rewrite (version_ok h v H). exact H.
Qed.

(** ** Values through a file *)

Lemma number_cases t : number_type t -> t <> BStr /\ t <> BNpStr /\ t <> BBytes /\ t <> BOther.
Proof. destruct t; cbn; intros H; repeat split; (discriminate || contradiction). Qed.

Lemma ascii_dec s : Forall (fun c => 0 <= c < 128) s -> utf8_dec s = Some s.
Proof. intros H. apply utf8_dec_enc. now apply utf8_enc_ascii. Qed.

Lemma attr_through v : attr_kept v -> exists a, write_attr v = Ok a /\ read_attr a = Ok v.
Proof.
  intros [s [H1 H2]|t c H].
  - cbn. assert (E : forallb (fun c => (0 <=? c) && (c <? 128)) s = true).
    { apply forallb_forall. intros x Hx. rewrite Forall_forall in H1. specialize (H1 x Hx). lia. }
    rewrite E. eexists. split; [reflexivity|]. cbn. rewrite strip_nul_id by exact H2. now rewrite ascii_dec.
  - exists (HValue (BScalar t c)). split; [|reflexivity]. destruct t; cbn in *; auto; contradiction.
Qed.

Lemma point_bytes_ok c : 0 <= c < 1114112 -> code_point (point_bytes c) = c.
Proof.
  intros H. unfold code_point, point_bytes. pose proof (Z.div_mod c 256 ltac:(lia)) as D1.
  pose proof (Z.div_mod (c / 256) 256 ltac:(lia)) as D2.
  pose proof (Z.div_mod (c / 65536) 256 ltac:(lia)) as D3.
  assert (E1 : c / 256 / 256 = c / 65536) by (rewrite Z.div_div by lia; f_equal).
  assert (E2 : c / 65536 / 256 = c / 16777216) by (rewrite Z.div_div by lia; f_equal).
  rewrite E1 in D2. rewrite E2 in D3.
  set (a := c mod 256) in *. set (b := (c / 256) mod 256) in *. set (d := (c / 65536) mod 256) in *. lia.
Qed.

Lemma rows_app {A} k n (x : list A) l : length x = n -> rows (S k) n (x ++ l) = x :: rows k n l.
Proof.
  intros <-. cbn [rows]. now rewrite firstn_app, Nat.sub_diag, firstn_all, firstn_O, app_nil_r, skipn_app, Nat.sub_diag, skipn_all.
Qed.
Lemma rows_flat {A B} (f : A -> list B) n l : (forall x, In x l -> length (f x) = n) ->
  rows (length l) n (flat_map f l) = map f l.
Proof.
  induction l as [|x l IH]; intros H; [reflexivity|]. cbn [length flat_map map].
  rewrite rows_app by (apply H; now left). f_equal. apply IH. intros y Hy. apply H. now right.
Qed.

Lemma list_max_ge l x : In x l -> (x <= list_max l)%nat.
Proof. intros H. pose proof (proj1 (list_max_le l (list_max l)) (le_n _)) as HF. rewrite Forall_forall in HF. auto. Qed.

Lemma strip_pad s n : last s 1 <> 0 -> strip_nul (s ++ repeat 0 n) = s.
Proof.
  intros H. induction s as [|c s IH].
  - cbn. induction n as [|n IH]; cbn; [reflexivity|]. now rewrite IH.
  - cbn [app strip_nul]. destruct s as [|c' s].
    + cbn [app]. assert (E : strip_nul (repeat 0 n) = []) by (clear; induction n as [|n IHn]; cbn; [|rewrite IHn]; reflexivity).
      rewrite E. destruct (c =? 0) eqn:EC; [|reflexivity]. apply Z.eqb_eq in EC. now cbn in H.
    + rewrite IH by exact H. reflexivity.
Qed.

Lemma item_bytes_length w c : text_cell c -> (text_length c <= w)%nat -> length (item_bytes w c) = (4 * w)%nat.
Proof.
  intros (s & -> & _ & _) H. cbn [text_length item_bytes] in *.
  assert (E : forall l, length (flat_map point_bytes l) = (4 * length l)%nat) by (induction l; cbn [flat_map length point_bytes app]; [reflexivity|lia]).
  rewrite E, app_length, repeat_length. lia.
Qed.
Lemma item_through w c : text_cell c -> (text_length c <= w)%nat -> text_item w (item_bytes w c) = c.
Proof.
  intros (s & -> & HF & HL) H. cbn [text_length item_bytes] in *. unfold text_item, pieces. f_equal.
  assert (E : length (s ++ repeat 0 (w - length s)) = w) by (rewrite app_length, repeat_length; lia).
  rewrite <- E at 1. rewrite rows_flat by reflexivity. rewrite map_map.
  rewrite map_ext_in with (g := fun c => c).
  - rewrite map_id. now apply strip_pad.
  - intros x Hx. apply point_bytes_ok. apply in_app_or in Hx as [Hx|Hx]; [rewrite Forall_forall in HF; auto|].
    apply repeat_spec in Hx. lia.
Qed.

Lemma size_app a b : size (a ++ b) = (size a * size b)%nat.
Proof. induction a as [|x a IH]; cbn; [lia|]. rewrite IH. lia. Qed.
Lemma removelast_last_eq {A} (l : list A) d : l <> [] -> removelast l ++ [last l d] = l.
Proof. intros H. symmetry. now apply app_removelast_last. Qed.

Lemma removelast_snoc {A} (l : list A) x : removelast (l ++ [x]) = l.
Proof. apply removelast_last. Qed.
Lemma last_snoc {A} (l : list A) x d : last (l ++ [x]) d = x.
Proof. apply last_last. Qed.

Lemma check_filter_ok av c s : c = None \/ (exists n, c = Some n /\ av n = true) -> s <> [] -> check_filter av c s = Ok tt.
Proof. intros [->|(n & -> & E)] H; [reflexivity|]. destruct s; [contradiction|]. cbn. now rewrite E. Qed.

Lemma dset_through av c v : c = None \/ (exists n, c = Some n /\ av n = true) -> dset_kept v ->
  exists d, write_dset av c v = Ok d /\ read_dset d = Ok v.
Proof.
  intros HC [t s l HS HT|s l HS HL HF].
  - exists (mk_hdset t s l None). split.
    + assert (E : check_filter av c s = Ok tt) by now apply check_filter_ok.
      destruct t; cbn; rewrite ?E; try reflexivity; destruct HT as [[]|HT]; discriminate.
    + destruct s; [contradiction|]. reflexivity.
  - set (w := item_width l). set (sh := removelast s ++ [(last s 0 * (4 * w))%nat]).
    assert (W1 : (1 <= w)%nat) by (unfold w, item_width; lia).
    assert (WL : forall x, In x l -> (text_length x <= w)%nat).
    { intros x Hx. assert (H : In (text_length x) (map text_length l)) by now apply in_map.
      apply list_max_ge in H. unfold w, item_width. lia. }
    exists (mk_hdset BU8 sh (flat_map (item_bytes w) l) (Some w)). split.
    + assert (E : check_filter av c sh = Ok tt) by (apply check_filter_ok; [auto|]; unfold sh; destruct (removelast s); discriminate).
      change (match s with [] => Raise ValueError
              | _ => rbind (check_filter av c sh) (fun _ => Ok (mk_hdset BU8 sh (flat_map (item_bytes w) l) (Some w))) end =
              Ok (mk_hdset BU8 sh (flat_map (item_bytes w) l) (Some w))).
      clearbody sh. rewrite E. destruct s as [|s0 s]; [contradiction|]. reflexivity.
    + unfold read_dset. cbn [hd_shape hd_item hd_type hd_data]. destruct sh as [|s0 ss] eqn:ES; [unfold sh in ES; destruct (removelast s); discriminate|].
      cbn [btype_eqb negb orb]. destruct (Nat.eqb w 0) eqn:EW; [apply Nat.eqb_eq in EW; lia|]. cbv zeta. rewrite <- ES. unfold sh.
      rewrite last_snoc, removelast_snoc.
      assert (M : ((last s 0 * (4 * w)) mod (4 * w) = 0)%nat) by (apply Nat.mod_mul; lia).
      assert (D : ((last s 0 * (4 * w)) / (4 * w) = last s 0)%nat) by (apply Nat.div_mul; lia).
      rewrite M, D. cbn [Nat.eqb negb]. rewrite removelast_last_eq by exact HS. do 2 f_equal.
      rewrite <- HL. unfold pieces. rewrite Forall_forall in HF. rewrite rows_flat by (intros x Hx; apply item_bytes_length; auto).
      rewrite map_map. rewrite map_ext_in with (g := fun c => c); [apply map_id|]. intros x Hx. apply item_through; auto.
Qed.

(** ** Sorting *)

Lemma str_leb_lt a b : str_leb a b = true -> a = b \/ str_lt a b.
Proof.
  revert b. induction a as [|x a IH]; intros [|y b] H; cbn in H; try discriminate; auto.
  - right. constructor.
  - apply orb_true_iff in H as [H|H].
    + right. constructor. lia.
    + apply andb_true_iff in H as [H1 H2]. apply Z.eqb_eq in H1. subst. apply IH in H2 as [->|H2]; [now left|]. right. now constructor.
Qed.
Lemma str_leb_gt a b : str_leb a b = false -> str_lt b a.
Proof.
  revert b. induction a as [|x a IH]; intros [|y b] H; cbn in H; try discriminate; [constructor|].
  apply orb_false_iff in H as [H1 H2]. destruct (Z.eq_dec x y) as [->|N].
  - rewrite Z.eqb_refl in H2. cbn in H2. apply lt_tail. auto.
  - constructor. lia.
Qed.
Lemma str_lt_trans a b c : str_lt a b -> str_lt b c -> str_lt a c.
Proof.
  intros H. revert c. induction H as [x b|x y a b L|x a b H IH]; intros c H2.
  - inversion H2; subst; constructor.
  - inversion H2; subst; apply lt_head; lia.
  - inversion H2; subst; [now apply lt_head|apply lt_tail; auto].
Qed.
Lemma str_lt_irr a : ~ str_lt a a.
Proof. induction a as [|x a IH]; intros H; inversion H; subst; [lia|auto]. Qed.

Lemma insert_perm {A} (p : pystr * A) d : Permutation (insert_entry p d) (p :: d).
Proof.
  induction d as [|q d IH]; cbn; [reflexivity|]. destruct (str_leb (fst p) (fst q)); [reflexivity|].
  rewrite IH. apply perm_swap.
Qed.
Lemma sort_perm {A} (d : dict A) : Permutation (sort_dict d) d.
Proof. induction d as [|p d IH]; cbn; [reflexivity|]. rewrite insert_perm. now apply perm_skip. Qed.
Lemma keys_perm {A} (d d' : dict A) : Permutation d d' -> Permutation (keys d) (keys d').
Proof. apply Permutation_map. Qed.

Lemma insert_sorted {A} (p : pystr * A) d : ~ In (fst p) (keys d) -> StronglySorted str_lt (keys d) ->
  StronglySorted str_lt (keys (insert_entry p d)).
Proof.
  induction d as [|q d IH]; cbn [insert_entry]; intros N H; [repeat constructor|].
  change (keys (q :: d)) with (fst q :: keys d) in H, N.
  destruct (str_leb (fst p) (fst q)) eqn:E.
  - apply str_leb_lt in E as [E|E]; [exfalso; apply N; left; auto|]. change (keys (p :: q :: d)) with (fst p :: fst q :: keys d). constructor; [exact H|].
    inversion H as [|? ? H1 H2]; subst. constructor; [exact E|]. eapply Forall_impl; [|exact H2]. intros k HK. exact (str_lt_trans _ _ _ E HK).
  - apply str_leb_gt in E. change (keys (q :: insert_entry p d)) with (fst q :: keys (insert_entry p d)). inversion H as [|? ? H1 H2]; subst. constructor.
    + apply IH; [|exact H1]. intros C. apply N. now right.
    + rewrite Forall_forall in *. intros k Hk.
      apply (Permutation_in _ (keys_perm _ _ (insert_perm p d))) in Hk as [<-|Hk]; auto.
Qed.
Lemma sort_sorted {A} (d : dict A) : NoDup (keys d) -> StronglySorted str_lt (keys (sort_dict d)).
Proof.
  induction d as [|p d IH]; cbn; intros H; [constructor|]. inversion H as [|? ? H1 H2]; subst.
  apply insert_sorted; [|auto]. intros C. apply H1. eapply Permutation_in; [apply keys_perm, sort_perm|exact C].
Qed.
Lemma perm_get {A} (d d' : dict A) k : NoDup (keys d) -> Permutation d' d -> dict_get d' k = dict_get d k.
Proof.
  intros HN HP. assert (HN' : NoDup (keys d')) by (eapply Permutation_NoDup; [symmetry; apply keys_perm; exact HP|exact HN]).
  destruct (dict_get d k) as [v|] eqn:E.
  - apply dict_get_In in E. apply dict_get_nodup; [exact HN'|]. eapply Permutation_in; [symmetry; exact HP|exact E].
  - apply dict_get_none in E. apply dict_get_none. intros C. apply E. eapply Permutation_in; [apply (keys_perm d' d HP)|exact C].
Qed.
Lemma sort_in_order {A} (d : dict A) : NoDup (keys d) -> in_order d (sort_dict d).
Proof. intros H. split; [now apply sort_sorted|]. intros k. apply perm_get; [exact H|apply sort_perm]. Qed.

Lemma insert_id {A} (p : pystr * A) d : Forall (str_lt (fst p)) (keys d) -> insert_entry p d = p :: d.
Proof.
  destruct d as [|q d]; cbn; intros H; [reflexivity|]. inversion H as [|? ? H1 H2]; subst.
  destruct (str_leb (fst p) (fst q)) eqn:E; [reflexivity|]. apply str_leb_gt in E. exfalso. eapply str_lt_irr, str_lt_trans; eauto.
Qed.
Lemma sort_id {A} (d : dict A) : StronglySorted str_lt (keys d) -> sort_dict d = d.
Proof.
  induction d as [|p d IH]; cbn; intros H; [reflexivity|]. inversion H as [|? ? H1 H2]; subst.
  change (insert_entry p (sort_dict d) = p :: d). rewrite (IH H1). now apply insert_id.
Qed.

Lemma Forall2_impl {A B} (P Q : A -> B -> Prop) l l' : (forall x y, P x y -> Q x y) -> Forall2 P l l' -> Forall2 Q l l'.
Proof. intros H. induction 1; constructor; auto. Qed.

Definition same_key {A B} (P : A -> B -> Prop) (p : pystr * A) (q : pystr * B) : Prop := fst p = fst q /\ P (snd p) (snd q).

Lemma insert_rel {A B} (P : A -> B -> Prop) p q d e : same_key P p q -> Forall2 (same_key P) d e ->
  Forall2 (same_key P) (insert_entry p d) (insert_entry q e).
Proof.
  intros H. induction 1 as [|x y d e HX HR IH]; cbn [insert_entry]; [constructor; [exact H|constructor]|].
  destruct H as [E1 E2], HX as [X1 X2]. rewrite E1, X1. destruct (str_leb (fst q) (fst y)); repeat (constructor; auto).
Qed.
Lemma sort_rel {A B} (P : A -> B -> Prop) d e : Forall2 (same_key P) d e -> Forall2 (same_key P) (sort_dict d) (sort_dict e).
Proof. induction 1; cbn; [constructor|]. now apply insert_rel. Qed.
Lemma rel_keys {A B} (P : A -> B -> Prop) d e : Forall2 (same_key P) d e -> keys d = keys e.
Proof. induction 1 as [|p q d e [E _] H IH]; [reflexivity|]. change (fst p :: keys d = fst q :: keys e). congruence. Qed.
Lemma rel_mapM {A B} (f : A -> res B) d e : Forall2 (same_key (fun x y => f x = Ok y)) d e ->
  mapM (fun p => rlet v := f (snd p) in Ok (fst p, v)) d = Ok e.
Proof.
  intros H. apply mapM_Forall2. eapply Forall2_impl; [|exact H]. intros p q [E1 E2]. rewrite E2. cbn. rewrite E1. now destruct q.
Qed.
Lemma rel_get {A B} (P : A -> B -> Prop) d e k y : Forall2 (same_key P) d e -> dict_get e k = Some y ->
  exists x, dict_get d k = Some x /\ P x y.
Proof.
  induction 1 as [|[k1 x] [k2 y'] d e [E1 E2] H IH]; cbn [dict_get fst snd] in *; [discriminate|]. subst.
  destruct (str_eqb k2 k); [|exact IH]. intros [= <-]. eauto.
Qed.
Lemma rel_get_l {A B} (P : A -> B -> Prop) d e k x : Forall2 (same_key P) d e -> dict_get d k = Some x ->
  exists y, dict_get e k = Some y /\ P x y.
Proof.
  induction 1 as [|[k1 x'] [k2 y'] d e [E1 E2] H IH]; cbn [dict_get fst snd] in *; [discriminate|]. subst.
  destruct (str_eqb k2 k); [|exact IH]. intros [= <-]. eauto.
Qed.

(** ** Writing fields and reading them back *)

Lemma update_fresh {A} (e d : dict A) : NoDup (keys e) -> (forall k, In k (keys d) -> In k (keys e) -> False) ->
  dict_update d e = d ++ e.
Proof.
  unfold dict_update. revert d. induction e as [|[k v] e IH]; intros d HN HD; cbn [fold_left fst snd]; [now rewrite app_nil_r|].
  inversion HN as [|? ? H1 H2]; subst. rewrite dict_set_fresh by (intros C; apply (HD k C); now left).
  rewrite IH; [now rewrite <- app_assoc|exact H2|]. intros k' H3 H4. unfold keys in H3. rewrite map_app in H3.
  apply in_app_or in H3 as [H3|[<-|[]]]; [apply (HD k' H3); now right|contradiction].
Qed.

(** Values kept, by the table of attributes. *)
Definition value_kept (attrs : list pystr) (p : pystr * bval) : Prop :=
  if str_mem (fst p) attrs then attr_kept (snd p) else dset_kept (snd p).

Definition d_rel (d : hdset) (v : bval) : Prop := read_dset d = Ok v.
Definition a_rel (a : hattr) (v : bval) : Prop := write_attr v = Ok a /\ read_attr a = Ok v.

Lemma write_fields_ok av attrs c r gd ga : c = None \/ (exists n, c = Some n /\ av n = true) ->
  (forall p, In p r -> value_kept attrs p) -> NoDup (keys r) ->
  (forall k, In k (keys r) -> ~ In k (keys gd) /\ ~ In k (keys ga)) ->
  exists ds als, write_fields av attrs c r gd ga = ((gd ++ ds, ga ++ als), Ok tt) /\
    Forall2 (same_key d_rel) ds (filter (fun p => negb (str_mem (fst p) attrs)) r) /\
    Forall2 (same_key a_rel) als (filter (fun p => str_mem (fst p) attrs) r).
Proof.
  intros HC. revert gd ga. induction r as [|[k v] r IH]; intros gd ga HK HN HF.
  - exists [], []. cbn. rewrite !app_nil_r. repeat split; constructor.
  - inversion HN as [|? ? N1 N2]; subst. pose proof (HK (k, v) (or_introl eq_refl)) as KV. unfold value_kept in KV. cbn [fst snd] in KV.
    destruct (HF k (or_introl eq_refl)) as [F1 F2]. cbn [write_fields filter fst].
    destruct (str_mem k attrs) eqn:E; cbn [negb].
    + destruct (attr_through v KV) as (a & W & R). rewrite W. rewrite dict_set_fresh by exact F2.
      destruct (IH gd (ga ++ [(k, a)])) as (ds & als & I1 & I2 & I3).
      * intros p Hp. apply HK. now right.
      * exact N2.
      * intros k' Hk'. destruct (HF k' (or_intror Hk')) as [G1 G2]. split; [exact G1|]. unfold keys. rewrite map_app. intros C.
        apply in_app_or in C as [C|[C|[]]]; [auto|]. cbn in C. subst. contradiction.
      * exists ds, ((k, a) :: als). rewrite I1, <- app_assoc. cbn [app]. repeat split; auto. constructor; [|exact I3]. split; [reflexivity|now split].
    + destruct (dset_through av c v HC KV) as (d & W & R). rewrite W. rewrite dict_set_fresh by exact F1.
      destruct (IH (gd ++ [(k, d)]) ga) as (ds & als & I1 & I2 & I3).
      * intros p Hp. apply HK. now right.
      * exact N2.
      * intros k' Hk'. destruct (HF k' (or_intror Hk')) as [G1 G2]. split; [|exact G2]. unfold keys. rewrite map_app. intros C.
        apply in_app_or in C as [C|[C|[]]]; [auto|]. cbn in C. subst. contradiction.
      * exists ((k, d) :: ds), als. rewrite I1, <- app_assoc. cbn [app]. repeat split; auto. constructor; [|exact I2]. split; [reflexivity|exact R].
Qed.

Lemma filter_split {A} (f : A -> bool) l : Permutation (filter (fun x => negb (f x)) l ++ filter f l) l.
Proof.
  induction l as [|x l IH]; cbn; [constructor|]. destruct (f x); cbn [negb app].
  - rewrite <- Permutation_middle. now constructor.
  - now constructor.
Qed.
Lemma filter_keys_in {A} (f : pystr * A -> bool) d k : In k (keys (filter f d)) -> In k (keys d).
Proof. unfold keys. rewrite !in_map_iff. intros (p & <- & H). apply filter_In in H as [H _]. eauto. Qed.
Lemma filter_keys_nodup {A} (f : pystr * A -> bool) d : NoDup (keys d) -> NoDup (keys (filter f d)).
Proof.
  induction d as [|p d IH]; cbn; intros H; [constructor|]. inversion H as [|? ? H1 H2]; subst.
  destruct (f p); cbn; [|auto]. constructor; [|auto]. intros C. apply H1. now apply filter_keys_in in C.
Qed.

Lemma read_attrs_ok als r : Forall2 (same_key a_rel) als r -> (forall k, In k (keys r) -> str_mem k hidden_attrs = false) ->
  read_attrs als = Ok r.
Proof.
  intros H HH. unfold read_attrs. assert (E : filter (fun p => negb (str_mem (fst p) hidden_attrs)) als = als).
  { rewrite <- (rel_keys _ _ _ H) in HH. clear H. induction als as [|[k a] als IH]; cbn [filter fst]; [reflexivity|].
    rewrite (HH k) by (now left). cbn [negb]. f_equal. apply IH. intros k' Hk. apply HH. now right. }
  rewrite E. apply rel_mapM. eapply Forall2_impl; [|exact H]. intros p q [E1 [_ E2]]. now split.
Qed.

(** A group that holds the record [r]. *)
Definition group_of (attrs : list pystr) (i : hitem) (r : brecord) : Prop :=
  exists ds als, i = HGroup ds als /\
    Forall2 (same_key d_rel) ds (filter (fun p => negb (str_mem (fst p) attrs)) r) /\
    Forall2 (same_key a_rel) als (filter (fun p => str_mem (fst p) attrs) r).

Lemma split_update {A} (f : pystr * A -> bool) (r : dict A) : NoDup (keys r) ->
  (forall p q, In p r -> In q r -> fst p = fst q -> f p = f q) ->
  dict_update (dict_update [] (filter (fun x => negb (f x)) r)) (filter f r) = filter (fun x => negb (f x)) r ++ filter f r.
Proof.
  intros HN HF. assert (E : dict_update [] (filter (fun x => negb (f x)) r) = filter (fun x => negb (f x)) r).
  { rewrite update_fresh; [reflexivity|now apply filter_keys_nodup|]. intros k []. }
  rewrite E. apply update_fresh; [now apply filter_keys_nodup|]. intros k H1 H2.
  unfold keys in *. apply in_map_iff in H1 as (p & P1 & P2). apply in_map_iff in H2 as (q & Q1 & Q2).
  apply filter_In in P2 as [P2 P3]. apply filter_In in Q2 as [Q2 Q3].
  rewrite (HF p q P2 Q2) in P3 by congruence. rewrite Q3 in P3. discriminate.
Qed.

Lemma group_read attrs i r : group_of attrs i r -> NoDup (keys r) -> (forall k, In k (keys r) -> str_mem k hidden_attrs = false) ->
  exists r', read_record i = Ok r' /\ Permutation r' r.
Proof.
  intros (ds & als & -> & H1 & H2) HN HH. cbn [read_record].
  rewrite (rel_mapM read_dset ds _ H1). cbn [rbind]. rewrite (read_attrs_ok als _ H2) by (intros k Hk; apply HH; eapply filter_keys_in; exact Hk).
  cbn [rbind]. eexists. split; [reflexivity|].
  rewrite (split_update (fun p => str_mem (fst p) attrs) r HN) by (intros p q _ _ E; now rewrite E).
  apply filter_split.
Qed.

Lemma plain_name_ok n : group_name n -> plain_name n = true.
Proof.
  intros (H1 & H2 & H3 & H4). unfold plain_name. rewrite !andb_true_iff. repeat split.
  - destruct (str_eqb n []) eqn:E; [apply str_eqb_eq in E; contradiction|reflexivity].
  - destruct (str_eqb n (str ".")) eqn:E; [apply str_eqb_eq in E; contradiction|reflexivity].
  - apply forallb_forall. intros x Hx. destruct (x =? 47) eqn:E; [apply Z.eqb_eq in E; subst; contradiction|].
    destruct (x =? 0) eqn:E0; [apply Z.eqb_eq in E0; subst; contradiction|reflexivity].
Qed.

Lemma write_groups_ok av attrs c rs f : c = None \/ (exists n, c = Some n /\ av n = true) ->
  (forall n r, In (n, r) rs -> group_name n /\ NoDup (keys r) /\ forall p, In p r -> value_kept attrs p) ->
  NoDup (keys rs) -> (forall n, In n (keys rs) -> ~ In n (keys (h_items f))) ->
  exists its, write_groups av attrs c rs f = (mk_hfile (h_items f ++ its) (h_attrs f), Ok tt) /\
    Forall2 (same_key (group_of attrs)) its rs.
Proof.
  intros HC. revert f. induction rs as [|[n r] rs IH]; intros f HK HN HF.
  - exists []. cbn. rewrite app_nil_r. split; [now destruct f|constructor].
  - inversion HN as [|? ? N1 N2]; subst. destruct (HK n r (or_introl eq_refl)) as (G & D & V).
    cbn [write_groups]. rewrite (plain_name_ok n G). cbn [negb].
    assert (FR : ~ In n (keys (h_items f))) by (apply HF; now left).
    destruct (dict_get (h_items f) n) eqn:E; [apply dict_get_In in E; exfalso; apply FR; apply keys_in; eauto|].
    destruct (write_fields_ok av attrs c r [] [] HC V D) as (ds & als & W & W1 & W2); [intros; split; intros []|].
    rewrite W. cbn [app]. rewrite dict_set_fresh by exact FR.
    destruct (IH (mk_hfile (h_items f ++ [(n, HGroup ds als)]) (h_attrs f))) as (its & I1 & I2).
    + intros n' r' H. apply HK. now right.
    + exact N2.
    + intros n' H C. cbn [h_items] in C. unfold keys in C. rewrite map_app in C. apply in_app_or in C as [C|[C|[]]].
      * eapply HF; [right; exact H|exact C].
      * cbn in C. subst. contradiction.
    + rewrite I1. cbn [h_items h_attrs]. rewrite <- app_assoc. eexists. split; [reflexivity|]. cbn [app]. constructor; [|exact I2].
      split; [reflexivity|]. exists ds, als. auto.
Qed.

(** ** Facts about the tables *)

Definition file_facts (F : format) : bool :=
  match site_single_element_types F, site_array_dtypes F,
        array_single_element_types F, array_array_dtypes F, unshared_fields F with
  | Ok sa, Ok sd, Ok aa, Ok ad, Ok u =>
      forallb (fun k => negb (str_mem k hidden_attrs)) (keys sa ++ keys sd ++ keys aa ++ keys ad) &&
      forallb plain_name (keys ad) &&
      (negb (str_mem s_ppo (keys sa)) && negb (str_mem s_ppo (keys aa))) &&
      (negb (str_mem s_ppo (keys sd)) || (str_mem (str "pulses") (keys sd) &&
         match dict_get sd s_ppo with Some BF32 => true | _ => false end)) &&
      (negb (str_mem s_ppo (keys ad)) || (str_mem (str "num_sequences") u &&
         match dict_get ad s_ppo with Some BF32 => true | _ => false end)) &&
      (str_mem s_hash (keys sa) && str_mem s_hash (keys aa))
  | _, _, _, _, _ => false
  end.
Lemma all_file_facts g t : has_structures t -> file_facts (format_class g t) = true.
Proof. unfold has_structures. destruct t; [| | |congruence]; intros _; destruct g; vm_compute; reflexivity. Qed.

Record facts (F : format) : Prop := mk_facts {
  f_site_hidden : forall k, site_field F k -> str_mem k hidden_attrs = false;
  f_array_hidden : forall k, array_field F k -> str_mem k hidden_attrs = false;
  f_plain : forall k t, array_dset F k t -> plain_name k = true;
  f_ppo_attr : forall t, ~ site_attr F s_ppo t /\ ~ array_attr F s_ppo t;
  f_ppo_site : forall t, site_dset F s_ppo t -> t = BF32 /\ exists t', site_dset F (str "pulses") t';
  f_ppo_array : forall t, array_dset F s_ppo t -> t = BF32 /\ per_record F (str "num_sequences");
  f_hash_site : exists t, site_attr F s_hash t;
  f_hash_array : exists t, array_attr F s_hash t
}.

Lemma mem_keys {A} (d : dict A) k : str_mem k (keys d) = true -> exists v, In (k, v) d.
Proof. intros H. apply str_mem_In in H. now apply keys_in. Qed.
Lemma not_mem_keys {A} (d : dict A) k v : str_mem k (keys d) = false -> ~ In (k, v) d.
Proof. intros H C. assert (E : str_mem k (keys d) = true) by (apply str_mem_In, keys_in; eauto). congruence. Qed.

Lemma format_facts g t : has_structures t -> facts (format_class g t).
Proof.
  intros HT. pose proof (all_file_facts g t HT) as HF. unfold file_facts in HF.
  destruct (site_tables g t HT) as (sa & sd & E1 & E2 & Na & Nd & Dj & HA & HD & HN).
  destruct (array_tables g t HT) as (aa & ad & u & E3 & E4 & E5 & Na' & Nd' & Dj' & HA' & HD' & HU & HUS & HUN).
  rewrite E1, E2, E3, E4, E5 in HF. set (F := format_class g t) in *. clearbody F.
  apply andb_true_iff in HF as [HF F8]. apply andb_true_iff in F8 as [F8 F9].
  apply andb_true_iff in HF as [HF F7]. apply andb_true_iff in HF as [HF F6]. apply andb_true_iff in HF as [HF F4].
  apply andb_true_iff in F4 as [F4 F5]. apply andb_true_iff in HF as [F2 F3].
  apply negb_true_iff in F4, F5.
  assert (HH : forall k, In k (keys sa ++ keys sd ++ keys aa ++ keys ad) -> str_mem k hidden_attrs = false).
  { intros k Hk. rewrite forallb_forall in F2. apply F2 in Hk. now apply negb_true_iff in Hk. }
  split.
  - intros k (ty & [H|H]); apply HH; rewrite !in_app_iff, !keys_in; [left|right; left]; exists ty; [now apply HA|now apply HD].
  - intros k (ty & [H|H]); apply HH; rewrite !in_app_iff, !keys_in; right; right; [left|right]; exists ty; [now apply HA'|now apply HD'].
  - intros k ty H. rewrite forallb_forall in F3. apply F3, keys_in. exists ty. now apply HD'.
  - intros ty. split; intros C; [apply HA in C; eapply not_mem_keys in F4; eauto|apply HA' in C; eapply not_mem_keys in F5; eauto].
  - intros ty H. apply HD in H. apply orb_true_iff in F6 as [F6|F6].
    + apply negb_true_iff in F6. exfalso. eapply not_mem_keys in F6; eauto.
    + apply andb_true_iff in F6 as [P1 P2]. split.
      * apply dict_in_get in H; [|exact Nd]. rewrite H in P2. destruct ty; congruence.
      * apply mem_keys in P1 as (t' & P1). exists t'. now apply HD.
  - intros ty H. apply HD' in H. apply orb_true_iff in F7 as [F7|F7].
    + apply negb_true_iff in F7. exfalso. eapply not_mem_keys in F7; eauto.
    + apply andb_true_iff in F7 as [P1 P2]. split.
      * apply dict_in_get in H; [|exact Nd']. rewrite H in P2. destruct ty; congruence.
      * apply HU. now apply str_mem_In.
  - apply mem_keys in F8 as (ty & F8). exists ty. now apply HA.
  - apply mem_keys in F9 as (ty & F9). exists ty. now apply HA'.
Qed.

Lemma type_name_of t : filetype_of (type_name t) = Some t.
Proof. destruct t; reflexivity. Qed.
Lemma supported_gen v g : supported v g <-> version_generation v = Some g.
Proof.
  unfold version_generation, supported. split; [|apply dict_get_In].
  intros H. apply dict_get_nodup; [|exact H]. apply nodupb_ok. vm_compute. reflexivity.
Qed.

(** ** The corrections on reading *)

Lemma ok_perm F r r' : Permutation r' r -> site_record_ok F r -> site_record_ok F r'.
Proof.
  intros HP (H1 & H2 & H3). split; [|split].
  - intros k. rewrite <- H1. pose proof (keys_perm _ _ HP) as HK. split; apply Permutation_in; [exact HK|now symmetry].
  - intros k v t H. apply H2. eapply Permutation_in; eauto.
  - intros k v t H. apply H3. eapply Permutation_in; eauto.
Qed.
Lemma dset_shape v : dset_kept v -> exists s, s <> [] /\ has_shape v s /\ bshape v = Some (Some s).
Proof. intros []; cbn; eauto. Qed.

Lemma set_in {A} (d : dict A) k v k' v' : NoDup (keys d) ->
  In (k', v') (dict_set d k v) <-> (k' = k /\ v' = v) \/ (k' <> k /\ In (k', v') d).
Proof.
  intros HN. assert (HN' : NoDup (keys (dict_set d k v))) by (now apply dict_set_nodup).
  rewrite (dict_in_get _ k' v' HN'), (dict_in_get _ k' v' HN), dict_get_set.
  destruct (str_eqb k k') eqn:E.
  - apply str_eqb_eq in E. subst. split; [intros [= <-]; auto|]. intros [[_ ->]|[C _]]; congruence.
  - assert (k <> k') by (intros ->; rewrite str_eqb_refl in E; discriminate). split; [intros H1; right; split; auto|].
    intros [[-> _]|[_ H1]]; [contradiction|exact H1].
Qed.

Lemma site_fix_record F r r0 : facts F -> NoDup (keys r) -> site_record_ok F r -> storable F r -> Permutation r0 r ->
  exists r', ppo_site_fix_record r0 = Ok r' /\ record_back r r' /\ site_record_ok F r' /\ NoDup (keys r').
Proof.
  intros HF HN HO [S1 S2] HP. pose proof (ok_perm F r r0 HP HO) as HO0.
  assert (HN0 : NoDup (keys r0)) by (eapply Permutation_NoDup; [symmetry; apply keys_perm; exact HP|exact HN]).
  assert (HG : forall k, dict_get r0 k = dict_get r k) by (intros; now apply perm_get).
  unfold ppo_site_fix_record. rewrite HG. destruct (dict_get r s_ppo) as [v|] eqn:E.
  2:{ exists r0. unfold record_back. fold s_ppo. rewrite E. splits; auto. now rewrite HG. }
  assert (IV : In (s_ppo, v) r) by (now apply dict_get_In).
  assert (FP : site_field F s_ppo) by (apply HO; apply keys_in; eauto).
  destruct FP as (ty & [FP|FP]); [exfalso; exact (proj1 (f_ppo_attr F HF ty) FP)|].
  destruct (f_ppo_site F HF ty FP) as (-> & tp & HTP).
  destruct (dset_shape v (S2 _ _ _ IV FP)) as (s & Hs & HSv & Bv). rewrite Bv.
  assert (IPk : In (str "pulses") (keys r)) by (apply HO; exists tp; now right).
  apply keys_in in IPk as (p & IP). destruct (dset_shape p (S2 _ _ _ IP HTP)) as (sp & Hsp & HSp & Bp).
  unfold dict_item. rewrite HG. rewrite (proj1 (dict_in_get r _ p HN) IP). cbn [rbind]. rewrite Bp.
  cbn [shape_eqb]. destruct (list_eq_dec Nat.eq_dec s sp) as [ES|ES].
  - exists r0. split; [reflexivity|]. split; [|now split]. split; [auto|]. fold s_ppo. rewrite E. exists p, s, sp. splits; auto.
    + now apply dict_in_get.
    + intros _. now rewrite HG.
    + contradiction.
  - eexists. split; [reflexivity|]. split; [|split].
    + split.
      * intros k Hk. fold s_ppo in Hk. rewrite dict_get_set. destruct (str_eqb s_ppo k) eqn:EK; [apply str_eqb_eq in EK; congruence|apply HG].
      * fold s_ppo. rewrite E. exists p, s, sp. splits; auto; [now apply dict_in_get|contradiction|]. intros _. rewrite dict_get_set, str_eqb_refl. reflexivity.
    + destruct HO0 as (O1 & O2 & O3). split; [|split].
      * intros k. rewrite <- O1. unfold keys. rewrite dict_set_keys.
        rewrite (proj2 (str_mem_In s_ppo (map fst r0))); [tauto|]. apply O1. exists BF32. now right.
      * intros k w ty H. apply set_in in H as [[-> ->]|[_ H]]; [|now apply O2|exact HN0].
        intros C. exfalso. exact (proj1 (f_ppo_attr F HF ty) C).
      * intros k w ty H. apply set_in in H as [[-> ->]|[_ H]]; [|now apply O3|exact HN0].
        intros C. destruct (f_ppo_site F HF ty C) as [-> _]. constructor.
    + now apply dict_set_nodup.
Qed.

(** ** Site files *)

Lemma rel_step {A B C} (f : A -> res C) (P : A -> B -> Prop) (Q : C -> B -> Prop) d e :
  Forall2 (same_key P) d e -> (forall n y x, In (n, y) e -> P x y -> exists z, f x = Ok z /\ Q z y) ->
  exists c, mapM (fun p => rlet v := f (snd p) in Ok (fst p, v)) d = Ok c /\ Forall2 (same_key Q) c e.
Proof.
  induction 1 as [|[n x] [n' y] d e [E1 E2] H IH]; intros HS.
  - exists []. split; [reflexivity|constructor].
  - cbn [fst snd] in E1, E2. subst n'. destruct (HS n y x (or_introl eq_refl) E2) as (z & Z1 & Z2).
    destruct IH as (c & C1 & C2); [intros n0 y0 x0 H0; apply (HS n0 y0 x0 (or_intror H0))|].
    exists ((n, z) :: c). cbn [mapM snd fst]. rewrite Z1. cbn [rbind]. rewrite C1. cbn [rbind].
    split; [reflexivity|]. constructor; [now split|exact C2].
Qed.

Lemma ppo_site_fix_mapM rs : ppo_site_fix rs = mapM (fun p => rlet v := ppo_site_fix_record (snd p) in Ok (fst p, v)) rs.
Proof.
  induction rs as [|[n r] rs IH]; cbn [ppo_site_fix mapM fst snd]; [reflexivity|]. rewrite IH.
  destruct (ppo_site_fix_record r); reflexivity.
Qed.

Lemma filter_get {A} (f : pystr -> bool) (d : dict A) k : f k = true -> dict_get (filter (fun p => f (fst p)) d) k = dict_get d k.
Proof.
  intros H. induction d as [|[k' v] d IH]; cbn [filter dict_get fst]; [reflexivity|].
  destruct (str_eqb k' k) eqn:E.
  - apply str_eqb_eq in E. subst. rewrite H. cbn [dict_get]. now rewrite str_eqb_refl.
  - destruct (f k'); [cbn [dict_get]; now rewrite E|exact IH].
Qed.

Lemma site_value_kept g t sa r : has_structures t ->
  (forall k ty, In (k, ty) sa <-> site_attr (format_class g t) k ty) ->
  site_record_ok (format_class g t) r -> storable (format_class g t) r ->
  forall p, In p r -> value_kept (keys sa) p.
Proof.
  intros HT HA (O1 & _) [S1 S2] [k v] Hp. unfold value_kept. cbn [fst snd]. destruct (str_mem k (keys sa)) eqn:E.
  - apply mem_keys in E as (ty & E). apply (S1 k v ty Hp). now apply HA.
  - assert (FK : site_field (format_class g t) k) by (apply O1, keys_in; eauto). destruct FK as (ty & [FK|FK]).
    + apply HA in FK. exfalso. eapply not_mem_keys in E; eauto.
    + now apply (S2 k v ty).
Qed.

Lemma first_sorted {A} (d : dict A) n x : NoDup (keys d) -> In (n, x) d ->
  (forall n', In n' (keys d) -> n' = n \/ str_lt n n') -> exists rest, sort_dict d = (n, x) :: rest.
Proof.
  intros HN HI HL. pose proof (sort_sorted d HN) as HS. pose proof (sort_perm d) as HP.
  destruct (sort_dict d) as [|[m y] rest] eqn:E; [apply Permutation_nil in HP; subst; destruct HI|].
  assert (HM : In (m, y) d) by (eapply Permutation_in; [exact HP|now left]).
  destruct (HL m) as [->|L]; [apply keys_in; eauto| |].
  - assert (x = y) as ->; [|eauto]. apply (dict_in_get d n x HN) in HI. apply (dict_in_get d n y HN) in HM. congruence.
  - exfalso. assert (HI' : In (n, x) ((m, y) :: rest)) by (eapply Permutation_in; [symmetry; exact HP|exact HI]).
    destruct HI' as [[= -> ->]|HI']; [now apply str_lt_irr in L|].
    inversion HS as [|? ? _ HF]; subst. rewrite Forall_forall in HF. assert (str_lt m n) by (apply HF; apply keys_in; eauto).
    eapply str_lt_irr, str_lt_trans; eauto.
Qed.

Lemma hash_attr h a : write_attr (BText h) = Ok a -> read_attr a = Ok (BText h) -> attr_decode a = Ok h.
Proof.
  cbn [write_attr]. destruct (forallb _ h); [|discriminate]. intros [= <-]. cbn [read_attr attr_decode].
  destruct (utf8_dec _); congruence.
Qed.

Lemma group_hash attrs i r h : group_of attrs i r -> str_mem s_hash attrs = true -> dict_get r s_hash = Some (BText h) ->
  exists a, dict_get (item_attrs i) s_hash = Some a /\ attr_decode a = Ok h.
Proof.
  intros (ds & als & -> & H1 & H2) HM HG. cbn [item_attrs].
  rewrite <- (filter_get (fun k => str_mem k attrs) r s_hash HM) in HG.
  destruct (rel_get _ _ _ _ _ H2 HG) as (a & A1 & A2 & A3). exists a. split; [exact A1|]. now apply hash_attr.
Qed.

Lemma only_close fs name f : only_file name fs (h5_close fs name f).
Proof. intros n Hn. unfold h5_close. destruct (str_eqb n name) eqn:E; [apply str_eqb_eq in E; contradiction|reflexivity]. Qed.
Lemma open_close fs name f : h5_open (h5_close fs name f) name = Ok f.
Proof. unfold h5_open, h5_close. now rewrite str_eqb_refl. Qed.

Lemma proper_sort rs : proper rs -> proper (sort_dict rs).
Proof.
  intros [H1 H2]. split.
  - eapply Permutation_NoDup; [symmetry; apply keys_perm, sort_perm|exact H1].
  - intros n r H. apply (H2 n). eapply Permutation_in; [apply sort_perm|exact H].
Qed.

Lemma site_written av fs name t g rs c v :
  has_structures t -> proper rs ->
  (forall n r, In (n, r) rs -> group_name n /\ site_record_ok (format_class g t) r /\ storable (format_class g t) r) ->
  records_version rs v -> supported v g -> can_compress av c -> fs name = None ->
  exists sa its, site_write av fs name (DRecords rs) (type_name t) c = (h5_close fs name (mk_hfile its []), Ok tt) /\
    site_single_element_types (format_class g t) = Ok sa /\
    (forall k ty, In (k, ty) sa <-> site_attr (format_class g t) k ty) /\
    Forall2 (same_key (group_of (keys sa))) its rs.
Proof.
  intros HT HP HR (n & r & h & V1 & V2 & V3 & V4) HV HC HN.
  destruct (site_tables g t HT) as (sa & sd & E1 & E2 & Na & Nd & Dj & HA & HD & HNE).
  unfold site_write. rewrite type_name_of. cbn [records_hash].
  destruct (first_sorted rs n r (proj1 HP) V1 V2) as (rest & ES). rewrite ES.
  unfold dict_item. fold s_hash in V3. rewrite V3. cbn [rbind text_of]. rewrite (proj2 (version_iff h v) V4).
  unfold generation_of. rewrite (proj1 (supported_gen v g) HV). cbn [rbind].
  assert (EC : check_site_records (format_class g t) rs = Ok tt) by (apply site_check_iff; auto; intros; now apply HR in H).
  rewrite EC. cbn [rbind]. unfold write_records. rewrite E1, E2. unfold h5_append. rewrite HN.
  destruct (write_groups_ok av (keys sa) c rs (mk_hfile [] []) HC) as (its & W1 & W2).
  - intros m q H. destruct (HR m q H) as (G1 & G2 & G3). splits; auto; [now apply (proj2 HP m)|]. now apply (site_value_kept g t).
  - exact (proj1 HP).
  - intros m _ [].
  - fold (keys sa). rewrite W1. exists sa, its. splits; auto.
Qed.

Lemma site_file_round_trip av fs name t g rs c v :
  has_structures t -> proper rs ->
  (forall n r, In (n, r) rs -> group_name n /\ site_record_ok (format_class g t) r /\ storable (format_class g t) r) ->
  records_version rs v -> supported v g -> can_compress av c -> fs name = None ->
  exists fs' rd, site_write av fs name (DRecords rs) (type_name t) c = (fs', Ok tt) /\ only_file name fs fs' /\
    site_read fs' name (type_name t) = Ok rd /\
    borealis_read fs' name (type_name t) None = Ok (SiteReader rd) /\
    sr_version rd = v /\ sr_gen rd = g /\ sr_type rd = t /\ records_back rs (sr_records rd).
Proof.
  intros HT HP HR HVer HV HC HN.
  destruct (site_written av fs name t g rs c v HT HP HR HVer HV HC HN) as (sa & its & W & E1 & HA & HI).
  destruct (site_tables g t HT) as (sa' & sd & E1' & E2 & Na & Nd & Dj & HA' & HD & HNE).
  rewrite E1 in E1'. injection E1' as <-. clear HA'.
  pose proof (format_facts g t HT) as HF. set (F := format_class g t) in *.
  destruct HVer as (n & r & h & V1 & V2 & V3 & V4).
  destruct (first_sorted rs n r (proj1 HP) V1 V2) as (rest & ES).
  pose proof (sort_rel _ _ _ HI) as HSI. pose proof (proper_sort rs HP) as HPS.
  assert (HRS : forall m q, In (m, q) (sort_dict rs) -> In (m, q) rs) by (intros m q; apply Permutation_in, sort_perm).
  assert (HM : str_mem s_hash (keys sa) = true).
  { destruct (f_hash_site F HF) as (ty & HH). apply str_mem_In, keys_in. exists ty. now apply HA. }
  set (f' := mk_hfile its []) in *.
  assert (HSH : site_hash f' = Ok h).
  { unfold site_hash. cbn [h_items f']. pose proof HSI as HSI'. rewrite ES in HSI'.
    inversion HSI' as [|[m i] [m' r'] its' rest' HX HY EX EY]; subst. destruct HX as [_ HX]. cbn [snd] in HX.
    destruct (group_hash _ _ _ h HX HM V3) as (a & A1 & A2). now rewrite A1. }
  destruct (rel_step read_record (group_of (keys sa)) (fun r' q => Permutation r' q) _ _ HSI) as (rs0 & R1 & R2).
  { intros m q i Hq HG. apply (group_read (keys sa)); auto.
    - now apply (proj2 HPS m).
    - intros k Hk. apply (f_site_hidden F HF). apply HRS in Hq. destruct (HR m q Hq) as (_ & (O1 & _) & _). now apply O1. }
  destruct (rel_step ppo_site_fix_record (fun r' q => Permutation r' q)
    (fun r' q => record_back q r' /\ site_record_ok F r' /\ NoDup (keys r')) _ _ R2) as (rs' & P1 & P2).
  { intros m q q0 Hq HQ. pose proof (HRS m q Hq) as Hq'. destruct (HR m q Hq') as (_ & O & S).
    apply (site_fix_record F); auto. now apply (proj2 HP m). }
  pose proof (rel_keys _ _ _ P2) as KE.
  assert (HBR : forall m q', In (m, q') rs' -> exists q, In (m, q) rs /\ record_back q q' /\ site_record_ok F q' /\ NoDup (keys q')).
  { intros m q' H. clear - P2 H HRS. revert HRS H. induction P2 as [|[m1 q1] [m2 q2] rs' e [X1 X2] P2 IH]; intros HRS [].
    - injection H as -> ->. cbn [fst snd] in X1, X2. subst m2. exists q2. split; [apply HRS; now left|exact X2].
    - apply IH; auto. intros; apply HRS. now right. }
  assert (HP' : proper rs').
  { split; [rewrite KE; exact (proj1 HPS)|]. intros m q' H. destruct (HBR m q' H) as (? & _ & _ & _ & ?). auto. }
  assert (CK : check_site_records F rs' = Ok tt).
  { apply site_check_iff; auto. intros m q' H. destruct (HBR m q' H) as (? & _ & _ & ? & _). auto. }
  assert (SS : StronglySorted str_lt (keys rs')) by (rewrite KE; apply sort_sorted, HP).
  assert (RD : site_read (h5_close fs name f') name (type_name t) = Ok (mk_site_reader v g t rs')).
  { unfold site_read. rewrite type_name_of, open_close. cbn [rbind]. rewrite HSH. cbn [rbind].
    rewrite (proj2 (version_iff h v) V4). unfold generation_of. rewrite (proj1 (supported_gen v g) HV). cbn [rbind].
    unfold site_read_file. fold F. rewrite E1, E2. cbn [rbind]. unfold read_records. cbn [h_items f'].
    rewrite R1. cbn [rbind]. rewrite ppo_site_fix_mapM, P1. cbn [rbind]. rewrite CK. cbn [rbind]. now rewrite (sort_id _ SS). }
  exists (h5_close fs name f'), (mk_site_reader v g t rs'). splits; auto.
  - apply only_close.
  - unfold borealis_read. rewrite type_name_of. unfold return_reader.
    assert (EA : array_read (h5_close fs name f') name (type_name t) = Raise BorealisStructureError).
    { unfold array_read. rewrite type_name_of, open_close. reflexivity. }
    rewrite EA. cbn [falls_back]. rewrite RD. reflexivity.
  - cbn [sr_records]. split; [exact SS|]. split.
    + intros m. rewrite KE. split; apply Permutation_in; [|symmetry]; apply keys_perm, sort_perm.
    + intros m q q' H1 H2. destruct (HBR m q' H2) as (q2 & Q1 & Q2 & _).
      apply (dict_in_get rs m q (proj1 HP)) in H1. apply (dict_in_get rs m q2 (proj1 HP)) in Q1. congruence.
Qed.

(** ** Array files *)

Definition i_rel (i : hitem) (v : bval) : Prop := exists d, i = HDset d [] /\ read_dset d = Ok v.

Lemma app_fresh {A} (d : dict A) k0 x k : ~ In k (keys d) -> k0 <> k -> ~ In k (keys (d ++ [(k0, x)])).
Proof. intros H1 H2 C. unfold keys in C. rewrite map_app in C. apply in_app_or in C as [C|[C|[]]]; [auto|]. cbn in C. congruence. Qed.

Lemma write_members_ok av attrs c r f : can_compress av c ->
  (forall p, In p r -> value_kept attrs p) -> NoDup (keys r) ->
  (forall k, In k (keys r) -> str_mem k attrs = false -> plain_name k = true) ->
  (forall k, In k (keys r) -> ~ In k (keys (h_items f)) /\ ~ In k (keys (h_attrs f))) ->
  exists its als, write_members av attrs c r f = (mk_hfile (h_items f ++ its) (h_attrs f ++ als), Ok tt) /\
    Forall2 (same_key i_rel) its (filter (fun p => negb (str_mem (fst p) attrs)) r) /\
    Forall2 (same_key a_rel) als (filter (fun p => str_mem (fst p) attrs) r).
Proof.
  intros HC. revert f. induction r as [|[k v] r IH]; intros f HK HN HP HF.
  - exists [], []. cbn. rewrite !app_nil_r. destruct f. repeat split; constructor.
  - inversion HN as [|? ? N1 N2]; subst. pose proof (HK (k, v) (or_introl eq_refl)) as KV. unfold value_kept in KV. cbn [fst snd] in KV.
    destruct (HF k (or_introl eq_refl)) as [F1 F2]. cbn [write_members filter fst].
    assert (HK' : forall p, In p r -> value_kept attrs p) by (intros p Hp; apply HK; now right).
    assert (HP' : forall k, In k (keys r) -> str_mem k attrs = false -> plain_name k = true) by (intros k' Hk'; apply HP; now right).
    assert (NE : forall k', In k' (keys r) -> k <> k') by (intros k' Hk' <-; contradiction).
    destruct (str_mem k attrs) eqn:E; cbn [negb].
    + destruct (attr_through v KV) as (a & W & R). rewrite W. rewrite dict_set_fresh by exact F2.
      destruct (IH (mk_hfile (h_items f) (h_attrs f ++ [(k, a)])) HK' N2 HP') as (its & als & I1 & I2 & I3).
      * intros k' Hk'. destruct (HF k' (or_intror Hk')) as [G1 G2]. cbn [h_items h_attrs]. split; [exact G1|]. apply app_fresh; auto.
      * exists its, ((k, a) :: als). rewrite I1. cbn [h_items h_attrs]. rewrite <- app_assoc. cbn [app]. repeat split; auto.
        constructor; [|exact I3]. split; [reflexivity|now split].
    + destruct (dset_through av c v HC KV) as (d & W & R). rewrite W. rewrite (HP k (or_introl eq_refl) E). cbn [negb].
      rewrite (proj2 (dict_get_none (h_items f) k) F1). rewrite dict_set_fresh by exact F1.
      destruct (IH (mk_hfile (h_items f ++ [(k, HDset d [])]) (h_attrs f)) HK' N2 HP') as (its & als & I1 & I2 & I3).
      * intros k' Hk'. destruct (HF k' (or_intror Hk')) as [G1 G2]. cbn [h_items h_attrs]. split; [|exact G2]. apply app_fresh; auto.
      * exists ((k, HDset d []) :: its), als. rewrite I1. cbn [h_items h_attrs]. rewrite <- app_assoc. cbn [app]. repeat split; auto.
        constructor; [|exact I2]. split; [reflexivity|]. now exists d.
Qed.

Lemma arrays_ok_perm F a a' : Permutation a' a -> arrays_ok F a -> arrays_ok F a'.
Proof.
  intros HP (H1 & H2 & H3 & n & H4). split; [|split; [|split]].
  - intros k. rewrite <- H1. pose proof (keys_perm _ _ HP) as HK. split; apply Permutation_in; [exact HK|now symmetry].
  - intros k v t H. apply H2. eapply Permutation_in; eauto.
  - intros k v t H. apply H3. eapply Permutation_in; eauto.
  - exists n. intros k v H. apply H4. eapply Permutation_in; eauto.
Qed.

Lemma array_fix F a a0 : facts F -> NoDup (keys a) -> arrays_ok F a -> storable_arrays F a -> Permutation a0 a ->
  (forall k, per_record F k -> array_field F k) ->
  exists a', ppo_array_fix a0 = Ok a' /\ arrays_back a a' /\ arrays_ok F a' /\ NoDup (keys a').
Proof.
  intros HF HN HO [S1 S2] HP HPR. pose proof (arrays_ok_perm F a a0 HP HO) as HO0.
  assert (HN0 : NoDup (keys a0)) by (eapply Permutation_NoDup; [symmetry; apply keys_perm; exact HP|exact HN]).
  assert (HG : forall k, dict_get a0 k = dict_get a k) by (intros; now apply perm_get).
  unfold ppo_array_fix. rewrite HG. destruct (dict_get a s_ppo) as [v|] eqn:E.
  2:{ exists a0. unfold arrays_back. fold s_ppo. rewrite E. splits; auto. now rewrite HG. }
  assert (IV : In (s_ppo, v) a) by (now apply dict_get_In).
  assert (FP : array_field F s_ppo) by (apply HO; apply keys_in; eauto).
  destruct FP as (ty & [FP|FP]); [exfalso; exact (proj2 (f_ppo_attr F HF ty) FP)|].
  destruct (f_ppo_array F HF ty FP) as (-> & HPN).
  destruct (dset_shape v (S2 _ _ _ IV FP)) as (s & Hs & HSv & Bv). rewrite Bv.
  destruct (list_eq_dec Nat.eq_dec s [2%nat]) as [->|NS].
  - destruct HO as (O1 & O2 & O3 & n & O4). assert (INk : In (str "num_sequences") (keys a)) by (apply O1, HPR, HPN).
    apply keys_in in INk as (w & IW). destruct (O4 _ _ IW HPN) as (tw & ds & l & ->).
    unfold dict_item. rewrite HG. rewrite (proj1 (dict_in_get a _ _ HN) IW). cbn [rbind bshape].
    eexists. split; [reflexivity|]. split; [|split].
    + split.
      * intros k Hk. fold s_ppo in Hk. rewrite dict_get_set. destruct (str_eqb s_ppo k) eqn:EK; [apply str_eqb_eq in EK; congruence|apply HG].
      * fold s_ppo. rewrite E. exists [2%nat]. splits; auto; [contradiction|]. intros _. exists n, ds. split.
        -- exists tw, l. now apply dict_in_get.
        -- rewrite dict_get_set, str_eqb_refl. reflexivity.
    + destruct HO0 as (Q1 & Q2 & Q3 & n0 & Q4).
      assert (n0 = n) as ->.
      { destruct (Q4 (str "num_sequences") (BArr tw (n :: ds) l)) as (? & ? & ? & Q); [eapply Permutation_in; [symmetry; exact HP|exact IW]|exact HPN|]. congruence. }
      split; [|split; [|split]].
      * intros k. rewrite <- Q1. unfold keys. rewrite dict_set_keys.
        rewrite (proj2 (str_mem_In s_ppo (map fst a0))); [tauto|]. apply Q1. exists BF32. now right.
      * intros k w ty H. apply set_in in H as [[-> ->]|[_ H]]; [|now apply Q2|exact HN0].
        intros C. exfalso. exact (proj2 (f_ppo_attr F HF ty) C).
      * intros k w ty H. apply set_in in H as [[-> ->]|[_ H]]; [|now apply Q3|exact HN0].
        intros C. destruct (f_ppo_array F HF ty C) as [-> _]. constructor.
      * exists n. intros k w H. apply set_in in H as [[-> ->]|[_ H]]; [|now apply Q4|exact HN0]. intros _. eauto.
    + now apply dict_set_nodup.
  - exists a0. split; [destruct s as [|[|[|[|]]] [|]]; try reflexivity; congruence|]. split; [|now split].
    split; [auto|]. fold s_ppo. rewrite E. exists s. splits; auto; [now rewrite HG|contradiction].
Qed.

Lemma array_value_kept g t sa r : has_structures t ->
  (forall k ty, In (k, ty) sa <-> array_attr (format_class g t) k ty) ->
  arrays_ok (format_class g t) r -> storable_arrays (format_class g t) r ->
  forall p, In p r -> value_kept (keys sa) p.
Proof.
  intros HT HA (O1 & _) [S1 S2] [k v] Hp. unfold value_kept. cbn [fst snd]. destruct (str_mem k (keys sa)) eqn:E.
  - apply mem_keys in E as (ty & E). apply (S1 k v ty Hp). now apply HA.
  - assert (FK : array_field (format_class g t) k) by (apply O1, keys_in; eauto). destruct FK as (ty & [FK|FK]).
    + apply HA in FK. exfalso. eapply not_mem_keys in E; eauto.
    + now apply (S2 k v ty).
Qed.

Lemma array_field_plain g t aa k : has_structures t ->
  (forall k ty, In (k, ty) aa <-> array_attr (format_class g t) k ty) ->
  array_field (format_class g t) k -> str_mem k (keys aa) = false -> plain_name k = true.
Proof.
  intros HT HA (ty & [H|H]) E; [apply HA in H; exfalso; eapply not_mem_keys in E; eauto|].
  exact (f_plain _ (format_facts g t HT) k ty H).
Qed.

Lemma array_file_round_trip av fs name t g a c h v :
  has_structures t -> NoDup (keys a) -> arrays_ok (format_class g t) a -> storable_arrays (format_class g t) a ->
  dict_get a (str "borealis_git_hash") = Some (BText h) -> hash_version h v -> supported v g ->
  can_compress av c -> fs name = None ->
  exists fs' rd, array_write av fs name (DArrays a) (type_name t) c = (fs', Ok tt) /\ only_file name fs fs' /\
    array_read fs' name (type_name t) = Ok rd /\
    borealis_read fs' name (type_name t) None = Ok (ArrayReader rd) /\
    ar_version rd = v /\ ar_gen rd = g /\ ar_type rd = t /\ NoDup (keys (ar_arrays rd)) /\ arrays_back a (ar_arrays rd).
Proof.
  intros HT HN HO HS HH HVer HV HC HNone.
  destruct (array_tables g t HT) as (aa & ad & u & E1 & E2 & E3 & Na & Nd & Dj & HA & HD & HU & HUS & HUN).
  pose proof (format_facts g t HT) as HF. pose proof (array_value_kept g t aa a HT HA HO HS) as HVK.
  pose proof (fun k => array_field_plain g t aa k HT HA) as HPl.
  pose proof (proj2 (arrays_ok_check g t a HT HN) HO) as HCK.
  assert (CKK : forall a', NoDup (keys a') -> arrays_ok (format_class g t) a' -> check_array_dict (format_class g t) a' = Ok tt)
    by (intros; now apply arrays_ok_check).
  set (F := format_class g t) in *.
  assert (HM : str_mem s_hash (keys aa) = true).
  { destruct (f_hash_array F HF) as (ty & HH'). apply str_mem_In, keys_in. exists ty. now apply HA. }
  fold s_hash in HH.
  destruct (write_members_ok av (keys aa) c a (mk_hfile [] []) HC HVK HN) as (its & als & W & W1 & W2).
  { intros k Hk. apply HPl. now apply HO. }
  { intros k _; split; intros []. }
  cbn [h_items h_attrs app] in W. set (f' := mk_hfile its als) in *.
  assert (EW : array_write av fs name (DArrays a) (type_name t) c = (h5_close fs name f', Ok tt)).
  { unfold array_write. rewrite type_name_of. cbn [arrays_hash]. rewrite HH. cbn [text_of rbind].
    rewrite (proj2 (version_iff h v) HVer). unfold generation_of. rewrite (proj1 (supported_gen v g) HV). cbn [rbind].
    fold F. rewrite HCK. cbn [rbind]. unfold write_arrays. fold F. rewrite E1, E2, E3. unfold h5_append. rewrite HNone.
    fold (keys aa). now rewrite W. }
  assert (HSH : array_hash f' = Ok h).
  { unfold array_hash. cbn [h_attrs f']. rewrite <- (filter_get (fun k => str_mem k (keys aa)) a s_hash HM) in HH.
    destruct (rel_get _ _ _ _ _ W2 HH) as (x & A1 & A2 & A3). rewrite A1. apply hash_attr; assumption. }
  pose proof (sort_rel _ _ _ W1) as W1'. set (dpart := filter (fun p => negb (str_mem (fst p) (keys aa))) a) in *.
  set (apart := filter (fun p => str_mem (fst p) (keys aa)) a) in *.
  assert (RDS : mapM (fun p => rlet v := match snd p with HGroup _ _ => Raise TypeError | HDset d _ => read_dset d end in Ok (fst p, v))
                  (sort_dict its) = Ok (sort_dict dpart)).
  { apply (rel_mapM (fun i => match i with HGroup _ _ => Raise TypeError | HDset d _ => read_dset d end)).
    eapply Forall2_impl; [|exact W1']. intros p q [X1 (d & X2 & X3)]. split; [exact X1|]. now rewrite X2. }
  assert (RAS : read_attrs als = Ok apart).
  { apply read_attrs_ok; [exact W2|]. intros k Hk. apply filter_keys_in in Hk. apply (f_array_hidden F HF). now apply HO. }
  assert (ND : NoDup (keys (sort_dict dpart))).
  { eapply Permutation_NoDup; [symmetry; apply keys_perm, sort_perm|]. now apply filter_keys_nodup. }
  assert (RA : exists a0, read_arrays f' = Ok a0 /\ Permutation a0 a).
  { unfold read_arrays. cbn [h_items h_attrs f']. rewrite RDS. cbn [rbind]. rewrite RAS. cbn [rbind]. eexists. split; [reflexivity|].
    rewrite (update_fresh (sort_dict dpart) []); [|exact ND|intros k []]. cbn [app].
    rewrite update_fresh.
    - rewrite sort_perm. apply filter_split.
    - now apply filter_keys_nodup.
    - intros k K1 K2. apply (Permutation_in _ (keys_perm _ _ (sort_perm dpart))) in K1.
      apply keys_in in K1 as (v1 & K1), K2 as (v2 & K2). apply filter_In in K1 as [_ K1], K2 as [_ K2].
      cbn [fst] in K1, K2. rewrite K2 in K1. discriminate. }
  destruct RA as (a0 & RA & RP).
  destruct (array_fix F a a0 HF HN HO HS RP) as (a' & X1 & X2 & X3 & X4).
  { intros k Hk. apply HU in Hk. apply HUS, keys_in in Hk as (ty & Hk). exists ty. right. now apply HD. }
  assert (RD : array_read (h5_close fs name f') name (type_name t) = Ok (mk_array_reader v g t a')).
  { unfold array_read. rewrite type_name_of, open_close. cbn [rbind]. rewrite HSH. cbn [rbind].
    rewrite (proj2 (version_iff h v) HVer). unfold generation_of. rewrite (proj1 (supported_gen v g) HV). cbn [rbind].
    unfold array_read_file. fold F. rewrite E1, E2, E3. cbn [rbind]. rewrite RA. cbn [rbind]. rewrite X1. cbn [rbind].
    rewrite (CKK a' X4 X3). reflexivity. }
  exists (h5_close fs name f'), (mk_array_reader v g t a'). splits; auto.
  - apply only_close.
  - unfold borealis_read. rewrite type_name_of. unfold return_reader. now rewrite RD.
Qed.

(** ** Filters that are not there *)

Lemma unavailable_dset av n v : av n = false -> dset_kept v -> write_dset av (Some n) v = Raise ValueError.
Proof.
  intros HA [t s l Hs Ht|s l Hs _ _].
  - assert (EC : check_filter av (Some n) s = Raise ValueError) by (destruct s; [congruence|cbn; now rewrite HA]).
    destruct Ht as [Ht| ->]; [destruct t; try contradiction|]; cbn [write_dset]; now rewrite EC.
  - destruct s as [|s0 ss]; [congruence|]. cbn [write_dset]. unfold check_filter.
    destruct (removelast (s0 :: ss) ++ _) eqn:E; [destruct (removelast (s0 :: ss)); discriminate|]. now rewrite HA.
Qed.

Lemma unavailable_members av n attrs a f : av n = false -> (forall p, In p a -> value_kept attrs p) ->
  (exists k, In k (keys a) /\ str_mem k attrs = false) ->
  exists als, write_members av attrs (Some n) a f = (mk_hfile (h_items f) als, Raise ValueError).
Proof.
  intros HA. revert f. induction a as [|[k v] a IH]; intros f HK (k0 & I0 & M0); [destruct I0|].
  pose proof (HK (k, v) (or_introl eq_refl)) as KV. unfold value_kept in KV. cbn [fst snd] in KV. cbn [write_members].
  destruct (str_mem k attrs) eqn:E.
  - destruct (attr_through v KV) as (x & W & _). rewrite W.
    apply (IH (mk_hfile (h_items f) (dict_set (h_attrs f) k x))); [intros p Hp; apply HK; now right|].
    destruct I0 as [<-|I0]; [cbn in M0; congruence|]. now exists k0.
  - rewrite (unavailable_dset av n v HA KV). destruct f. now eexists.
Qed.

Lemma array_write_unavailable av fs name t g a n h v :
  has_structures t -> NoDup (keys a) -> arrays_ok (format_class g t) a -> storable_arrays (format_class g t) a ->
  dict_get a (str "borealis_git_hash") = Some (BText h) -> hash_version h v -> supported v g ->
  fs name = None -> av n = false ->
  exists fs' als, array_write av fs name (DArrays a) (type_name t) (Some n) = (fs', Raise ValueError) /\
    only_file name fs fs' /\ holds fs' name (mk_hfile [] als).
Proof.
  intros HT HN HO HS HH HVer HV HNone HAv.
  destruct (array_tables g t HT) as (aa & ad & u & E1 & E2 & E3 & Na & Nd & Dj & HA & HD & HU & HUS & HUN).
  destruct (unavailable_members av n (keys aa) a (mk_hfile [] []) HAv) as (als & W).
  - now apply (array_value_kept g t).
  - destruct u as [|k u]; [congruence|]. exists k. specialize (HUS k (or_introl eq_refl)). split.
    + apply HO. apply keys_in in HUS as (ty & Hk). exists ty. right. now apply HD.
    + destruct (str_mem k (keys aa)) eqn:E; [|reflexivity]. apply str_mem_In in E. exfalso. eauto.
  - cbn [h_items] in W. exists (h5_close fs name (mk_hfile [] als)), als. splits.
    + unfold array_write. rewrite type_name_of. cbn [arrays_hash]. fold s_hash in HH. rewrite HH. cbn [text_of rbind].
      rewrite (proj2 (version_iff h v) HVer). unfold generation_of. rewrite (proj1 (supported_gen v g) HV). cbn [rbind].
      rewrite (proj2 (arrays_ok_check g t a HT HN) HO). cbn [rbind]. unfold write_arrays. rewrite E1, E2, E3. unfold h5_append. rewrite HNone.
      fold (keys aa). now rewrite W.
    + apply only_close.
    + unfold holds, h5_close. now rewrite str_eqb_refl.
Qed.

(** ** Structures *)

Lemma falls_back_iff e : falls_back e = true <-> structure_error e.
Proof. split; [destruct e; try discriminate; constructor|intros []; reflexivity]. Qed.

Lemma structure_array f : borealis_structure (record_names f) = str "array" <->
  In (str "borealis_git_hash") (keys (h_items f)) \/ In (str "borealis_git_hash") (keys (h_attrs f)).
Proof.
  unfold borealis_structure. fold s_hash. assert (E : str_mem s_hash (record_names f) = true <->
    In s_hash (keys (h_items f)) \/ In s_hash (keys (h_attrs f))).
  { rewrite str_mem_In. unfold record_names, members. rewrite in_app_iff, filter_In. fold (keys (sort_dict (h_items f))) (keys (h_attrs f)).
    assert (M : In s_hash (keys (sort_dict (h_items f))) <-> In s_hash (keys (h_items f))).
    { split; apply Permutation_in, keys_perm; [|symmetry]; apply sort_perm. }
    rewrite M. change (str_mem s_hash hidden_attrs) with false. cbn [negb]. tauto. }
  rewrite <- E. destruct (str_mem _ _); split; auto; intros C; vm_compute in C; discriminate C.
Qed.
Lemma structure_two f : borealis_structure (record_names f) = str "array" \/ borealis_structure (record_names f) = str "site".
Proof. unfold borealis_structure. destruct (str_mem _ _); auto. Qed.

Lemma root_hash_eq f h : root_hash f h <-> array_hash f = Ok h.
Proof.
  unfold root_hash, array_hash. fold s_hash. split.
  - intros (b & -> & E). cbn. now rewrite E.
  - destruct (dict_get _ _) as [[b| | |]|]; cbn; try discriminate. destruct (utf8_dec b) eqn:E; [|discriminate].
    intros [= <-]. eauto.
Qed.
Lemma first_hash_eq f h : NoDup (keys (h_items f)) -> first_hash f h <-> site_hash f = Ok h.
Proof.
  intros HN. unfold first_hash, site_hash. fold s_hash. split.
  - intros (n & i & b & H1 & H2 & H3 & H4). destruct (first_sorted _ n i HN H1 H2) as (rest & ->). rewrite H3. cbn. now rewrite H4.
  - pose proof (sort_sorted _ HN) as HS. pose proof (sort_perm (h_items f)) as HP.
    destruct (sort_dict (h_items f)) as [|[n i] rest]; [discriminate|].
    destruct (dict_get (item_attrs i) s_hash) as [[b| | |]|] eqn:E; cbn; try discriminate. destruct (utf8_dec b) eqn:EB; [|discriminate].
    intros [= <-]. exists n, i, b. splits; auto.
    + eapply Permutation_in; [exact HP|now left].
    + intros n' Hn'. apply (Permutation_in _ (Permutation_sym (keys_perm _ _ HP))) in Hn' as [<-|Hn']; [now left|].
      inversion HS as [|? ? _ HF]; subst. rewrite Forall_forall in HF. right. now apply HF.
Qed.

Lemma not_supported v : (forall g, ~ supported v g) <-> version_generation v = None.
Proof.
  split.
  - intros H. destruct (version_generation v) as [g|] eqn:E; [|reflexivity]. apply supported_gen in E. now apply H in E.
  - intros E g H. apply supported_gen in H. congruence.
Qed.

Lemma array_version fs name f t h v : holds fs name f -> root_hash f h -> hash_version h v ->
  ((forall g, ~ supported v g) -> array_read fs name (type_name t) = Raise BorealisVersionError) /\
  (forall rd, array_read fs name (type_name t) = Ok rd -> ar_version rd = v /\ supported v (ar_gen rd)).
Proof.
  intros HF HH HV. assert (EA : array_read fs name (type_name t) = rlet g := generation_of v in
      rlet a := array_read_file (format_class g t) f in Ok (mk_array_reader v g t a)).
  { unfold array_read. rewrite type_name_of. unfold h5_open. rewrite HF. cbn [rbind].
    apply root_hash_eq in HH. rewrite HH. cbn [rbind]. now rewrite (proj2 (version_iff h v) HV). }
  rewrite EA. clear EA. unfold generation_of. split.
  - intros HN. apply not_supported in HN. rewrite HN. reflexivity.
  - intros rd H. destruct (version_generation v) as [g|] eqn:E; [|discriminate H]. cbn [rbind] in H.
    apply rbind_ok in H as (x & _ & H). injection H as <-. cbn [ar_version ar_gen]. split; [reflexivity|]. now apply supported_gen.
Qed.
Lemma site_version fs name f t h v : holds fs name f -> NoDup (keys (h_items f)) -> first_hash f h -> hash_version h v ->
  ((forall g, ~ supported v g) -> site_read fs name (type_name t) = Raise BorealisVersionError) /\
  (forall rd, site_read fs name (type_name t) = Ok rd -> sr_version rd = v /\ supported v (sr_gen rd)).
Proof.
  intros HF HND HH HV. assert (EA : site_read fs name (type_name t) = rlet g := generation_of v in
      rlet a := site_read_file (format_class g t) f in Ok (mk_site_reader v g t a)).
  { unfold site_read. rewrite type_name_of. unfold h5_open. rewrite HF. cbn [rbind].
    apply first_hash_eq in HH; [|exact HND]. rewrite HH. cbn [rbind]. now rewrite (proj2 (version_iff h v) HV). }
  rewrite EA. clear EA. unfold generation_of. split.
  - intros HN. apply not_supported in HN. rewrite HN. reflexivity.
  - intros rd H. destruct (version_generation v) as [g|] eqn:E; [|discriminate H]. cbn [rbind] in H.
    apply rbind_ok in H as (x & _ & H). injection H as <-. cbn [sr_version sr_gen]. split; [reflexivity|]. now apply supported_gen.
Qed.

Lemma file_version_ok f h v : NoDup (keys (h_items f)) -> hash_version h v ->
  (root_hash f h -> file_version f (borealis_structure (record_names f)) = Ok v) /\
  (first_hash f h -> borealis_structure (record_names f) = str "site" -> file_version f (borealis_structure (record_names f)) = Ok v).
Proof.
  intros HN HV. split.
  - intros HH. assert (EA : borealis_structure (record_names f) = str "array").
    { apply structure_array. right. destruct HH as (b & HH & _). apply dict_get_In in HH. apply keys_in. eauto. }
    rewrite EA. unfold file_version, members. change (str_eqb (str "array") (str "array")) with true. apply root_hash_eq in HH. rewrite HH.
    cbn [rbind]. now rewrite (proj2 (version_iff h v) HV).
  - intros HH ->. unfold file_version, members. change (str_eqb (str "site") (str "array")) with false. change (str_eqb (str "site") (str "site")) with true.
    apply first_hash_eq in HH; [|exact HN]. rewrite HH. cbn [rbind]. rewrite (proj2 (version_iff h v) HV).
    destruct (sort_dict (h_items f)) eqn:E; [|reflexivity]. unfold site_hash in HH. rewrite E in HH. discriminate.
Qed.

(** ** Readers *)

Lemma mapM_in {A B} (f : A -> res B) l l' x : mapM f l = Ok l' -> In x l -> exists y, f x = Ok y.
Proof. intros H. apply mapM_inv in H. induction H as [|a b l l' E H IH]; intros []; [subst; eauto|auto]. Qed.

Lemma exclusive fs name ft rs ra : site_read fs name ft = Ok rs -> array_read fs name ft = Ok ra -> False.
Proof.
  unfold site_read, array_read. destruct (filetype_of ft) as [t|]; [|discriminate].
  destruct (h5_open fs name) as [f|]; [|discriminate]. cbn [rbind]. intros HS HA.
  apply rbind_ok in HS as (h & S1 & HS). apply rbind_ok in HS as (g & S2 & HS). apply rbind_ok in HS as (x & S3 & _).
  apply rbind_ok in HA as (h' & A1 & HA). apply rbind_ok in HA as (g' & A2 & HA). apply rbind_ok in HA as (x' & A3 & _).
  unfold site_hash in S1. unfold site_read_file in S3. apply rbind_ok in S3 as (? & _ & S3). apply rbind_ok in S3 as (? & _ & S3).
  apply rbind_ok in S3 as (y & S4 & _). unfold array_read_file in A3.
  apply rbind_ok in A3 as (? & _ & A3). apply rbind_ok in A3 as (? & _ & A3). apply rbind_ok in A3 as (? & _ & A3).
  apply rbind_ok in A3 as (y' & A4 & _). unfold read_records in S4. unfold read_arrays in A4. apply rbind_ok in A4 as (z & A4 & _).
  destruct (sort_dict (h_items f)) as [|[n i] rest]; [discriminate|].
  destruct (mapM_in _ _ _ _ S4 (or_introl eq_refl)) as (q & Q). destruct (mapM_in _ _ _ _ A4 (or_introl eq_refl)) as (q' & Q').
  cbn [snd] in Q, Q'. destruct i; discriminate.
Qed.

Lemma read_none fs name ft : filetype_of ft <> None -> borealis_read fs name ft None = return_reader fs name ft.
Proof. unfold borealis_read. destruct (filetype_of ft); congruence. Qed.

Lemma no_root_hash fs name f t : holds fs name f -> ~ In (str "borealis_git_hash") (keys (h_attrs f)) ->
  array_read fs name (type_name t) = Raise BorealisStructureError /\
  borealis_read fs name (type_name t) None = borealis_read fs name (type_name t) (Some (str "site")).
Proof.
  intros HF HN. assert (EA : array_read fs name (type_name t) = Raise BorealisStructureError).
  { unfold array_read. rewrite type_name_of. unfold h5_open. rewrite HF. cbn [rbind]. unfold array_hash. fold s_hash in HN.
    now rewrite (proj2 (dict_get_none (h_attrs f) s_hash) HN). }
  split; [exact EA|]. unfold borealis_read. rewrite type_name_of. unfold return_reader. rewrite EA. reflexivity.
Qed.

Lemma read_outcome fs name t r : borealis_read fs name (type_name t) None = r ->
  match r with
  | Ok (ArrayReader a) => array_read fs name (type_name t) = Ok a
  | Ok (SiteReader s) => site_read fs name (type_name t) = Ok s /\
      exists e, array_read fs name (type_name t) = Raise e /\ structure_error e
  | Raise e => (array_read fs name (type_name t) = Raise e /\ ~ structure_error e) \/
      (site_read fs name (type_name t) = Raise e /\ exists e', array_read fs name (type_name t) = Raise e' /\ structure_error e')
  end.
Proof.
  intros <-. rewrite read_none by (rewrite type_name_of; discriminate). unfold return_reader.
  destruct (array_read fs name (type_name t)) as [a|e]; [reflexivity|].
  destruct (falls_back e) eqn:E.
  - apply falls_back_iff in E. destruct (site_read fs name (type_name t)) as [s|e']; cbn [rbind]; [split; eauto|]. right. eauto.
  - left. split; [reflexivity|]. intros C. apply falls_back_iff in C. congruence.
Qed.

(** A group at the root of a file with a hash is a TypeError, not a reason to try the
    site structure. *)
Lemma hash_and_group fs name f t h v g n ds als : holds fs name f -> has_structures t -> root_hash f h -> hash_version h v -> supported v g ->
  NoDup (keys (h_items f)) ->
  In (n, HGroup ds als) (h_items f) -> (forall n' i, In (n', i) (h_items f) -> exists ds als, i = HGroup ds als) ->
  borealis_read fs name (type_name t) None = Raise TypeError.
Proof.
  intros HF HT HH HV HG HN HI HAll. rewrite read_none by (rewrite type_name_of; discriminate). unfold return_reader.
  destruct (array_tables g t HT) as (aa & ad & u & E1 & E2 & E3 & _).
  assert (EA : array_read fs name (type_name t) = Raise TypeError).
  { unfold array_read. rewrite type_name_of. unfold h5_open. rewrite HF. cbn [rbind].
    apply root_hash_eq in HH. rewrite HH. cbn [rbind]. rewrite (proj2 (version_iff h v) HV). unfold generation_of.
    rewrite (proj1 (supported_gen v g) HG). cbn [rbind]. unfold array_read_file. rewrite E1, E2, E3. cbn [rbind].
    unfold read_arrays. pose proof (sort_perm (h_items f)) as HP. destruct (sort_dict (h_items f)) as [|[m i] rest].
    - apply Permutation_nil in HP. rewrite HP in HI. destruct HI.
    - destruct (HAll m i) as (ds' & als' & ->); [eapply Permutation_in; [exact HP|now left]|]. reflexivity. }
  now rewrite EA.
Qed.

(** ** Writers *)

Lemma write_records_site av fs name rs t c : ~ In (str "borealis_git_hash") (keys rs) ->
  borealis_write av fs name (DRecords rs) (type_name t) None c = borealis_write av fs name (DRecords rs) (type_name t) (Some (str "site")) c.
Proof.
  intros HN. unfold borealis_write, return_writer. unfold array_write. rewrite type_name_of. cbn [arrays_hash]. fold s_hash in HN.
  rewrite (proj2 (dict_get_none rs s_hash) HN). reflexivity.
Qed.

Lemma write_arrays_masks av fs name a t c fs' e : array_write av fs name (DArrays a) (type_name t) (array_compression c) = (fs', Raise e) ->
  structure_error e -> exists e', borealis_write av fs name (DArrays a) (type_name t) None c = (fs', Raise e') /\
    (e' = BorealisStructureError \/ e' = TypeError \/ e' = OutOfModel).
Proof.
  intros E HS. unfold borealis_write, return_writer. rewrite E. rewrite (proj2 (falls_back_iff e) HS).
  unfold site_write. rewrite type_name_of. cbn [records_hash].
  destruct (sort_dict a) as [|[k v] rest]; cbn [rbind]; [eauto|].
  destruct v as [[] c'|s|ty ss l|ty|]; cbn [rbind]; eauto.
Qed.
