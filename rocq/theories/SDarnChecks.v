(** Lemmas about the field checks of superdarn.py. *)
From Coq Require Import ZArith List Bool Lia Permutation.
From Verif Require Import Base BytesProofs DmapTypes DmapRead DmapFileProofs SDarnFormats SDarn SDarnSpec.
Import ListNotations.
Open Scope Z_scope.

Lemma fmt_eqb_eq a b : fmt_eqb a b = true <-> a = b.
Proof. destruct a, b; cbn; split; intros; congruence. Qed.

Lemma key_diff_In k a b : In k (dict_key_diff a b) <-> In k a /\ ~ In k b.
Proof.
  unfold dict_key_diff. rewrite filter_In, negb_true_iff, <- (str_mem_In k b).
  destruct (str_mem k b); intuition congruence.
Qed.

Lemma key_diff_none a b : zlen (dict_key_diff a b) = 0 <-> forall k, In k a -> In k b.
Proof.
  split.
  - intros H k Hk. destruct (str_mem k b) eqn:E; [now apply str_mem_In|].
    assert (HI : In k (dict_key_diff a b)).
    { apply key_diff_In. split; auto. rewrite <- str_mem_In. congruence. }
    destruct (dict_key_diff a b); [destruct HI|]. rewrite zlen_cons in H. pose proof (zlen_nonneg l). lia.
  - intros H. destruct (dict_key_diff a b) as [|k l] eqn:E; [reflexivity|].
    assert (HI : In k (dict_key_diff a b)) by (rewrite E; left; auto).
    apply key_diff_In in HI as [H1 H2]. exfalso. auto.
Qed.

Lemma filter_len {A} (f : A -> bool) l : (length (filter f l) <= length l)%nat.
Proof. induction l as [|x l IH]; cbn; auto. destruct (f x); cbn; lia. Qed.

Lemma filter_full {A} (f : A -> bool) l : length (filter f l) = length l <-> forall x, In x l -> f x = true.
Proof.
  split.
  - induction l as [|x l IH]; cbn [filter In]; [tauto|]. pose proof (filter_len f l).
    destruct (f x) eqn:E; cbn [length]; [|lia]. intros HL y [->|Hy]; auto.
  - induction l as [|x l IH]; cbn [filter In]; auto. intros H.
    rewrite (H x) by auto. cbn. rewrite IH; auto.
Qed.

Lemma key_diff_all a b : zlen (dict_key_diff a b) = zlen a <-> forall k, In k a -> ~ In k b.
Proof.
  unfold zlen, dict_key_diff. rewrite Nat2Z.inj_iff, filter_full.
  split; intros H k Hk; specialize (H k Hk).
  - rewrite negb_true_iff in H. rewrite <- str_mem_In. congruence.
  - rewrite negb_true_iff. rewrite <- str_mem_In in H. destruct (str_mem k b); congruence.
Qed.

(** The missing fields. *)
Lemma missing_fields_In k keys opts gs :
  In k (missing_fields gs keys opts) <->
  exists g k', In g gs /\ existsb (group_eqb g) opts = false /\
    In k (map fst g) /\ ~ In k keys /\ In k' (map fst g) /\ In k' keys.
Proof.
  induction gs as [|g gs IH]; cbn [missing_fields In].
  - split; [tauto|]. intros (g & k' & [] & _).
  - destruct (existsb (group_eqb g) opts) eqn:EO.
    + rewrite IH. split; intros (g0 & k' & H1 & H2 & H3); exists g0, k'; [tauto|].
      destruct H1 as [->|H1]; [congruence|tauto].
    + set (D := dict_key_diff (map fst g) keys). assert (HM : zlen g = zlen (map fst g)) by (unfold zlen; now rewrite map_length).
      destruct ((zlen D =? 0) || (zlen D =? zlen g)) eqn:ED.
      * rewrite IH. apply orb_true_iff in ED. split; intros (g0 & k' & H1 & H2 & H3 & H4 & H5 & H6); exists g0, k'; [tauto|].
        destruct H1 as [<-|H1]; [|tauto]. exfalso. destruct ED as [ED|ED]; apply Z.eqb_eq in ED.
        -- apply key_diff_none with (k := k) in ED; auto.
        -- unfold D in ED. rewrite HM in ED. apply key_diff_all with (k := k') in ED; auto.
      * apply orb_false_iff in ED as [E1 E2]. apply Z.eqb_neq in E1, E2.
        rewrite in_app_iff, IH. unfold D at 1. rewrite key_diff_In. split.
        -- intros [[H1 H2]|(g0 & k' & H1 & H2)]; [|exists g0, k'; tauto].
           destruct (existsb (fun k' => str_mem k' keys) (map fst g)) eqn:EX.
           ++ apply existsb_exists in EX as (k' & H3 & H4). apply str_mem_In in H4.
              exists g, k'. tauto.
           ++ exfalso. apply E2. unfold D. rewrite HM. apply key_diff_all. intros k' H3 H4.
              assert (existsb (fun k' => str_mem k' keys) (map fst g) = true); [|congruence].
              apply existsb_exists. exists k'. rewrite str_mem_In. auto.
        -- intros (g0 & k' & [<-|H1] & H2 & H3 & H4 & H5); [left; auto|right]. exists g0, k'. tauto.
Qed.

Lemma zlen_pos_ex {A} (l : list A) : (0 <? zlen l) = true <-> exists x, In x l.
Proof.
  rewrite Z.ltb_lt. destruct l as [|x l]; cbn [In].
  - unfold zlen. cbn. split; [lia|intros [x []]].
  - rewrite zlen_cons. pose proof (zlen_nonneg l). split; [exists x; auto|lia].
Qed.

(** The complete dictionary when no name occurs twice. *)
Lemma complete_concat gs : NoDup (map fst (concat gs)) -> complete_dict gs = concat gs.
Proof.
  intros H. unfold complete_dict.
  assert (HX : forall gs (d : group),
    fold_left (fun d g => fold_left (fun d p => dict_set d (fst p) (snd p)) g d) gs d =
    dict_build (concat gs) d).
  { clear. induction gs as [|g gs IH]; intros d; cbn [fold_left concat]; auto.
    rewrite IH. unfold dict_build. now rewrite fold_left_app. }
  rewrite HX. now apply dict_build_nodup.
Qed.

Lemma dict_get_In {A} (d : dict A) k v : dict_get d k = Some v -> In (k, v) d.
Proof.
  induction d as [|[k0 v0] d IH]; cbn [dict_get In]; [discriminate|].
  destruct (str_eqb k0 k) eqn:E; [|auto]. apply str_eqb_eq in E. intros [= ->]. subst. auto.
Qed.
Lemma dict_get_none {A} (d : dict A) k : dict_get d k = None <-> ~ In k (map fst d).
Proof.
  induction d as [|[k0 v0] d IH]; cbn [dict_get map fst In]; [tauto|].
  destruct (str_eqb k0 k) eqn:E.
  - apply str_eqb_eq in E. subst. split; [discriminate|tauto].
  - rewrite IH. assert (k0 <> k) by (intros ->; rewrite str_eqb_refl in E; discriminate). tauto.
Qed.
Lemma dict_get_nodup {A} (d : dict A) k v : NoDup (map fst d) -> (dict_get d k = Some v <-> In (k, v) d).
Proof.
  intros HN. split; [apply dict_get_In|].
  induction d as [|[k0 v0] d IH]; cbn [dict_get map fst In] in *; [tauto|].
  inversion HN as [|? ? H1 H2]; subst. intros [[= -> ->]|H].
  - now rewrite str_eqb_refl.
  - destruct (str_eqb k0 k) eqn:E; [|auto]. apply str_eqb_eq in E. subst. exfalso. apply H1.
    apply in_map_iff. exists (k, v). auto.
Qed.

(** ** The checks against a set of groups without repeated names *)

Section Groups.
Variables gs opts : list group.
Hypothesis Hne : gs <> [].
Hypothesis Hnd : NoDup (map fst (concat gs)).

Definition g_missing (r : record) (k : pystr) : Prop :=
  exists g k', In g gs /\ existsb (group_eqb g) opts = false /\
    In k (names g) /\ ~ In k (names r) /\ In k' (names g) /\ In k' (names r).
Definition g_unknown (r : record) (k : pystr) : Prop :=
  In k (names r) /\ ~ In k (names (concat gs)).
Definition g_mistyped (r : record) (k : pystr) : Prop :=
  exists it f, In (k, it) r /\ In (k, f) (concat gs) /\ ~ has_format f it.

Lemma missing_check_ok r n :
  missing_field_check gs r n opts = Ok tt <-> forall k, ~ g_missing r k.
Proof.
  unfold missing_field_check. destruct (0 <? zlen _) eqn:E.
  - apply zlen_pos_ex in E as (k & Hk). apply missing_fields_In in Hk.
    split; [discriminate|]. intros H. exfalso. exact (H k Hk).
  - split; auto. intros _ k Hk. apply (missing_fields_In k (map fst r) opts gs) in Hk.
    assert (0 <? zlen (missing_fields gs (map fst r) opts) = true); [|congruence].
    apply zlen_pos_ex. eauto.
Qed.

Lemma missing_check_raise r n k : g_missing r k ->
  exists l, missing_field_check gs r n opts = Raise (SuperDARNFieldMissingError n l) /\
    forall k, In k l <-> g_missing r k.
Proof.
  intros Hk. unfold missing_field_check. exists (missing_fields gs (map fst r) opts). split.
  - replace (0 <? _) with true; auto. symmetry. apply zlen_pos_ex. exists k. now apply missing_fields_In.
  - intros k0. apply missing_fields_In.
Qed.

Lemma list2set_keys : dict_list2set gs = Ok (flat_map (map fst) gs).
Proof. unfold dict_list2set. destruct gs; [congruence|reflexivity]. Qed.
Lemma flat_keys : flat_map (map fst) gs = map fst (concat gs).
Proof. rewrite concat_map, flat_map_concat_map. reflexivity. Qed.

Lemma extra_check_ok r n :
  extra_field_check gs r n = Ok tt <-> forall k, ~ g_unknown r k.
Proof.
  unfold extra_field_check. rewrite list2set_keys, flat_keys. cbn [rbind].
  destruct (0 <? zlen _) eqn:E.
  - apply zlen_pos_ex in E as (k & Hk). apply key_diff_In in Hk.
    split; [discriminate|]. intros H. exfalso. exact (H k Hk).
  - split; auto. intros _ k Hk. apply (key_diff_In k) in Hk.
    assert (0 <? zlen (dict_key_diff (map fst r) (map fst (concat gs))) = true); [|congruence].
    apply zlen_pos_ex. eauto.
Qed.

Lemma extra_check_raise r n k : g_unknown r k ->
  exists l, extra_field_check gs r n = Raise (SuperDARNExtraFieldError n l) /\
    forall k, In k l <-> g_unknown r k.
Proof.
  intros Hk. unfold extra_field_check. rewrite list2set_keys, flat_keys. cbn [rbind].
  exists (dict_key_diff (map fst r) (map fst (concat gs))). split.
  - replace (0 <? _) with true; auto. symmetry. apply zlen_pos_ex. exists k. now apply key_diff_In.
  - intros k0. apply key_diff_In.
Qed.

Lemma item_fmt_has it f : item_fmt it = Some f <-> has_format f it.
Proof.
  destruct it; cbn; split; intros H.
  - injection H as <-. now constructor.
  - inversion H; subst. reflexivity.
  - injection H as <-. now constructor.
  - inversion H; subst. reflexivity.
  - discriminate.
  - inversion H.
Qed.

(** With all names known and only DMAP items the comparison lists exactly the
    mistyped fields. *)
Lemma wrong_types_ok r :
  (forall k, ~ g_unknown r k) -> Forall (fun p => dmap_item (snd p)) r ->
  exists l, wrong_types (concat gs) r = Ok l /\ forall k, In k l <-> g_mistyped r k.
Proof.
  induction r as [|[k it] r IH]; intros HU HD; cbn [wrong_types].
  - exists []. split; auto. intros k. split; [intros []|]. intros (it & f & [] & _).
  - inversion HD as [|? ? [f Hf] HD']; subst. cbn [snd] in Hf.
    destruct IH as (l & HL & HI); auto.
    { intros k0 [H1 H2]. apply (HU k0). split; auto. right. exact H1. }
    pose proof Hf as Hf'. apply item_fmt_has in Hf'. rewrite Hf'.
    assert (HK : In k (names (concat gs))).
    { destruct (in_dec (list_eq_dec Z.eq_dec) k (names (concat gs))) as [H|H]; auto.
      exfalso. apply (HU k). split; auto. left. reflexivity. }
    destruct (dict_get (concat gs) k) as [d|] eqn:ED.
    + rewrite HL. cbn [rbind]. apply dict_get_In in ED.
      assert (HDd : forall f', In (k, f') (concat gs) -> f' = d).
      { intros f' H. apply (dict_get_nodup _ _ _ Hnd) in H, ED. congruence. }
      eexists. split; [reflexivity|]. intros k0. destruct (fmt_eqb f d) eqn:EF.
      * apply fmt_eqb_eq in EF. subst d. rewrite HI. split.
        -- intros (i & f' & H1 & H2 & H3). exists i, f'. split; [right; auto|auto].
        -- intros (i & f' & [[= <- <-]|H1] & H2 & H3); [|exists i, f'; auto].
           exfalso. apply HDd in H2. subst. auto.
      * cbn [In]. rewrite HI. split.
        -- intros [<-|(i & f' & H1 & H2 & H3)]; [|exists i, f'; split; [right; auto|auto]].
           exists it, d. split; [left; auto|]. split; auto. intros Hd. apply item_fmt_has in Hd.
           rewrite Hd in Hf'. injection Hf' as ->.
           assert (fmt_eqb f f = true) by now apply fmt_eqb_eq. congruence.
        -- intros (i & f' & [[= <- <-]|H1] & H2 & H3); [auto|right; exists i, f'; auto].
    + apply dict_get_none in ED. exfalso. auto.
Qed.

Lemma types_check_ok r n :
  (forall k, ~ g_unknown r k) -> Forall (fun p => dmap_item (snd p)) r ->
  (incorrect_types_check gs r n = Ok tt <-> forall k, ~ g_mistyped r k).
Proof.
  intros HU HD. unfold incorrect_types_check. rewrite (complete_concat gs Hnd).
  destruct (wrong_types_ok r HU HD) as (l & -> & HI). cbn [rbind].
  destruct (0 <? zlen l) eqn:E.
  - apply zlen_pos_ex in E as (k & Hk). split; [discriminate|]. intros H. exfalso. apply (H k). now apply HI.
  - split; auto. intros _ k Hk. apply HI in Hk.
    assert (0 <? zlen l = true); [|congruence]. apply zlen_pos_ex. eauto.
Qed.

Lemma types_check_raise r n k :
  (forall k, ~ g_unknown r k) -> Forall (fun p => dmap_item (snd p)) r -> g_mistyped r k ->
  exists l, incorrect_types_check gs r n = Raise (SuperDARNDataFormatTypeError l n) /\
    forall k, In k l <-> g_mistyped r k.
Proof.
  intros HU HD Hk. unfold incorrect_types_check. rewrite (complete_concat gs Hnd).
  destruct (wrong_types_ok r HU HD) as (l & -> & HI). cbn [rbind]. exists l. split; auto.
  replace (0 <? zlen l) with true; auto. symmetry. apply zlen_pos_ex. exists k. now apply HI.
Qed.

(** A plain value anywhere makes the comparison of types fail. *)
Lemma wrong_types_dmap r l :
  wrong_types (concat gs) r = Ok l -> Forall (fun p => dmap_item (snd p)) r.
Proof.
  revert l; induction r as [|[k it] r IH]; intros l; cbn [wrong_types]; [constructor|].
  destruct (item_fmt it) as [f|] eqn:EF; [|discriminate].
  destruct (dict_get (concat gs) k); [|discriminate].
  destruct (wrong_types (concat gs) r) as [l'|]; [|discriminate]. intros _. constructor; eauto.
  exists f. now apply item_fmt_has.
Qed.
Lemma types_check_dmap r n :
  incorrect_types_check gs r n = Ok tt -> Forall (fun p => dmap_item (snd p)) r.
Proof.
  unfold incorrect_types_check. rewrite (complete_concat gs Hnd).
  destruct (wrong_types (concat gs) r) as [l|] eqn:E; [|discriminate].
  intros _. eapply wrong_types_dmap; eauto.
Qed.

Definition g_acceptable (r : record) : Prop :=
  Forall (fun p => dmap_item (snd p)) r /\
  (forall k, ~ g_missing r k) /\ (forall k, ~ g_unknown r k) /\ (forall k, ~ g_mistyped r k).

Lemma read_checks_ok r n : read_checks gs opts r n = Ok tt <-> g_acceptable r.
Proof.
  unfold read_checks, g_acceptable. split.
  - intros H.
    destruct (missing_field_check gs r n opts) as [[]|] eqn:E1; [|discriminate]. cbn [rbind] in H.
    destruct (extra_field_check gs r n) as [[]|] eqn:E2; [|discriminate]. cbn [rbind] in H.
    pose proof (types_check_dmap _ _ H) as HD. pose proof (proj1 (missing_check_ok r n) E1) as F1. pose proof (proj1 (extra_check_ok r n) E2) as F2.
    split; [auto|]. split; auto. split; auto. exact (proj1 (types_check_ok r n F2 HD) H).
  - intros (HD & H1 & H2 & H3). rewrite (proj2 (missing_check_ok r n) H1). cbn [rbind].
    rewrite (proj2 (extra_check_ok r n) H2). cbn [rbind]. now apply types_check_ok.
Qed.

Lemma write_checks_ok r n : write_checks gs opts r n = Ok tt <-> g_acceptable r.
Proof.
  unfold write_checks, g_acceptable. split.
  - intros H.
    destruct (extra_field_check gs r n) as [[]|] eqn:E2; [|discriminate]. cbn [rbind] in H.
    destruct (missing_field_check gs r n opts) as [[]|] eqn:E1; [|discriminate]. cbn [rbind] in H.
    pose proof (types_check_dmap _ _ H) as HD. pose proof (proj1 (missing_check_ok r n) E1) as F1. pose proof (proj1 (extra_check_ok r n) E2) as F2.
    split; [auto|]. split; auto. split; auto. exact (proj1 (types_check_ok r n F2 HD) H).
  - intros (HD & H1 & H2 & H3). rewrite (proj2 (extra_check_ok r n) H2). cbn [rbind].
    rewrite (proj2 (missing_check_ok r n) H1). cbn [rbind]. now apply types_check_ok.
Qed.

(** Which error is raised, and with which fields. *)
Lemma read_checks_error r n :
  Forall (fun p => dmap_item (snd p)) r ->
  ((exists k, g_missing r k) ->
     exists l, read_checks gs opts r n = Raise (SuperDARNFieldMissingError n l) /\
       forall k, In k l <-> g_missing r k) /\
  ((forall k, ~ g_missing r k) -> (exists k, g_unknown r k) ->
     exists l, read_checks gs opts r n = Raise (SuperDARNExtraFieldError n l) /\
       forall k, In k l <-> g_unknown r k) /\
  ((forall k, ~ g_missing r k) -> (forall k, ~ g_unknown r k) -> (exists k, g_mistyped r k) ->
     exists l, read_checks gs opts r n = Raise (SuperDARNDataFormatTypeError l n) /\
       forall k, In k l <-> g_mistyped r k).
Proof.
  intros HD. unfold read_checks. split; [|split].
  - intros (k & Hk). destruct (missing_check_raise r n k Hk) as (l & -> & H). exists l. auto.
  - intros H1 (k & Hk). rewrite (proj2 (missing_check_ok r n) H1). cbn [rbind].
    destruct (extra_check_raise r n k Hk) as (l & -> & H). exists l. auto.
  - intros H1 H2 (k & Hk). rewrite (proj2 (missing_check_ok r n) H1). cbn [rbind].
    rewrite (proj2 (extra_check_ok r n) H2). cbn [rbind].
    destruct (types_check_raise r n k H2 HD Hk) as (l & -> & H). exists l. auto.
Qed.

Lemma write_checks_error r n :
  Forall (fun p => dmap_item (snd p)) r ->
  ((exists k, g_unknown r k) ->
     exists l, write_checks gs opts r n = Raise (SuperDARNExtraFieldError n l) /\
       forall k, In k l <-> g_unknown r k) /\
  ((forall k, ~ g_unknown r k) -> (exists k, g_missing r k) ->
     exists l, write_checks gs opts r n = Raise (SuperDARNFieldMissingError n l) /\
       forall k, In k l <-> g_missing r k) /\
  ((forall k, ~ g_unknown r k) -> (forall k, ~ g_missing r k) -> (exists k, g_mistyped r k) ->
     exists l, write_checks gs opts r n = Raise (SuperDARNDataFormatTypeError l n) /\
       forall k, In k l <-> g_mistyped r k).
Proof.
  intros HD. unfold write_checks. split; [|split].
  - intros (k & Hk). destruct (extra_check_raise r n k Hk) as (l & -> & H). exists l. auto.
  - intros H1 (k & Hk). rewrite (proj2 (extra_check_ok r n) H1). cbn [rbind].
    destruct (missing_check_raise r n k Hk) as (l & -> & H). exists l. auto.
  - intros H2 H1 (k & Hk). rewrite (proj2 (extra_check_ok r n) H2). cbn [rbind].
    rewrite (proj2 (missing_check_ok r n) H1). cbn [rbind].
    destruct (types_check_raise r n k H2 HD Hk) as (l & -> & H). exists l. auto.
Qed.

(** Decidability of the three conditions. *)
Lemma g_missing_dec r : (exists k, g_missing r k) \/ (forall k, ~ g_missing r k).
Proof.
  destruct (missing_fields gs (map fst r) opts) as [|k l] eqn:E.
  - right. intros k Hk. apply (missing_fields_In k (map fst r) opts gs) in Hk. rewrite E in Hk. destruct Hk.
  - left. exists k. apply (missing_fields_In k (map fst r) opts gs). rewrite E. left. auto.
Qed.
Lemma g_unknown_dec r : (exists k, g_unknown r k) \/ (forall k, ~ g_unknown r k).
Proof.
  destruct (dict_key_diff (map fst r) (map fst (concat gs))) as [|k l] eqn:E.
  - right. intros k Hk. apply (key_diff_In k (map fst r) (map fst (concat gs))) in Hk. rewrite E in Hk. destruct Hk.
  - left. exists k. apply (key_diff_In k (map fst r) (map fst (concat gs))). rewrite E. left. auto.
Qed.
Lemma g_mistyped_dec r :
  (forall k, ~ g_unknown r k) -> Forall (fun p => dmap_item (snd p)) r ->
  (exists k, g_mistyped r k) \/ (forall k, ~ g_mistyped r k).
Proof.
  intros HU HD. destruct (wrong_types_ok r HU HD) as ([|k l] & _ & HI).
  - right. intros k Hk. now apply HI in Hk.
  - left. exists k. apply HI. left. auto.
Qed.

End Groups.
