(** Restructuring an array file gives the records that its reader gives. *)
From Coq Require Import String ZArith List Bool Lia Permutation Sorted.
From Verif Require Import Base Utf8 BytesProofs DmapFileProofs DmapWriteProofs DmapWriteFacts SDarnChecks SDarnFormats BorealisTypes BorealisFormats BorealisChecks
  BorealisArrays BorealisTime BorealisFile BorealisRestructure BorealisSpec BorealisFileSpec BorealisRestructureSpec
  BorealisRestructureFileSpec BorealisCheckProofs BorealisFillProofs BorealisToArrayProofs BorealisFileProofs BorealisRestructureProofs.
Import ListNotations.
Open Scope list_scope.
Open Scope Z_scope.

(** ** Facts about the tables *)

Definition namesb (k : pystr) : bool := str_mem k [str "data_descriptors"; str "correlation_descriptors"].
Lemma namesb_ok k : namesb k = false -> ~ names_of_dims k.
Proof.
  intros H C. assert (E : namesb k = true); [|congruence]. apply str_mem_In. destruct C as [-> | ->]; [now left|right; now left].
Qed.
Definition plain_dset (F : format) (k : pystr) : bool :=
  ((str_mem k (keys (fm_array F)) && negb (str_mem k [str "data_dimensions"; str "correlation_dimensions"])) ||
   (str_mem k (keys (fm_single F)) && negb (str_mem k (fm_shared F)))) &&
  negb (array_string F k) && negb (single_string F k) && negb (namesb k).
Definition sdim_fact (F : format) (d : sdim) : bool :=
  match d with
  | SItem k => plain_dset F k && str_mem k count_fields
  | SShape k _ => plain_dset F k
  | SLen _ => false
  | SPpo => plain_dset F s_ppo && plain_dset F (str "num_sequences")
  end.
Definition sdims_fact (k : pystr) (l : list sdim) : bool :=
  forallb (fun d => match d with SPpo => false | _ => true end) l ||
  (str_eqb k s_ppo && match l with [SPpo] => true | _ => false end).
Definition sgen_fact (F : format) (p : pystr * sgen) : bool :=
  negb (str_eqb (fst p) s_hash) &&
  match snd p with HNames _ _ => true | HDims l => forallb (sdim_fact F) l end.
Definition to_site_facts (g : generation) (t : filetype) : bool :=
  let F := format_class g t in
  match site_single_element_types F, unshared_fields F with
  | Ok sa, Ok u =>
      forallb (fun k => if str_mem k (keys sa) then str_mem k (keys (fm_single F))
                        else str_mem k (keys (fm_array F)) &&
                             negb (str_mem k [str "data_dimensions"; str "correlation_dimensions"])) (fm_shared F) &&
      str_mem s_hash (fm_shared F) && str_mem s_hash (keys sa) &&
      forallb (sgen_fact F) (fm_site_gen F) &&
      forallb (fun k => negb (str_eqb k s_hash) &&
                        if str_mem k (keys (fm_single F)) then negb (str_mem k (fm_shared F))
                        else plain_dset F k && match dict_get (fm_dims_site F) k with
                                               | Some l => forallb (sdim_fact F) l && sdims_fact k l
                                               | None => false
                                               end) u &&
      str_mem (str "sqn_timestamps") u && negb (str_mem (str "sqn_timestamps") (keys (fm_single F))) &&
      nodupb (keys (fm_single F)) && nodupb (keys (fm_array F)) &&
      forallb (fun k => negb (str_mem k (keys (fm_array F)))) (keys (fm_single F)) &&
      match fm_flat F with Some (_, fs) => forallb (fun k => negb (str_mem k (keys sa))) fs | None => true end &&
      forallb (fun k => negb (namesb k)) (fm_shared F ++ u)
  | _, _ => false
  end.
Lemma all_to_site g t : has_structures t -> to_site_facts g t = true.
Proof. unfold has_structures. destruct t; [| | |congruence]; intros _; destruct g; vm_compute; reflexivity. Qed.

(** ** The file and what is read of it *)

Lemma mapM_get {A B} (f : A -> res B) (d : dict A) e k x : mapM (fun p => rlet v := f (snd p) in Ok (fst p, v)) d = Ok e ->
  dict_get d k = Some x -> exists y, f x = Ok y /\ dict_get e k = Some y.
Proof.
  intros H. apply mapM_inv in H. induction H as [|[k1 x1] [k2 y2] d e E H IH]; cbn [dict_get]; [discriminate|].
  cbn [fst snd] in E. apply rbind_ok in E as (y & E1 & E2). apply ok_inj in E2. injection E2 as <- <-.
  destruct (str_eqb k1 k); [intros [= <-]; eauto|exact IH].
Qed.
Lemma mapM_keys {A B} (f : A -> res B) (d : dict A) e : mapM (fun p => rlet v := f (snd p) in Ok (fst p, v)) d = Ok e -> keys e = keys d.
Proof.
  intros H. apply mapM_inv in H. induction H as [|[k1 x1] [k2 y2] d e E H IH]; [reflexivity|].
  cbn [fst snd] in E. apply rbind_ok in E as (y & E1 & E2). apply ok_inj in E2. injection E2 as <- <-.
  unfold keys in *. cbn [map fst]. now f_equal.
Qed.

Definition holds_attr (f : hfile) (k : pystr) (v : bval) : Prop :=
  exists x, dict_get (h_attrs f) k = Some x /\ read_attr x = Ok v.
Definition holds_dset (f : hfile) (k : pystr) (v : bval) : Prop :=
  exists d al, dict_get (h_items f) k = Some (HDset d al) /\ read_dset d = Ok v.

Lemma arrays_read f a : read_arrays f = Ok a -> NoDup (keys (h_items f)) -> NoDup (keys (h_attrs f)) ->
  (forall k, In k (keys (h_items f)) -> ~ In k (keys (h_attrs f))) ->
  NoDup (keys a) /\
  (forall k x, dict_get (h_attrs f) k = Some x -> str_mem k hidden_attrs = false -> exists v, read_attr x = Ok v /\ dict_get a k = Some v) /\
  (forall k d al, dict_get (h_items f) k = Some (HDset d al) -> exists v, read_dset d = Ok v /\ dict_get a k = Some v).
Proof.
  intros H N1 N2 N3. unfold read_arrays in H. apply rbind_ok in H as (ds & E1 & H). apply rbind_ok in H as (at_ & E2 & H).
  apply ok_inj in H as <-. unfold read_attrs in E2.
  pose proof (mapM_keys (fun i => match i with HGroup _ _ => Raise TypeError | HDset d _ => read_dset d end) _ _ E1) as K1.
  pose proof (mapM_keys read_attr _ _ E2) as K2.
  assert (ND : NoDup (keys ds)).
  { rewrite K1. eapply Permutation_NoDup; [symmetry; apply keys_perm, sort_perm|exact N1]. }
  assert (NA : NoDup (keys at_)) by (rewrite K2; now apply filter_keys_nodup).
  split; [|split].
  - apply dict_update_nodup, dict_update_nodup. constructor.
  - intros k x G HH. rewrite dict_get_update by exact NA.
    rewrite <- (filter_get (fun k => negb (str_mem k hidden_attrs)) (h_attrs f) k) in G by (now rewrite HH).
    destruct (mapM_get read_attr _ _ _ _ E2 G) as (v & V1 & V2). exists v. now rewrite V2.
  - intros k d al G. rewrite !dict_get_update by assumption.
    assert (NK : dict_get at_ k = None).
    { apply dict_get_none. fold (keys at_). rewrite K2. intros C. apply filter_keys_in in C. apply (N3 k); [|exact C]. apply keys_in. eexists. apply dict_get_In, G. }
    rewrite NK. rewrite <- (perm_get _ _ k N1 (sort_perm (h_items f))) in G.
    destruct (mapM_get (fun i => match i with HGroup _ _ => Raise TypeError | HDset d _ => read_dset d end) _ _ _ _ E1 G) as (v & V1 & V2).
    exists v. now rewrite V2.
Qed.

Lemma read_dset_array d v : read_dset d = Ok v -> exists t s l, v = BArr t s l /\ s <> [] /\
  (hd_item d = None -> v = BArr (hd_type d) (hd_shape d) (hd_data d)).
Proof.
  unfold read_dset. destruct (hd_shape d) as [|s0 ss] eqn:ES; [discriminate|]. destruct (hd_item d) as [w|].
  - destruct (_ || _); [discriminate|]. cbv zeta. destruct (negb _); [discriminate|]. intros H. apply ok_inj in H as <-.
    do 3 eexists. split; [reflexivity|]. split; [|discriminate]. destruct (removelast (s0 :: ss)); discriminate.
  - intros H. apply ok_inj in H as <-. do 3 eexists. split; [reflexivity|]. split; [discriminate|reflexivity].
Qed.

Lemma root_get f k : NoDup (keys (h_items f)) -> forall d al, dict_get (h_items f) k = Some (HDset d al) ->
  dict_get (root_arrays f) k = Some (BArr (hd_type d) (hd_shape d) (hd_data d)).
Proof.
  unfold root_arrays. destruct f as [its als]. cbn [h_items]. clear als. induction its as [|[k1 i] its IH]; cbn [dict_get]; [discriminate|].
  intros HN d al G. inversion HN as [|? ? N1 N2]; subst. cbn [flat_map fst snd]. destruct (str_eqb k1 k) eqn:E.
  - injection G as ->. cbn [app dict_get]. now rewrite E.
  - destruct i as [ds as_|d' al']; cbn [app dict_get]; [|rewrite E]; exact (IH N2 d al G).
Qed.

Record site_facts (g : generation) (t : filetype) (sa : dict btype) (u : list pystr) : Prop := mk_site_facts {
  sf_shared_attr : forall k, In k (fm_shared (format_class g t)) -> str_mem k (keys sa) = true ->
    exists ty, array_attr (format_class g t) k ty;
  sf_shared_dset : forall k, In k (fm_shared (format_class g t)) -> str_mem k (keys sa) = false ->
    (exists ty, array_dset (format_class g t) k ty) /\ (array_string (format_class g t) k = true <-> text_name (format_class g t) k);
  sf_plain : forall k, plain_dset (format_class g t) k = true ->
    (exists ty, array_dset (format_class g t) k ty) /\ ~ text_name (format_class g t) k /\ ~ names_of_dims k;
  sf_single : forall k ty, In k u -> dict_get (fm_single (format_class g t)) k = Some ty ->
    array_dset (format_class g t) k ty /\ (single_string (format_class g t) k = true <-> text_name (format_class g t) k);
  sf_dims : forall k, In k u -> dict_get (fm_single (format_class g t)) k = None ->
    plain_dset (format_class g t) k = true /\
    exists l, dict_get (fm_dims_site (format_class g t)) k = Some l /\
      forallb (sdim_fact (format_class g t)) l = true /\ sdims_fact k l = true;
  sf_gen : forall p, In p (fm_site_gen (format_class g t)) -> sgen_fact (format_class g t) p = true;
  sf_hash : In s_hash (fm_shared (format_class g t)) /\ str_mem s_hash (keys sa) = true /\ ~ In s_hash u;
  sf_times : In (str "sqn_timestamps") u /\ dict_get (fm_single (format_class g t)) (str "sqn_timestamps") = None;
  sf_flat : forall df fs k, fm_flat (format_class g t) = Some (df, fs) -> In k fs -> str_mem k (keys sa) = false;
  sf_names : forall k, In k (fm_shared (format_class g t)) \/ In k u -> ~ names_of_dims k
}.

Lemma no_mem_get {A} (d : dict A) k : str_mem k (keys d) = false <-> dict_get d k = None.
Proof.
  split; intros H.
  - apply dict_get_none. intros C. apply str_mem_In in C. unfold keys in H. congruence.
  - destruct (str_mem k (keys d)) eqn:E; [|reflexivity]. apply str_mem_In in E. apply dict_get_none in H. contradiction.
Qed.

Lemma site_only_mem k : str_mem k [str "data_dimensions"; str "correlation_dimensions"] = false -> ~ site_only k.
Proof.
  intros H C. assert (E : str_mem k [str "data_dimensions"; str "correlation_dimensions"] = true); [|congruence].
  apply str_mem_In. destruct C as [-> | ->]; [now left|right; now left].
Qed.

Lemma site_facts_ok g t sa u : has_structures t -> site_single_element_types (format_class g t) = Ok sa ->
  unshared_fields (format_class g t) = Ok u -> site_facts g t sa u.
Proof.
  intros HT E1 E2. pose proof (all_to_site g t HT) as H. unfold to_site_facts in H. rewrite E1, E2 in H.
  set (F := format_class g t) in *. rewrite !andb_true_iff in H.
  destruct H as (((((((((((H1 & H2) & H3) & H4) & H5) & H6) & H7) & H8) & H9) & H10) & H11) & H12).
  apply nodupb_ok in H8, H9. rewrite forallb_forall in H1, H4, H5, H10, H12.
  assert (TA : forall k, str_mem k (keys (fm_array F)) = true -> array_string F k = true <-> text_name F k).
  { intros k Hk. apply mem_keys in Hk as (ty & Hk). unfold array_string. rewrite (proj1 (dict_in_get _ _ _ H9) Hk). split.
    - intros E. exists ty. split; [now left|]. destruct ty; try discriminate; auto.
    - intros (ty' & [I|I] & D).
      + pose proof (proj1 (dict_in_get _ _ _ H9) I) as I'. pose proof (proj1 (dict_in_get _ _ _ H9) Hk) as K'. assert (ty' = ty) by congruence. subst. destruct D as [-> | ->]; reflexivity.
      + exfalso. assert (K : In k (keys (fm_single F))) by (apply keys_in; eauto). apply H10 in K. apply negb_true_iff in K.
        eapply not_mem_keys in K. apply K, Hk. }
  assert (TS : forall k, str_mem k (keys (fm_single F)) = true -> single_string F k = true <-> text_name F k).
  { intros k Hk. assert (K : In k (keys (fm_single F))) by (now apply str_mem_In). apply H10, negb_true_iff in K.
    apply mem_keys in Hk as (ty & Hk). unfold single_string. rewrite (proj1 (dict_in_get _ _ _ H8) Hk). split.
    - intros E. exists ty. split; [now right|]. destruct ty; try discriminate; auto.
    - intros (ty' & [I|I] & D).
      + exfalso. eapply not_mem_keys in K. apply K, I.
      + pose proof (proj1 (dict_in_get _ _ _ H8) I) as I'. pose proof (proj1 (dict_in_get _ _ _ H8) Hk) as K'. assert (ty' = ty) by congruence. subst. destruct D as [-> | ->]; reflexivity. }
  split; fold F.
  - intros k Hk Hm. pose proof (H1 k Hk) as X. rewrite Hm in X. apply mem_keys in X as (ty & X). exists ty. now split.
  - intros k Hk Hm. pose proof (H1 k Hk) as X. rewrite Hm in X. apply andb_true_iff in X as [X1 X2]. split; [|now apply TA].
    apply mem_keys in X1 as (ty & X1). exists ty. left. split; [exact X1|]. apply site_only_mem. now apply negb_true_iff.
  - intros k Hk. unfold plain_dset in Hk. rewrite !andb_true_iff, !negb_true_iff, orb_true_iff, !andb_true_iff, !negb_true_iff in Hk.
    destruct Hk as [[[[[X1 X2]|[X1 X2]] X3] X4] X5]; (split; [|split; [|now apply namesb_ok]]).
    + apply mem_keys in X1 as (ty & X1). exists ty. left. split; [exact X1|now apply site_only_mem].
    + intros C. apply TA in C; [congruence|exact X1].
    + apply mem_keys in X1 as (ty & X1). exists ty. right. split; [exact X1|]. intros C. apply str_mem_In in C. congruence.
    + intros C. apply TS in C; [congruence|exact X1].
  - intros k ty Hk Hg. pose proof (H5 k Hk) as X. apply andb_true_iff in X as [_ X].
    assert (M : str_mem k (keys (fm_single F)) = true) by (apply str_mem_In, keys_in; exists ty; now apply dict_get_In).
    rewrite M in X. split; [|now apply TS]. right. split; [now apply dict_get_In|]. intros C. apply str_mem_In in C. rewrite C in X. discriminate.
  - intros k Hk Hg. pose proof (H5 k Hk) as X. apply andb_true_iff in X as [_ X]. rewrite (proj2 (no_mem_get _ _) Hg) in X.
    apply andb_true_iff in X as [X1 X2]. split; [exact X1|]. destruct (dict_get (fm_dims_site F) k) as [l|]; [|discriminate].
    apply andb_true_iff in X2. eauto.
  - exact H4.
  - split; [now apply str_mem_In|]. split; [exact H3|]. intros C. apply H5 in C. rewrite str_eqb_refl in C. discriminate.
  - split; [now apply str_mem_In|]. apply no_mem_get. now apply negb_true_iff.
  - intros df fs k EF Hk. rewrite EF in H11. rewrite forallb_forall in H11. now apply negb_true_iff, H11.
  - intros k Hk. apply namesb_ok, negb_true_iff, H12, in_or_app, Hk.
Qed.

(** ** One record *)

(** The same value, or h5py.Empty where the reader puts an empty value. *)
Definition alike (sa : list pystr) (p q : pystr * bval) : Prop :=
  fst p = fst q /\ (snd p = snd q \/ (str_mem (fst p) sa = true /\ exists t, snd p = BEmpty t /\ empty_value t = Ok (snd q))).

Lemma alike_refl sa p : alike sa p p.
Proof. split; auto. Qed.
Lemma alike_refl_all sa l : Forall2 (alike sa) l l.
Proof. induction l; constructor; auto using alike_refl. Qed.
Lemma alike_set sa d e k v w : Forall2 (alike sa) d e -> alike sa (k, v) (k, w) -> Forall2 (alike sa) (dict_set d k v) (dict_set e k w).
Proof.
  intros H HV. induction H as [|[k1 v1] [k2 v2] d e E H IH]; cbn [dict_set]; [constructor; [exact HV|constructor]|].
  pose proof E as [E1 E2]. cbn [fst] in E1. subst k2. destruct (str_eqb k1 k) eqn:EK.
  - constructor; [|exact H]. apply str_eqb_eq in EK. now subst.
  - constructor; [exact E|exact IH].
Qed.
Lemma alike_update sa d e d' e' : Forall2 (alike sa) d e -> Forall2 (alike sa) d' e' ->
  Forall2 (alike sa) (dict_update d d') (dict_update e e').
Proof.
  intros H H'. revert d e H. unfold dict_update. induction H' as [|[k1 v1] [k2 v2] d' e' E H' IH]; intros d e H; cbn [fold_left fst snd]; [exact H|].
  apply IH. pose proof E as [E1 E2]. cbn [fst] in E1. subst k2. apply alike_set; assumption.
Qed.
Lemma alike_get sa d e k v : Forall2 (alike sa) d e -> str_mem k sa = false -> dict_get e k = Some v -> dict_get d k = Some v.
Proof.
  intros H HM. induction H as [|[k1 v1] [k2 v2] d e [E1 E2] H IH]; cbn [dict_get]; [discriminate|].
  cbn [fst snd] in *. subst k2. destruct (str_eqb k1 k) eqn:EK; [|exact IH]. apply str_eqb_eq in EK. subst k1.
  intros [= <-]. destruct E2 as [->|[C _]]; [reflexivity|congruence].
Qed.
Lemma alike_keys sa d e : Forall2 (alike sa) d e -> keys d = keys e.
Proof. induction 1 as [|p q d e [E _] H IH]; [reflexivity|]. change (fst p :: keys d = fst q :: keys e). congruence. Qed.
Lemma alike_none sa d e k : Forall2 (alike sa) d e -> dict_get e k = None -> dict_get d k = None.
Proof.
  intros H HG. apply dict_get_none. apply dict_get_none in HG. apply alike_keys in H. unfold keys in H. now rewrite H.
Qed.

Lemma mapM_alike {A} sa (f f' : A -> res (pystr * bval)) l m : (forall x q, In x l -> f x = Ok q -> exists p, f' x = Ok p /\ alike sa p q) ->
  mapM f l = Ok m -> exists m', mapM f' l = Ok m' /\ Forall2 (alike sa) m' m.
Proof.
  revert m. induction l as [|x l IH]; intros m HS H; cbn [mapM] in *.
  - apply ok_inj in H as <-. exists []. split; [reflexivity|constructor].
  - apply rbind_ok in H as (q & Q & H). apply rbind_ok in H as (m0 & M & H). apply ok_inj in H as <-.
    destruct (HS x q (or_introl eq_refl) Q) as (p & P1 & P2).
    destruct (IH m0) as (m' & M1 & M2); [intros y z Hy; apply HS; now right|exact M|].
    exists (p :: m'). rewrite P1. cbn [rbind]. rewrite M1. split; [reflexivity|]. now constructor.
Qed.

(** The attributes that may be empty: shared ones that are so in the file; the hash
    is not. *)
Definition may_be_empty (F : format) (sa : dict btype) (f : hfile) : list pystr :=
  filter (fun k => negb (str_eqb k s_hash) && (str_mem k (fm_shared F) &&
    match dict_get (h_attrs f) k with Some (HEmpty _) => true | _ => false end)) (keys sa).

Section ToSite.
Variables (g : generation) (t : filetype) (sa : dict btype) (u : list pystr) (f : hfile) (a : brecord).
Notation F := (format_class g t).
Hypothesis HSF : site_facts g t sa u.
Hypothesis HSA : site_single_element_types F = Ok sa.
Hypothesis HU : unshared_fields F = Ok u.
Hypothesis HNI : NoDup (keys (h_items f)).
Hypothesis HAt : forall k ty, array_attr F k ty -> exists x v, dict_get (h_attrs f) k = Some x /\ read_attr x = Ok v /\ dict_get a k = Some v.
Hypothesis HDs : forall k ty, array_dset F k ty -> exists d al v, dict_get (h_items f) k = Some (HDset d al) /\ read_dset d = Ok v /\
  dict_get a k = Some v /\ (names_of_dims k \/ (hd_item d <> None <-> text_name F k)).
Hypothesis HCt : counts_not_negative a.
Hypothesis HPh : In s_ppo u -> phases_enough a.
Hypothesis HHash : forall x, dict_get (h_attrs f) s_hash = Some x -> exists h, attr_decode x = Ok h.

Lemma not_text d k : (hd_item d <> None <-> text_name F k) -> ~ text_name F k -> hd_item d = None.
Proof. intros H1 H2. destruct (hd_item d); [exfalso; apply H2, H1; discriminate|reflexivity]. Qed.

Lemma plain_same k : plain_dset F k = true -> exists ty s l, dict_get a k = Some (BArr ty s l) /\ s <> [] /\
  dict_get (root_arrays f) k = Some (BArr ty s l) /\
  exists d al, dict_get (h_items f) k = Some (HDset d al) /\ whole d = Ok (BArr ty s l).
Proof.
  intros HP. destruct (sf_plain g t sa u HSF k HP) as ((ty & HD) & HT & HNm). destruct (HDs k ty HD) as (d & al & v & D1 & D2 & D3 & [D4|D4]); [contradiction|].
  pose proof (not_text d k D4 HT) as HI. destruct (read_dset_array d v D2) as (ty' & s & l & -> & HS & HV).
  pose proof (HV HI) as E. exists ty', s, l. splits; auto.
  - rewrite E. now apply (root_get f k HNI d al).
  - exists d, al. split; [exact D1|]. unfold whole. rewrite E. injection E as _ -> _. destruct (hd_shape d); [congruence|reflexivity].
Qed.

Lemma decode_like x v k : dict_get (h_attrs f) k = Some x -> read_attr x = Ok v -> str_mem k (keys sa) = true -> In k (fm_shared F) ->
  exists v1, decode_attr x = Ok v1 /\ alike (may_be_empty F sa f) (k, v1) (k, v).
Proof.
  intros HX H HM HS. destruct x; cbn [read_attr decode_attr] in *.
  - rewrite H. destruct (utf8_dec _) eqn:E; [|discriminate]. eexists. split; [|apply alike_refl]. congruence.
  - apply ok_inj in H as <-. eexists. split; [reflexivity|apply alike_refl].
  - exists (BEmpty t0). split; [reflexivity|]. split; [reflexivity|]. right. split; [|exists t0; auto]. cbn [fst].
    unfold may_be_empty. apply str_mem_In, filter_In. split; [now apply str_mem_In|]. rewrite HX, (proj2 (str_mem_In _ _) HS), andb_true_r.
    destruct (str_eqb k s_hash) eqn:EK; [|reflexivity].
    apply str_eqb_eq in EK. subst k. destruct (HHash _ HX) as (h & C). discriminate C.
  - apply ok_inj in H as <-. eexists. split; [reflexivity|apply alike_refl].
Qed.

Lemma text_value d v : hd_item d <> None -> read_dset d = Ok v -> texts d = Ok v.
Proof. unfold texts. destruct (hd_item d); [auto|congruence]. Qed.
Lemma whole_value d v : hd_item d = None -> read_dset d = Ok v -> whole d = Ok v.
Proof. unfold whole, read_dset. intros ->. destruct (hd_shape d); [discriminate|auto]. Qed.

Lemma shared_like k v : In k (fm_shared F) -> dict_get a k = Some v ->
  exists v1, shared_value F sa f k = Ok v1 /\ alike (may_be_empty F sa f) (k, v1) (k, v).
Proof.
  intros Hk Hv. unfold shared_value. destruct (str_mem k (keys sa)) eqn:EM.
  - destruct (sf_shared_attr g t sa u HSF k Hk EM) as (ty & HA). destruct (HAt k ty HA) as (x & v' & X1 & X2 & X3).
    assert (v' = v) by congruence. subst v'. unfold dict_item.
    destruct (dict_get sa k) eqn:ES; [|apply no_mem_get in ES; congruence]. rewrite X1. cbn [rbind]. now apply decode_like.
  - rewrite (proj1 (no_mem_get sa k) EM). destruct (sf_shared_dset g t sa u HSF k Hk EM) as ((ty & HD) & HT).
    destruct (HDs k ty HD) as (d & al & v' & D1 & D2 & D3 & [D4|D4]); [exfalso; exact (sf_names g t sa u HSF k (or_introl Hk) D4)|]. assert (v' = v) by congruence. subst v'.
    unfold root_dset. rewrite D1. cbn [rbind]. exists v. split; [|apply alike_refl].
    destruct (array_string F k) eqn:EA.
    + apply text_value; [|exact D2]. apply D4, HT. reflexivity.
    + apply whole_value; [|exact D2]. apply (not_text d k D4). intros C. apply HT in C. discriminate.
Qed.

Lemma sdim_same rec d : sdim_fact F d = true -> sdim_eval (root_arrays f) rec d = sdim_eval a rec d.
Proof.
  destruct d as [k|k i|k|]; cbn [sdim_fact sdim_eval]; intros H; [| |discriminate|].
  - apply andb_true_iff in H as [H _]. destruct (plain_same k H) as (ty & s & l & P1 & _ & P2 & _). unfold dict_item. now rewrite P1, P2.
  - destruct (plain_same k H) as (ty & s & l & P1 & _ & P2 & _). unfold dict_item. now rewrite P1, P2.
  - apply andb_true_iff in H as [H1 H2]. destruct (plain_same _ H1) as (ty & s & l & P1 & _ & P2 & _).
    destruct (plain_same _ H2) as (ty' & s' & l' & Q1 & _ & Q2 & _). unfold dict_item. now rewrite P1, P2, Q1, Q2.
Qed.
Lemma sdims_same rec l : forallb (sdim_fact F) l = true -> mapM (sdim_eval (root_arrays f) rec) l = mapM (sdim_eval a rec) l.
Proof.
  induction l as [|d l IH]; cbn [forallb mapM]; intros H; [reflexivity|]. apply andb_true_iff in H as [H1 H2].
  now rewrite (sdim_same rec d H1), IH.
Qed.

Lemma sgen_same rec p : In p (fm_site_gen F) -> sgen_eval (root_arrays f) rec (snd p) = sgen_eval a rec (snd p).
Proof.
  intros H. apply (sf_gen g t sa u HSF) in H. unfold sgen_fact in H. apply andb_true_iff in H as [_ H].
  destruct (snd p) as [ty l|l]; cbn [sgen_eval]; [reflexivity|]. now rewrite sdims_same.
Qed.

Lemma array_int_in v i z : array_int v i = Ok z -> exists ty s l, v = BArr ty s l /\ In (CZ z) l.
Proof.
  destruct v as [? ?| ? |ty [|n [|? ?]] l| ? |]; cbn [array_int]; try discriminate. destruct (negb _); [discriminate|].
  destruct (Nat.ltb i n); [|discriminate]. destruct (nth_error l i) as [[z'| |]|] eqn:E; try discriminate. intros H.
  apply ok_inj in H as <-. exists ty, [n], l. split; [reflexivity|]. now apply nth_error_In in E.
Qed.

Lemma sdim_nonneg rec d zs : sdim_fact F d = true -> match d with SPpo => false | _ => true end = true -> sdim_eval a rec d = Ok zs ->
  Forall (fun z => 0 <= z) zs.
Proof.
  destruct d as [k|k i|k|]; cbn [sdim_fact sdim_eval]; intros H HP HE; try discriminate.
  - apply andb_true_iff in H as [_ H]. apply str_mem_In in H. apply rbind_ok in HE as (v & V & HE). apply rbind_ok in HE as (z & Z & HE).
    apply ok_inj in HE as <-. apply array_int_in in Z as (ty & s & l & -> & IZ). unfold dict_item in V.
    destruct (dict_get a k) eqn:EG; [|discriminate]. apply ok_inj in V. subst. constructor; [|constructor]. exact (HCt k ty s l z H EG IZ).
  - apply rbind_ok in HE as (v & V & HE). apply rbind_ok in HE as (s & S & HE). destruct (nth_error s i) as [m|]; [|discriminate].
    apply ok_inj in HE as <-. constructor; [lia|constructor].
Qed.
Lemma sdims_nonneg rec l zs : forallb (sdim_fact F) l = true -> forallb (fun d => match d with SPpo => false | _ => true end) l = true ->
  mapM (sdim_eval a rec) l = Ok zs -> Forall (fun z => 0 <= z) (concat zs).
Proof.
  revert zs. induction l as [|d l IH]; intros zs H HP HE; cbn [mapM forallb] in *.
  - apply ok_inj in HE as <-. constructor.
  - apply andb_true_iff in H as [H1 H2], HP as [P1 P2]. apply rbind_ok in HE as (z & Z & HE). apply rbind_ok in HE as (zs' & ZS & HE).
    apply ok_inj in HE as <-. cbn [concat]. apply Forall_app. split; [exact (sdim_nonneg rec d z H1 P1 Z)|now apply IH].
Qed.
Lemma filter_nonneg l : Forall (fun z => 0 <= z) l -> filter (fun i => negb (i =? -1)) l = l.
Proof.
  induction 1 as [|z l Hz H IH]; cbn [filter]; [reflexivity|]. destruct (z =? -1) eqn:E; [apply Z.eqb_eq in E; lia|]. cbn [negb]. now f_equal.
Qed.

Lemma item_like rec k v : In k u -> site_item F a rec k = Ok v -> file_item F f rec k = Ok v.
Proof.
  intros Hk. unfold site_item, file_item. destruct (dict_get (fm_single F) k) as [ty|] eqn:ES.
  - destruct (sf_single g t sa u HSF k ty Hk ES) as (HD & HT).
    destruct (HDs k ty HD) as (d & al & v' & D1 & D2 & D3 & [D4|D4]); [exfalso; exact (sf_names g t sa u HSF k (or_intror Hk) D4)|].
    unfold dict_item. rewrite D3. cbn [rbind]. intros E. unfold single_values, root_dset. rewrite D1. cbn [rbind].
    assert (EV : (if single_string F k then texts d else whole d) = Ok v').
    { destruct (single_string F k).
      - apply text_value; [|exact D2]. apply D4, HT. reflexivity.
      - apply whole_value; [|exact D2]. apply (not_text d k D4). intros C. apply HT in C. discriminate. }
    rewrite EV. cbn [rbind]. exact E.
  - intros H. apply rbind_ok in H as (ty & _ & H). apply rbind_ok in H as (dims & DM & H). apply rbind_ok in H as (zs & ZS & H).
    destruct (sf_dims g t sa u HSF k Hk ES) as (HP & l & L1 & L2 & L3). rewrite DM. cbn [rbind].
    assert (dims = l) as -> by (unfold dict_item in DM; rewrite L1 in DM; now apply ok_inj in DM).
    rewrite (sdims_same rec l L2), ZS. cbn [rbind].
    destruct (plain_same k HP) as (ty' & s & dat & P1 & P2 & P3 & _). unfold dict_item in *. rewrite P1 in H. cbn [rbind] in H. rewrite P3. cbn [rbind].
    unfold sdims_fact in L3. apply orb_true_iff in L3 as [L3|L3].
    + rewrite filter_nonneg; [exact H|]. exact (sdims_nonneg rec l zs L2 L3 ZS).
    + apply andb_true_iff in L3 as [L3 L4]. apply str_eqb_eq in L3. subst k.
      destruct l as [|[| | |] [|? ?]]; try discriminate. cbn [mapM] in ZS. apply rbind_ok in ZS as (z0 & Z0 & ZS). cbn [rbind] in ZS.
      apply ok_inj in ZS as <-. cbn [concat] in *. rewrite app_nil_r in *.
      cbn [sdim_eval] in Z0. unfold dict_item in Z0. rewrite P1 in Z0. cbn [rbind] in Z0.
      apply rbind_ok in Z0 as (n & N & Z0). destruct (dict_get a (str "num_sequences")) as [vn|] eqn:EN; [|discriminate]. cbn [rbind] in N.
      apply array_int_in in N as (tn & sn & ln & -> & IN). pose proof (HPh Hk ty' s dat tn sn ln n P1 EN IN) as PE.
      pose proof (HCt (str "num_sequences") tn sn ln n (or_introl eq_refl) EN IN) as NN.
      destruct (Z.of_nat (size s) <? n) eqn:EZ.
      * apply ok_inj in Z0 as <-. destruct PE as [(m & ->)|C]; [|apply Z.ltb_lt in EZ; lia].
        cbn [filter Z.eqb negb]. cbn [array_item slice_shape rbind] in *. exact H.
      * destruct s as [|d0 ds]; [congruence|]. destruct (Nat.ltb rec d0); [|discriminate]. apply ok_inj in Z0 as <-.
        rewrite filter_nonneg; [exact H|]. constructor; [exact NN|]. apply Forall_forall. intros z Hz. apply in_map_iff in Hz as (m & <- & _). lia.
Qed.

Lemma record_like rec r : site_record F a rec = Ok r -> exists r1, file_record F sa f rec = Ok r1 /\ Forall2 (alike (may_be_empty F sa f)) r1 r.
Proof.
  unfold site_record, file_record. intros H. apply rbind_ok in H as (sh & SH & H). apply rbind_ok in H as (sp & SP & H).
  rewrite HU in H |- *. cbn [rbind] in H |- *. apply rbind_ok in H as (un & UN & H). apply ok_inj in H as <-.
  assert (exists l', mapM (fun k => rlet v := shared_value F sa f k in Ok (k, v)) (fm_shared F) = Ok l' /\ Forall2 (alike (may_be_empty F sa f)) l' sh) as (sh' & S1 & S2).
  { refine (mapM_alike (may_be_empty F sa f) _ (fun k => rlet v := shared_value F sa f k in Ok (k, v)) _ _ _ SH). intros k q Hk E. apply rbind_ok in E as (v & V & E). apply ok_inj in E as <-. unfold dict_item in V.
    destruct (dict_get a k) eqn:EG; [|discriminate]. apply ok_inj in V. subst. destruct (shared_like k v Hk EG) as (v1 & X1 & X2).
    exists (k, v1). rewrite X1. now split. }
  assert (exists l', mapM (fun p => rlet v := sgen_eval (root_arrays f) rec (snd p) in Ok (fst p, v)) (fm_site_gen F) = Ok l' /\ Forall2 (alike (may_be_empty F sa f)) l' sp) as (sp' & P1 & P2).
  { refine (mapM_alike (may_be_empty F sa f) _ (fun p => rlet v := sgen_eval (root_arrays f) rec (snd p) in Ok (fst p, v)) _ _ _ SP). intros p q Hp E. exists q. rewrite (sgen_same rec p Hp). split; [exact E|apply alike_refl]. }
  assert (exists l', mapM (fun k => rlet v := file_item F f rec k in Ok (k, v)) u = Ok l' /\ Forall2 (alike (may_be_empty F sa f)) l' un) as (un' & U1 & U2).
  { refine (mapM_alike (may_be_empty F sa f) _ (fun k => rlet v := file_item F f rec k in Ok (k, v)) _ _ _ UN). intros k q Hk E. apply rbind_ok in E as (v & V & E). apply ok_inj in E as <-. exists (k, v).
    rewrite (item_like rec k v Hk V). split; [reflexivity|apply alike_refl]. }
  rewrite S1. cbn [rbind]. rewrite P1. cbn [rbind]. rewrite U1. cbn [rbind]. eexists. split; [reflexivity|].
  apply alike_update; [apply alike_update; [apply alike_update; [constructor|exact S2]|exact P2]|exact U2].
Qed.
End ToSite.

(** ** The check of one record *)

Lemma set_diff_nil a b : set_diff a b = [] <-> forall k, In k a -> In k b.
Proof.
  split.
  - intros H k Hk. destruct (str_mem k b) eqn:E; [now apply str_mem_In|]. exfalso.
    assert (C : In k (set_diff a b)) by (apply in_set_diff; split; [exact Hk|]; intros C; apply str_mem_In in C; congruence).
    rewrite H in C. destruct C.
  - intros H. destruct (set_diff a b) as [|k l] eqn:E; [reflexivity|]. exfalso.
    assert (C : In k (set_diff a b)) by (rewrite E; now left). apply in_set_diff in C as [C1 C2]. auto.
Qed.
Lemma set_union_nil a b : set_union a b = [] <-> a = [] /\ b = [].
Proof.
  unfold set_union. split.
  - intros H. apply app_eq_nil in H as [-> H]. split; [reflexivity|]. unfold set_diff in H. cbn in H.
    destruct b; [reflexivity|discriminate].
  - intros [-> ->]. reflexivity.
Qed.
Lemma wrong_datasets_nil ds r : wrong_datasets false ds r = Ok [] <->
  forall k ty, In (k, ty) ds -> exists v, dict_item r k = Ok v /\ bdtype v = Some ty.
Proof.
  induction ds as [|[k ty] ds IH]; cbn [wrong_datasets].
  - split; [intros _ k ty []|reflexivity].
  - split.
    + intros H. apply rbind_ok in H as (v & V & H). destruct (bdtype v) as [d|] eqn:ED; [|discriminate].
      apply rbind_ok in H as (rest & R & H). apply ok_inj in H. destruct (btype_eqb d ty) eqn:EB; cbn in H; [|discriminate].
      subst rest. apply btype_eqb_eq in EB. subst d. intros k' ty' [[= <- <-]|H]; [eauto|]. now apply IH.
    + intros H. destruct (H k ty (or_introl eq_refl)) as (v & V & D). rewrite V. cbn [rbind]. rewrite D.
      rewrite (proj2 IH) by (intros k' ty' H'; apply H; now right). cbn [rbind]. now rewrite (proj2 (btype_eqb_eq ty ty) eq_refl).
Qed.
Lemma zlen_perm {A} (l l' : list A) : Permutation l l' -> zlen l = zlen l'.
Proof. intros H. unfold zlen. now rewrite (Permutation_length H). Qed.

Lemma check_perm sa sd sd' r : Permutation sd sd' -> check_record sa sd r = Ok tt -> check_record sa sd' r = Ok tt.
Proof.
  intros HP H. unfold check_record in *. apply rbind_ok in H as ([] & H1 & H). apply rbind_ok in H as ([] & H2 & H).
  assert (KP : forall k, In k (map fst sd) <-> In k (map fst sd')).
  { intros k. split; apply Permutation_in; [|symmetry]; now apply Permutation_map. }
  assert (M : missing_field_check sa sd' (map fst r) = Ok tt).
  { unfold missing_field_check in *. cbv zeta in *. rewrite <- (zlen_perm _ _ HP). destruct (_ =? _) eqn:E1 in H1; [discriminate|].
    rewrite zlen_pos in H1. destruct (set_union _ _) eqn:E2 in H1; [|discriminate]. rewrite E2 in E1.
    apply set_union_nil in E2 as [E2 E3]. pose proof (proj1 (set_diff_nil _ _) E3) as E3'.
    assert (E4 : set_diff (map fst sd') (map fst r) = []) by (apply set_diff_nil; intros k Hk; apply E3', KP, Hk).
    rewrite (proj2 (set_union_nil _ _) (conj E2 E4)). rewrite E1. reflexivity. }
  assert (X : extra_field_check sa sd' (map fst r) = Ok tt).
  { unfold extra_field_check in *. cbv zeta in *. rewrite zlen_pos in H2. destruct (set_diff _ _) eqn:E in H2; [|discriminate].
    rewrite (proj2 (set_diff_nil (map fst r) (dict_list2set sa sd'))); [reflexivity|]. intros k Hk. apply (proj1 (set_diff_nil _ _)) with (k := k) in E; [|exact Hk].
    unfold dict_list2set in *. apply in_set_union in E. apply in_set_union. destruct E; [now left|right; now apply KP]. }
  rewrite M, X. cbn [rbind]. unfold record_incorrect_types_check in *. apply rbind_ok in H as (w1 & W1 & H). apply rbind_ok in H as (w2 & W2 & H).
  cbv zeta in H. rewrite zlen_pos in H. destruct (set_union w1 w2) eqn:E; [|discriminate]. apply set_union_nil in E as [-> ->].
  rewrite W1. cbn [rbind]. rewrite (proj2 (wrong_datasets_nil sd' r)); [reflexivity|]. intros k ty Hk. apply (proj1 (wrong_datasets_nil sd r) W2).
  eapply Permutation_in; [symmetry; exact HP|exact Hk].
Qed.

Lemma check_single sa sd n r : check_records sa sd [(n, r)] = Ok tt <-> check_record sa sd r = Ok tt.
Proof.
  unfold check_records. cbn [check_loop]. destruct (check_record sa sd r) as [[]|[]]; cbn; split; congruence.
Qed.

Lemma array_nodup g t : has_structures t -> NoDup (keys (fm_array (format_class g t))).
Proof. unfold has_structures. destruct t; [| | |congruence]; intros _; apply nodupb_ok; destruct g; vm_compute; reflexivity. Qed.

Lemma record_passes g t sa n r : has_structures t -> site_single_element_types (format_class g t) = Ok sa -> NoDup (keys r) ->
  BorealisSpec.site_record_ok (format_class g t) r -> check_records sa (fm_array (format_class g t)) [(n, r)] = Ok tt.
Proof.
  intros HT E1 HN HO. destruct (site_tables g t HT) as (sa' & sd & E1' & E2 & Na & Nd & Dj & HA & HD & HNE).
  assert (sa' = sa) by congruence. subst sa'. apply check_single, (check_perm sa sd).
  - apply NoDup_Permutation; [now apply NoDup_map_inv in Nd|eapply NoDup_map_inv, (array_nodup g t HT)|].
    intros [k ty]. apply HD.
  - assert (C : check_site_records (format_class g t) [(n, r)] = Ok tt).
    { apply (site_check_iff g t); [exact HT| |].
      - split; [constructor; [intros []|constructor]|]. intros m q [[= <- <-]|[]]. exact HN.
      - intros m q [[= <- <-]|[]]. exact HO. }
    unfold check_site_records in C. rewrite E1, E2 in C. cbn [rbind] in C. now apply check_single in C.
Qed.
