(** Proofs about the field checks of SDarnUtilities (SDarnUtilSpec). *)
From Coq Require Import ZArith List Bool Lia.
From Verif Require Import Base BytesProofs DmapTypes DmapFileProofs SDarnFormats SDarn SDarnChecks SDarnUtilSpec.
Import ListNotations.
Open Scope Z_scope.

Lemma group_eqb_same g o : dictionary g -> dictionary o -> (group_eqb g o = true <-> same_group g o).
Proof.
  intros HG HO. unfold group_eqb, same_group. rewrite andb_true_iff, forallb_forall, Z.eqb_eq. split.
  - intros [HL HF].
    assert (I : incl g o).
    { intros [k f] H. specialize (HF (k, f) H). cbn [fst snd] in HF.
      destruct (dict_get o k) as [f'|] eqn:E; [|discriminate]. apply fmt_eqb_eq in HF. subst f'.
      now apply dict_get_In. }
    intros k f. split; [apply I|]. intros H.
    assert (N : NoDup g) by (eapply NoDup_map_inv; exact HG).
    apply (NoDup_length_incl (l' := o) N); auto. unfold zlen in HL. lia.
  - intros H. assert (N1 : NoDup g) by (eapply NoDup_map_inv; exact HG).
    assert (N2 : NoDup o) by (eapply NoDup_map_inv; exact HO). split.
    + assert (I1 : incl g o) by (intros [k f] X; now apply H).
      assert (I2 : incl o g) by (intros [k f] X; now apply H).
      pose proof (NoDup_incl_length N1 I1). pose proof (NoDup_incl_length N2 I2). unfold zlen. lia.
    + intros [k f] X. cbn [fst snd]. apply H in X. apply (dict_get_nodup o k f HO) in X. rewrite X.
      now apply fmt_eqb_eq.
Qed.

Lemma missing_iff gs opts r k : Forall dictionary gs -> Forall dictionary opts ->
  (In k (missing_fields gs (map fst r) opts) <-> missing gs opts r k).
Proof.
  intros HG HO. rewrite Forall_forall in HG, HO. rewrite missing_fields_In. unfold missing.
  assert (E : forall g, In g gs -> (existsb (group_eqb g) opts = false <-> forall o, In o opts -> ~ same_group g o)).
  { intros g Hg. rewrite <- not_true_iff_false, existsb_exists. split.
    - intros N o Ho S. apply N. exists o. split; auto. apply group_eqb_same; auto.
    - intros N (o & Ho & S). apply (N o Ho). apply group_eqb_same; auto. }
  split.
  - intros (g & k' & H1 & H2 & H3 & H4 & H5 & H6). exists g. splits; auto; [now apply E|]. exists k'. auto.
  - intros (g & H1 & H2 & H3 & H4 & k' & H5 & H6). exists g, k'. splits; auto. now apply E.
Qed.

Lemma missing_check gs opts r n : Forall dictionary gs -> Forall dictionary opts ->
  (missing_field_check gs r n opts = Ok tt <-> forall k, ~ missing gs opts r k) /\
  (forall e, missing_field_check gs r n opts = Raise e ->
     exists l, e = SuperDARNFieldMissingError n l /\ l <> [] /\ forall k, In k l <-> missing gs opts r k).
Proof.
  intros HG HO. unfold missing_field_check. set (l := missing_fields gs (map fst r) opts).
  assert (I : forall k, In k l <-> missing gs opts r k) by (intros k; now apply missing_iff).
  destruct l as [|x l].
  - cbn. split; [|discriminate]. split; auto. intros _ k H. now apply I in H.
  - replace (0 <? zlen (x :: l)) with true by (unfold zlen; cbn [length]; lia). split.
    + split; [discriminate|]. intros H. exfalso. apply (H x). apply I. left. reflexivity.
    + intros e [= <-]. exists (x :: l). splits; auto. discriminate.
Qed.

Lemma extra_check gs r n :
  (gs = [] -> extra_field_check gs r n = Raise TypeError) /\
  (gs <> [] -> (extra_field_check gs r n = Ok tt <-> forall k, ~ extra gs r k) /\
     forall e, extra_field_check gs r n = Raise e ->
       exists l, e = SuperDARNExtraFieldError n l /\ l <> [] /\ forall k, In k l <-> extra gs r k).
Proof.
  split; [intros ->; reflexivity|]. intros HG. unfold extra_field_check.
  assert (S : dict_list2set gs = Ok (flat_map (map fst) gs)) by (destruct gs; [contradiction|reflexivity]).
  rewrite S. cbn [rbind]. set (l := dict_key_diff (map fst r) (flat_map (map fst) gs)).
  assert (I : forall k, In k l <-> extra gs r k).
  { intros k. unfold l, extra. rewrite key_diff_In, in_flat_map. split; intros [H1 H2]; split; auto.
    - intros g Hg C. apply H2. eauto.
    - intros (g & Hg & C). exact (H2 g Hg C). }
  destruct l as [|x l].
  - cbn. split; [|discriminate]. split; auto. intros _ k H. now apply I in H.
  - replace (0 <? zlen (x :: l)) with true by (unfold zlen; cbn [length]; lia). split.
    + split; [discriminate|]. intros H. exfalso. apply (H x). apply I. left. reflexivity.
    + intros e [= <-]. exists (x :: l). splits; auto. discriminate.
Qed.

(** ** Types *)

Lemma update_get (g : group) d k :
  dictionary g ->
  dict_get (fold_left (fun d p => dict_set d (fst p) (snd p)) g d) k =
  match dict_get g k with Some f => Some f | None => dict_get d k end.
Proof.
  revert d. induction g as [|[k0 f0] g IH]; intros d HN; cbn [fold_left fst snd dict_get]; [reflexivity|].
  inversion HN as [|x l H1 H2]; subst. rewrite IH by exact H2. rewrite dict_get_set.
  destruct (str_eqb k0 k) eqn:E; [|reflexivity]. apply str_eqb_eq in E. subst k0.
  destruct (dict_get g k) as [f|] eqn:EG; [|reflexivity]. exfalso. apply H1.
  apply dict_get_In in EG. apply in_map_iff. exists (k, f). auto.
Qed.

Lemma complete_get gs k : Forall dictionary gs ->
  match dict_get (complete_dict gs) k with
  | Some f => declares gs k f
  | None => forall g, In g gs -> ~ In k (map fst g)
  end.
Proof.
  induction gs as [|g gs IH] using rev_ind; intros HD.
  - cbn. intros g [].
  - apply Forall_app in HD as [HD HG]. inversion HG as [|x l HG1 _]; subst.
    assert (E0 : complete_dict (gs ++ [g]) = fold_left (fun d p => dict_set d (fst p) (snd p)) g (complete_dict gs))
      by (unfold complete_dict; now rewrite fold_left_app).
    rewrite E0, (update_get g _ k HG1). specialize (IH HD).
    destruct (dict_get g k) as [f|] eqn:E.
    + exists gs, g, []. splits; auto. now apply dict_get_In.
    + apply dict_get_none in E.
      destruct (dict_get (complete_dict gs) k) as [f|].
      * destruct IH as (pre & g0 & post & -> & H1 & H2). exists pre, g0, (post ++ [g]).
        rewrite <- app_assoc. splits; auto. intros g' H. apply in_app_iff in H. destruct H as [H|H]; [auto|]. destruct H as [<-|[]]; auto.
      * intros g' H. apply in_app_iff in H. destruct H as [H|H]; [auto|]. destruct H as [<-|[]]; auto.
Qed.

Lemma declares_in gs k f : declares gs k f -> exists g, In g gs /\ In k (map fst g).
Proof.
  intros (pre & g & post & -> & H & _). exists g. split; [apply in_elt|]. apply in_map_iff. exists (k, f). auto.
Qed.

Lemma declares_unique gs k f f' : Forall dictionary gs -> declares gs k f -> declares gs k f' -> f = f'.
Proof.
  intros HD H H'.
  assert (U : forall x, declares gs k x -> dict_get (complete_dict gs) k = Some x); [|pose proof (U f H); pose proof (U f' H'); congruence].
  clear f f' H H'. intros x (pre & g & post & -> & H1 & H2).
  apply Forall_app in HD as [_ HD]. inversion HD as [|y l HG HP]; subst.
  unfold complete_dict. rewrite fold_left_app. cbn [fold_left].
  assert (S : forall l d, Forall dictionary l -> (forall g', In g' l -> ~ In k (map fst g')) ->
     dict_get (fold_left (fun d g => fold_left (fun d p => dict_set d (fst p) (snd p)) g d) l d) k = dict_get d k).
  { induction l as [|g0 l IH]; intros d HF HN; cbn [fold_left]; auto. inversion HF; subst.
    rewrite IH; auto; [|intros g' Hg; apply HN; now right]. rewrite update_get by assumption.
    rewrite (proj2 (dict_get_none g0 k)); auto. apply HN. now left. }
  rewrite S by auto. rewrite (update_get g _ k HG).
  now rewrite (proj2 (dict_get_nodup g k x HG) H1).
Qed.

Lemma item_format it f : item_fmt it = Some f <-> format_of it f.
Proof. destruct it; cbn; split; intros H; try congruence; try contradiction. Qed.

Lemma wrong_cases gs r : Forall dictionary gs ->
  (Forall (comparable gs) r /\
   exists l, wrong_types (complete_dict gs) r = Ok l /\
     exists q, l = map fst (filter q r) /\ (forall p, In p r -> (q p = true <-> mistyped gs p))) \/
  (exists pre k it post, r = pre ++ (k, it) :: post /\ Forall (comparable gs) pre /\
     ((exists v, it = IPlain v) /\ wrong_types (complete_dict gs) r = Raise AttributeError \/
      (exists f, format_of it f) /\ (forall g, In g gs -> ~ In k (map fst g)) /\
        wrong_types (complete_dict gs) r = Raise KeyError)).
Proof.
  intros HD. induction r as [|[k it] r IH]; cbn [wrong_types].
  - left. split; [constructor|]. exists []. split; auto. exists (fun _ => true). split; auto. intros p [].
  - destruct (item_fmt it) as [f|] eqn:EI.
    2: { right. exists [], k, it, r. splits; auto. left. destruct it; try discriminate. eauto. }
    assert (HF : format_of it f) by (now apply item_format).
    pose proof (complete_get gs k HD) as C. destruct (dict_get (complete_dict gs) k) as [d|].
    2: { right. exists [], k, it, r. splits; auto. right. splits; eauto. }
    assert (HC : comparable gs (k, it)) by (split; [eauto|now apply declares_in in C]).
    destruct IH as [(HR & l & -> & ps & -> & HP)|(pre & k0 & it0 & post & -> & H1 & H2)].
    + left. split; [now constructor|]. cbn [rbind].
      assert (M : mistyped gs (k, it) <-> fmt_eqb f d = false).
      { rewrite <- not_true_iff_false, fmt_eqb_eq. split.
        - intros (f' & d' & M1 & M2 & M3) ->. cbn [fst snd] in *. apply item_format in M1. rewrite EI in M1.
          injection M1 as <-. apply M3. eapply declares_unique; eauto.
        - intros N. exists f, d. auto. }
      set (w := if fmt_eqb f d then map fst (filter ps r) else k :: map fst (filter ps r)).
      exists w. split; [reflexivity|].
      set (q := fun p : pystr * item => match item_fmt (snd p), dict_get (complete_dict gs) (fst p) with
                  | Some f, Some d => negb (fmt_eqb f d) | _, _ => false end).
      assert (Q : forall p, In p ((k, it) :: r) -> (q p = true <-> mistyped gs p)).
      { intros [k1 it1] Hp. unfold q. cbn [fst snd]. pose proof (complete_get gs k1 HD) as C1.
        assert (HC1 : comparable gs (k1, it1)).
        { destruct Hp as [Hp|Hp]; [rewrite <- Hp; exact HC|]. rewrite Forall_forall in HR. now apply HR. }
        destruct HC1 as [[f1 F1] (g & G1 & G2)]. cbn [fst snd] in *. pose proof F1 as F1'. apply item_format in F1. rewrite F1.
        destruct (dict_get (complete_dict gs) k1) as [d1|]; [|now destruct (C1 g G1)].
        rewrite negb_true_iff, <- not_true_iff_false, fmt_eqb_eq. split.
        - intros N. exists f1, d1. auto.
        - intros (f' & d' & M1 & M2 & M3) E. subst d1. cbn [fst snd] in *. apply item_format in M1. rewrite F1 in M1.
          injection M1 as <-. apply M3. eapply declares_unique; eauto. }
      exists q. split; [|exact Q]. unfold w.
      assert (S : filter ps r = filter q r).
      { apply filter_ext_in. intros p Hp. specialize (HP p Hp). specialize (Q p (or_intror Hp)).
        destruct (ps p), (q p); auto; intuition discriminate. }
      rewrite S. cbn [filter]. destruct (q (k, it)) eqn:EQ.
      * apply Q in EQ; [|now left]. apply M in EQ. rewrite EQ. reflexivity.
      * destruct (fmt_eqb f d) eqn:E; [reflexivity|]. assert (X : mistyped gs (k, it)) by (now apply M).
        apply (Q (k, it) (or_introl eq_refl)) in X. congruence.
    + right. exists ((k, it) :: pre), k0, it0, post. splits; auto.
      destruct H2 as [[H2 ->]|(H2 & H3 & ->)]; [left|right]; splits; auto.
Qed.


Lemma types_check gs r n : Forall dictionary gs ->
  (incorrect_types_check gs r n = Ok tt <-> Forall (fun p => comparable gs p /\ ~ mistyped gs p) r) /\
  (incorrect_types_check gs r n = Raise AttributeError <->
     exists pre k v post, r = pre ++ (k, IPlain v) :: post /\ Forall (comparable gs) pre) /\
  (incorrect_types_check gs r n = Raise KeyError <->
     exists pre k it post, r = pre ++ (k, it) :: post /\ Forall (comparable gs) pre /\
       (exists f, format_of it f) /\ forall g, In g gs -> ~ In k (map fst g)) /\
  (forall e, incorrect_types_check gs r n = Raise e -> e <> AttributeError -> e <> KeyError ->
     Forall (comparable gs) r /\
     exists q, e = SuperDARNDataFormatTypeError (map fst (filter q r)) n /\ filter q r <> [] /\
       forall p, In p r -> (q p = true <-> mistyped gs p)).
Proof.
  intros HD. unfold incorrect_types_check.
  (* the first field that cannot be compared is unique *)
  assert (U : forall pre x post, r = pre ++ x :: post -> ~ comparable gs x -> Forall (comparable gs) r -> False).
  { intros pre x post -> N H. apply N. rewrite Forall_forall in H. apply H. apply in_elt. }
  assert (UU : forall pre x post pre' x' post', r = pre ++ x :: post -> r = pre' ++ x' :: post' ->
     Forall (comparable gs) pre -> Forall (comparable gs) pre' -> ~ comparable gs x -> ~ comparable gs x' -> x = x').
  { intros pre x post pre' x' post' -> H. clear U. revert pre' H. induction pre as [|y pre IH]; intros [|y' pre'] H F F' N N'; cbn [app] in H.
    - congruence.
    - injection H as -> _. inversion F'; contradiction.
    - injection H as -> _. inversion F; contradiction.
    - injection H as _ H. inversion F; inversion F'; subst. eapply IH; eauto. }
  assert (NP : forall k v, ~ comparable gs (k, IPlain v)) by (intros k v [[f []] _]).
  assert (NK : forall k it, (forall g, In g gs -> ~ In k (map fst g)) -> ~ comparable gs (k, it)).
  { intros k it H [_ (g & G1 & G2)]. exact (H g G1 G2). }
  destruct (wrong_cases gs r HD) as [(HC & l & -> & q & -> & HQ)|(pre & k & it & post & HR & HP & HX)].
  - cbn [rbind].
    assert (A1 : ~ exists pre k v post, r = pre ++ (k, IPlain v) :: post /\ Forall (comparable gs) pre).
    { intros (pre & k & v & post & E & _). eapply U; eauto. }
    assert (A2 : ~ exists pre k it post, r = pre ++ (k, it) :: post /\ Forall (comparable gs) pre /\
       (exists f, format_of it f) /\ forall g, In g gs -> ~ In k (map fst g)).
    { intros (pre & k & it & post & E & _ & _ & H). eapply U; eauto. }
    assert (A3 : zlen (map fst (filter q r)) = zlen (filter q r)) by (unfold zlen; now rewrite map_length).
    rewrite A3. destruct (filter q r) as [|x xs] eqn:EF.
    + cbn. splits; try (split; [discriminate|tauto]); try discriminate. split; auto. intros _.
      apply Forall_forall. intros p Hp. split; [rewrite Forall_forall in HC; auto|]. intros C. apply HQ in C; auto.
      assert (In p (filter q r)) by (apply filter_In; auto). rewrite EF in H. destruct H.
    + replace (0 <? zlen (x :: xs)) with true by (unfold zlen; cbn [length]; lia).
      splits; try (split; [discriminate|tauto]).
      * split; [discriminate|]. intros H. exfalso. assert (X : In x (filter q r)) by (rewrite EF; now left).
        apply filter_In in X as [X1 X2]. rewrite Forall_forall in H. apply (H x X1). now apply HQ.
      * intros e [= <-] _ _. split; auto. exists q. rewrite EF. splits; auto. discriminate.
  - assert (NC : ~ comparable gs (k, it)).
    { destruct HX as [[[v ->] _]|(_ & H & _)]; auto. }
    assert (B1 : ~ Forall (fun p => comparable gs p /\ ~ mistyped gs p) r).
    { intros H. apply (U _ _ _ HR NC). eapply Forall_impl; [|exact H]. intros p [X _]. exact X. }
    destruct HX as [[[v HV] ->]|(HF & HK & ->)]; cbn [rbind].
    + splits.
      * split; [discriminate|tauto].
      * split; auto. intros _. subst it. exists pre, k, v, post. auto.
      * split; [discriminate|]. intros (pre' & k' & it' & post' & E & F' & [f Hf] & H). exfalso.
        assert (X : (k, it) = (k', it')) by (eapply UU; eauto). injection X as -> ->. subst it'. exact Hf.
      * intros e [= <-] H. contradiction.
    + splits.
      * split; [discriminate|tauto].
      * split; [discriminate|]. intros (pre' & k' & v & post' & E & F'). exfalso.
        assert (X : (k, it) = (k', IPlain v)) by (eapply UU; eauto). injection X as -> ->. destruct HF as [f []].
      * split; auto. intros _. exists pre, k, it, post. auto.
      * intros e [= <-] _ H. contradiction.
Qed.
