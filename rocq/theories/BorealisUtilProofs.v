(** Lemmas about the checks of BorealisUtilities for any tables. *)
From Coq Require Import String ZArith List Bool Lia.
From Verif Require Import Base Bytes BytesProofs DmapFileProofs SDarnFormats SDarnChecks
  BorealisTypes BorealisFormats BorealisChecks BorealisSpec BorealisCheckProofs BorealisUtil BorealisUtilSpec.
Import ListNotations.
Open Scope list_scope.
Open Scope Z_scope.

(** ** Sets *)
Lemma in_set_of k l : In k (set_of l) <-> In k l.
Proof.
  induction l as [|x l IH]; cbn [set_of In]; [tauto|]. rewrite filter_In, IH.
  destruct (str_eqb k x) eqn:E; cbn [negb].
  - apply str_eqb_eq in E. subst. intuition.
  - intuition congruence.
Qed.
Lemma set_of_nodup l : NoDup (set_of l).
Proof.
  induction l as [|x l IH]; cbn [set_of]; constructor.
  - rewrite filter_In. intros [_ H]. rewrite str_eqb_refl in H. discriminate.
  - now apply NoDup_filter.
Qed.
Lemma set_of_id l : NoDup l -> set_of l = l.
Proof.
  induction 1 as [|x l H HN IH]; auto. cbn [set_of]. rewrite IH. f_equal. clear IH HN.
  induction l as [|y l IH]; auto. cbn [filter]. destruct (str_eqb y x) eqn:E.
  - apply str_eqb_eq in E. subst. exfalso. apply H. now left.
  - cbn [negb]. f_equal. apply IH. intros H'. apply H. now right.
Qed.
Lemma in_names_diff k a b : In k (names_diff a b) <-> In k a /\ ~ In k b.
Proof. unfold names_diff. now rewrite in_set_diff, !in_set_of. Qed.
Lemma names_diff_nodup a b : NoDup (names_diff a b).
Proof. apply set_diff_nodup, set_of_nodup. Qed.
Lemma set_union_nodup a b : NoDup a -> NoDup b -> NoDup (set_union a b).
Proof.
  unfold set_union. intros HA HB. induction HA as [|x a Hx HA IH].
  - cbn. now apply set_diff_nodup.
  - assert (H : forall l : list pystr, NoDup l -> forall m, NoDup m -> (forall k, In k l -> ~ In k m) -> NoDup (l ++ m)).
    { clear. induction 1 as [|x l Hx HN IH]; intros m Hm Hd; auto. cbn. constructor.
      - rewrite in_app_iff. intros [H|H]; [auto|]. apply (Hd x); [now left|exact H].
      - apply IH; auto. intros k Hk. apply Hd. now right. }
    apply H; [now constructor|now apply set_diff_nodup|].
    intros k H1 H2. apply in_set_diff in H2. tauto.
Qed.

(** ** Missing fields *)
Lemma missing_loop tables names : forall s,
  (NoDup s -> NoDup (fold_left (fun s t =>
    let diff := names_diff (map fst t) names in
    if negb (zlen diff =? 0) then set_union s diff else s) tables s)) /\
  forall k, In k (fold_left (fun s t =>
    let diff := names_diff (map fst t) names in
    if negb (zlen diff =? 0) then set_union s diff else s) tables s) <->
    In k s \/ lacking tables names k.
Proof.
  induction tables as [|t ts IH]; intros s; cbn [fold_left].
  - split; auto. intros k. split; [auto|]. intros [H|[(t & [] & _) _]]; auto.
  - cbv zeta in *. set (s' := if negb _ then _ else _).
    assert (HS : (NoDup s -> NoDup s') /\ forall k, In k s' <-> In k s \/ (In k (keys t) /\ ~ In k names)).
    { subst s'. destruct (zlen _ =? 0) eqn:E; cbn [negb].
      - split; auto. intros k. split; auto. intros [H|H]; auto. exfalso.
        apply (in_names_diff k (map fst t) names) in H. apply Z.eqb_eq in E. unfold zlen in E.
        destruct (names_diff _ _); [destruct H|cbn in E; lia].
      - split; [intros H; apply set_union_nodup; auto using names_diff_nodup|].
        intros k. rewrite in_set_union, in_names_diff. reflexivity. }
    destruct HS as [HS1 HS2]. destruct (IH s') as [IH1 IH2]. split; [auto|].
    intros k. rewrite IH2, HS2. unfold lacking, declared. cbn [In]. split.
    + intros [[H|[H1 H2]]|[(u & H1 & H2) H3]]; [now left| |]; right; (split; [|assumption]); [exists t|exists u]; auto.
    + intros [H|[(u & [<-|H1] & H2) H3]]; [left; now left|left; right; auto|right; split; eauto].
Qed.
Lemma in_missing_fields tables names k : In k (missing_fields tables names) <-> lacking tables names k.
Proof. unfold missing_fields. destruct (missing_loop tables names []) as [_ H]. rewrite H. cbn. tauto. Qed.
Lemma missing_fields_nodup tables names : NoDup (missing_fields tables names).
Proof. unfold missing_fields. destruct (missing_loop tables names []) as [H _]. apply H. constructor. Qed.

Definition all_keys (tables : list (dict btype)) : list pystr := concat (map keys tables).

Lemma in_all_keys tables k : In k (all_keys tables) <-> declared tables k.
Proof.
  unfold all_keys, declared. rewrite in_concat. split.
  - intros (l & H1 & H2). apply in_map_iff in H1 as (t & <- & H1). eauto.
  - intros (t & H1 & H2). exists (keys t). split; auto. now apply in_map.
Qed.
Lemma reduce_lengths_ok tables : tables <> [] -> reduce_lengths tables = Ok (zlen (all_keys tables)).
Proof.
  destruct tables as [|t ts]; [congruence|]. intros _. cbn [reduce_lengths]. f_equal.
  assert (H : forall a, fold_left (fun a t => a + zlen t) ts a = a + zlen (all_keys ts)).
  { induction ts as [|u us IH]; intros a; cbn [fold_left].
    - cbn. lia.
    - rewrite IH. unfold all_keys. cbn [map concat]. rewrite zlen_app.
      assert (zlen (keys u) = zlen u) by (unfold zlen, keys; now rewrite map_length). unfold pystr in *. lia. }
  rewrite H. unfold all_keys. cbn [map concat]. rewrite zlen_app.
  f_equal. unfold zlen, keys. now rewrite map_length.
Qed.

Lemma nodup_app_iff {A} (l m : list A) :
  NoDup (l ++ m) <-> NoDup l /\ NoDup m /\ forall k, In k l -> ~ In k m.
Proof.
  induction l as [|x l IH]; cbn [app].
  - split; [intros H; repeat split; auto; constructor|tauto].
  - rewrite !NoDup_cons_iff, IH, in_app_iff. cbn [In]. split.
    + intros (H1 & H2 & H3 & H4). repeat split; auto. intros k [<-|Hk]; auto.
    + intros ((H1 & H2) & H3 & H4). repeat split; auto. intros [H|H]; auto. now apply (H4 x); [left|].
Qed.

Lemma apart_cons t ts : apart (t :: ts) <-> (forall k, In k (keys t) -> ~ declared ts k) /\ apart ts.
Proof.
  split.
  - intros H. split.
    + intros k Hk (u & Hu & Hk'). apply in_split in Hu as (m & p & ->). exact (H [] t m u p eq_refl k Hk Hk').
    + intros pre a m u post E. apply (H (t :: pre) a m u post). cbn. now rewrite E.
  - intros [H1 H2] pre a m u post E k Hk Hk'. destruct pre as [|x pre]; cbn in E; injection E as -> E.
    + apply (H1 k Hk). exists u. split; auto. rewrite E. apply in_app_iff. right. now left.
    + exact (H2 pre a m u post E k Hk Hk').
Qed.
Lemma all_keys_nodup tables : Forall (fun t => NoDup (keys t)) tables ->
  (NoDup (all_keys tables) <-> apart tables).
Proof.
  induction 1 as [|t ts Ht _ IH].
  - split; [|constructor]. intros _ [|x pre] a m u post E; discriminate.
  - rewrite apart_cons. unfold all_keys in *. cbn [map concat]. rewrite nodup_app_iff, IH. split.
    + intros (_ & H2 & H3). split; auto. intros k Hk Hd. apply (H3 k Hk). now apply in_all_keys.
    + intros (H1 & H2). repeat split; auto. intros k Hk Hd. apply (H1 k Hk). now apply in_all_keys.
Qed.

Lemma nothing_length tables names : Forall (fun t => NoDup (keys t)) tables ->
  ((zlen (missing_fields tables names) =? zlen (all_keys tables)) = true <-> nothing_there tables names).
Proof.
  intros HT. rewrite Z.eqb_eq. unfold zlen, nothing_there. rewrite <- (all_keys_nodup _ HT).
  assert (HI : incl (missing_fields tables names) (all_keys tables)).
  { intros k Hk. apply in_missing_fields in Hk as [Hk _]. now apply in_all_keys. }
  pose proof (missing_fields_nodup tables names) as HN. split.
  - intros HL. apply Nat2Z.inj in HL. split.
    + intros k Hk Hn. apply in_all_keys in Hk.
      apply (NoDup_length_incl HN) in HI; [|lia]. apply HI, in_missing_fields in Hk as [_ Hk]. auto.
    + apply (NoDup_incl_NoDup HN); auto. lia.
  - intros [H1 H2]. f_equal. apply Nat.le_antisymm; apply NoDup_incl_length; auto.
    intros k Hk. apply in_missing_fields. apply in_all_keys in Hk. split; auto.
Qed.

Theorem missing_names tables names : Forall (fun t => NoDup (keys t)) tables ->
  (tables = [] -> tables_missing_check tables names = Raise TypeError) /\
  (tables <> [] ->
    (tables_missing_check tables names = Ok tt <->
       (forall k, ~ lacking tables names k) /\ exists k, declared tables k) /\
    (tables_missing_check tables names = Raise BorealisStructureError <-> nothing_there tables names) /\
    (forall e, tables_missing_check tables names = Raise e -> e <> BorealisStructureError ->
       exists l, e = BorealisFieldMissingError l /\ l <> [] /\ NoDup l /\ lists l (lacking tables names))).
Proof.
  intros HT. split; [intros ->; reflexivity|]. intros HE.
  unfold tables_missing_check. rewrite (reduce_lengths_ok _ HE). cbn [rbind].
  pose proof (nothing_length tables names HT) as HZ.
  pose proof (missing_fields_nodup tables names) as HN.
  assert (HL : lists (missing_fields tables names) (lacking tables names)) by (intros k; apply in_missing_fields).
  destruct (_ =? _) eqn:E.
  - assert (HA : nothing_there tables names) by (apply HZ; reflexivity). splits.
    + split; [discriminate|]. intros [H1 (k & Hk)]. exfalso. apply (H1 k). split; auto. now apply HA.
    + tauto.
    + intros e [= <-]. congruence.
  - assert (HA : ~ nothing_there tables names) by (intros H; apply HZ in H; discriminate).
    rewrite zlen_pos. destruct (missing_fields tables names) as [|x l] eqn:EM.
    + assert (H0 : forall k, ~ lacking tables names k) by (intros k H; apply HL in H; destruct H). splits.
      * split; auto. intros _. split; auto.
        destruct (all_keys tables) as [|k ks] eqn:EK; [discriminate|].
        exists k. apply in_all_keys. rewrite EK. now left.
      * split; [discriminate|tauto].
      * discriminate.
    + splits.
      * split; [discriminate|]. intros [H _]. exfalso. apply (H x), HL. now left.
      * split; [discriminate|tauto].
      * intros e [= <-] _. exists (x :: l). splits; auto. discriminate.
Qed.

(** ** Extra fields *)
Lemma in_tables2set tables s : tables2set tables = Ok s -> forall k, In k s <-> declared tables k.
Proof.
  assert (H : forall ts s k, In k (fold_left (fun s t => set_union s (map fst t)) ts s) <-> In k s \/ declared ts k).
  { clear. induction ts as [|t ts IH]; intros s k; cbn [fold_left].
    - split; auto. intros [H|(t & [] & _)]; auto.
    - rewrite IH, in_set_union. unfold declared, keys. cbn [In]. split.
      + intros [[H|H]|(u & H1 & H2)]; [now left| |]; right; [exists t|exists u]; auto.
      + intros [H|(u & [<-|H1] & H2)]; [left; now left|left; now right|right; eauto]. }
  unfold tables2set. intros E k. destruct tables as [|t ts]; [discriminate|]. injection E as <-.
  specialize (H (t :: ts) [] k). cbn [In] in H. rewrite H. tauto.
Qed.

Theorem extra_names tables names :
  (tables = [] -> tables_extra_check tables names = Raise TypeError) /\
  (tables <> [] ->
    (tables_extra_check tables names = Ok tt <-> forall k, ~ unknown tables names k) /\
    (forall e, tables_extra_check tables names = Raise e ->
       exists l, e = BorealisExtraFieldError l /\ l <> [] /\ NoDup l /\ lists l (unknown tables names))).
Proof.
  split; [intros ->; reflexivity|]. intros HE. unfold tables_extra_check.
  destruct (tables2set tables) as [s|e] eqn:ES; [|destruct tables; [congruence|discriminate]].
  cbn [rbind]. pose proof (in_tables2set _ _ ES) as HS.
  assert (HL : lists (names_diff names s) (unknown tables names)).
  { intros k. rewrite in_names_diff, HS. reflexivity. }
  pose proof (names_diff_nodup names s) as HN. rewrite zlen_pos.
  destruct (names_diff names s) as [|x l]; (split; [split|]).
  - intros _ k H. apply HL in H. destruct H.
  - reflexivity.
  - discriminate.
  - discriminate.
  - intros H. exfalso. apply (H x), HL. now left.
  - intros e [= <-]. exists (x :: l). splits; auto. discriminate.
Qed.

(** ** The checks of the readers and writers are these for two tables *)
Lemma set_diff_ext a b b' : (forall k, In k b <-> In k b') -> set_diff a b = set_diff a b'.
Proof.
  intros H. unfold set_diff. apply filter_ext. intros k. f_equal.
  specialize (H k). rewrite <- !str_mem_In in H. destruct (str_mem k b), (str_mem k b'); intuition congruence.
Qed.
Lemma names_diff_id a b : NoDup a -> names_diff a b = set_diff a b.
Proof. intros H. unfold names_diff. rewrite (set_of_id a H). apply set_diff_ext. intros k. apply in_set_of. Qed.
Lemma set_union_nil_l a : set_union [] a = a.
Proof. unfold set_union. cbn [app]. apply set_diff_full. intros k _ []. Qed.
Lemma set_union_nil_r a : set_union a [] = a.
Proof. unfold set_union. cbn. apply app_nil_r. Qed.
Lemma zlen_nil {A} (l : list A) : (zlen l =? 0) = true -> l = [].
Proof. unfold zlen. destruct l; auto. cbn. discriminate. Qed.

Theorem two_missing attrs dsets names : NoDup (keys attrs) -> NoDup (keys dsets) ->
  tables_missing_check [attrs; dsets] names = missing_field_check attrs dsets names.
Proof.
  intros HA HD. unfold tables_missing_check, missing_field_check, missing_fields. cbn [fold_left reduce_lengths rbind].
  fold (keys attrs) (keys dsets). rewrite (names_diff_id _ _ HA), (names_diff_id _ _ HD). cbv zeta.
  assert (H : forall s d, (if negb (zlen d =? 0) then set_union s d else s) = set_union s d).
  { intros s d. destruct (_ =? 0) eqn:E; auto. apply zlen_nil in E as ->. now rewrite set_union_nil_r. }
  now rewrite !H, set_union_nil_l.
Qed.
Theorem two_extra attrs dsets names : NoDup names ->
  tables_extra_check [attrs; dsets] names = extra_field_check attrs dsets names.
Proof.
  intros HN. unfold tables_extra_check, extra_field_check, tables2set, dict_list2set. cbn [fold_left rbind].
  now rewrite set_union_nil_l, (names_diff_id _ _ HN).
Qed.

(** ** Types of a record *)

(** The loop of both lists of wrong types: a first failure ends it. *)
Section Walk.
Context {A : Type} (f : A -> res bool) (name : A -> pystr).
Fixpoint walk (l : list A) : res (list pystr) :=
  match l with
  | [] => Ok []
  | x :: l' => rlet b := f x in rlet rest := walk l' in Ok (if b : bool then name x :: rest else rest)
  end.
Definition good (x : A) : Prop := exists b, f x = Ok b.

Lemma walk_cases l :
  match walk l with
  | Ok w => Forall good l /\ forall k, In k w <-> exists x, In x l /\ name x = k /\ f x = Ok true
  | Raise e => exists pre x post, l = pre ++ x :: post /\ Forall good pre /\ f x = Raise e
  end.
Proof.
  induction l as [|x l IH]; cbn [walk].
  - split; [constructor|]. intros k. split; [intros []|intros (x & [] & _)].
  - destruct (f x) as [b|e] eqn:E; cbn [rbind]; [|exists [], x, l; auto].
    destruct (walk l) as [w|e]; cbn [rbind].
    + destruct IH as [IH1 IH2]. split; [constructor; [now exists b|auto]|]. intros k. destruct b; cbn [In]; rewrite IH2.
      * split.
        -- intros [<-|(y & H)]; [exists x|exists y]; intuition.
        -- intros (y & [->|H1] & H2 & H3); [now left|right; eauto].
      * split.
        -- intros (y & H). exists y. intuition.
        -- intros (y & [->|H1] & H2 & H3); [congruence|eauto].
    + destruct IH as (pre & y & post & -> & H1 & H2). exists (x :: pre), y, post. splits; auto.
      constructor; auto. now exists b.
Qed.
Lemma walk_stop pre x post e : Forall good pre -> f x = Raise e -> walk (pre ++ x :: post) = Raise e.
Proof.
  intros H E. induction H as [|y pre (b & Hb) _ IH]; cbn [app walk].
  - now rewrite E.
  - rewrite Hb. cbn [rbind]. now rewrite IH.
Qed.
Lemma walk_good l : Forall good l -> exists w, walk l = Ok w.
Proof.
  induction 1 as [|x l (b & Hb) _ (w & IH)]; cbn [walk]; [eauto|]. rewrite Hb, IH. cbn [rbind]. eauto.
Qed.
Lemma walk_app a b : walk (a ++ b) = rlet u := walk a in rlet v := walk b in Ok (u ++ v).
Proof.
  induction a as [|x a IH]; cbn [app walk rbind].
  - now destruct (walk b).
  - rewrite IH. destruct (f x) as [c|]; cbn [rbind]; auto. destruct (walk a); cbn [rbind]; auto.
    destruct (walk b); cbn [rbind]; auto. now destruct c.
Qed.
End Walk.

(** The verdict on one line of the tables. *)
Definition line_wrong (r : brecord) (p : line) : res bool :=
  match p with
  | Attr k t =>
      rlet v := dict_item r k in
      if has_type v t then Ok false
      else match bshape v with None => Raise AttributeError | Some None => Ok false | Some (Some _) => Ok true end
  | Dset k t =>
      rlet v := dict_item r k in
      match bdtype v with None => Raise AttributeError | Some d => Ok (negb (btype_eqb d t)) end
  end.

Lemma wrong_attributes_walk attrs r :
  wrong_attributes attrs r = walk (line_wrong r) line_name (map (fun p => Attr (fst p) (snd p)) attrs).
Proof.
  induction attrs as [|[k t] l IH]; cbn [wrong_attributes map walk line_wrong fst snd line_name]; auto.
  rewrite IH. destruct (dict_item r k) as [v|]; cbn [rbind]; auto.
Qed.
Lemma wrong_datasets_walk dsets r :
  wrong_datasets false dsets r = walk (line_wrong r) line_name (map (fun p => Dset (fst p) (snd p)) dsets).
Proof.
  induction dsets as [|[k t] l IH]; cbn [wrong_datasets map walk line_wrong fst snd line_name]; auto.
  rewrite IH. destruct (dict_item r k) as [v|]; cbn [rbind]; auto.
  destruct (bdtype v) as [d|]; cbn [rbind]; auto.
  cbn [andb negb]. now rewrite andb_true_r.
Qed.
Lemma record_types_walk attrs dsets r :
  match walk (line_wrong r) line_name (all_lines attrs dsets) with
  | Ok w => exists w', (forall k, In k w' <-> In k w) /\
      record_incorrect_types_check attrs dsets r =
        match w' with [] => Ok tt | _ => Raise (BorealisDataFormatTypeError w') end
  | Raise e => record_incorrect_types_check attrs dsets r = Raise e
  end.
Proof.
  unfold record_incorrect_types_check, all_lines.
  rewrite wrong_attributes_walk, wrong_datasets_walk, walk_app.
  destruct (walk _ _ (map _ attrs)) as [a|]; cbn [rbind]; auto.
  destruct (walk _ _ (map _ dsets)) as [d|]; cbn [rbind]; auto.
  exists (set_union a d). split.
  - intros k. now rewrite in_set_union, in_app_iff.
  - rewrite zlen_pos. now destruct (set_union a d).
Qed.

Section Line.
Variable r : brecord.
Hypothesis NR : NoDup (keys r).
Lemma item_absent k : ~ In k (keys r) -> dict_item r k = Raise KeyError.
Proof.
  intros H. unfold dict_item. destruct (dict_get r k) eqn:E; auto. exfalso. apply H.
  apply dict_get_In in E. apply keys_in. eauto.
Qed.
Lemma item_present k v : In (k, v) r -> dict_item r k = Ok v.
Proof. intros H. unfold dict_item. apply (dict_in_get _ _ _ NR) in H. now rewrite H. Qed.
Lemma same_value k v v' : In (k, v) r -> In (k, v') r -> v = v'.
Proof. intros H H'. apply (dict_in_get _ _ _ NR) in H, H'. congruence. Qed.

(** What each verdict means. *)
Lemma line_cases p :
  match line_wrong r p with
  | Ok true => judged r p /\ ~ fits r p
  | Ok false => judged r p /\ fits r p
  | Raise KeyError => ~ In (line_name p) (keys r)
  | Raise AttributeError => In (line_name p) (keys r) /\ ~ judged r p
  | Raise _ => False
  end.
Proof.
  destruct p as [k t|k t]; cbn [line_wrong line_name].
  - destruct (in_dec (list_eq_dec Z.eq_dec) k (keys r)) as [HK|HK]; [|now rewrite (item_absent k HK)].
    apply keys_in in HK as HV. destruct HV as (v & HV). rewrite (item_present k v HV). cbn [rbind].
    destruct (has_type v t) eqn:ET.
    + destruct v; cbn [has_type] in ET; try discriminate; apply btype_eqb_eq in ET; subst.
      * split; [apply judged_attr with (1 := HV)|apply fits_attr with (1 := HV); constructor]. intros H; inversion H.
      * split; [apply judged_attr with (1 := HV)|apply fits_attr with (1 := HV); now constructor].
        intros H; inversion H; congruence.
    + assert (HF : fits r (Attr k t) -> attr_ok t v).
      { intros H. inversion H as [k' t' v' H1 H2|]; subst. now rewrite (same_value _ _ _ HV H1). }
      assert (HJ : judged r (Attr k t) -> ~ attr_foreign t v).
      { intros H. inversion H as [k' t' v' H1 H2|]; subst. now rewrite (same_value _ _ _ HV H1). }
      destruct v; cbn [bshape has_type] in *; try apply btype_eqb_neq in ET.
      * split; [apply judged_attr with (1 := HV); intros H; inversion H|].
        intros H. apply HF in H. inversion H; congruence.
      * split; auto. intros H. apply HJ in H. apply H. constructor. congruence.
      * split; [apply judged_attr with (1 := HV); intros H; inversion H|].
        intros H. apply HF in H. inversion H.
      * split; [apply judged_attr with (1 := HV); intros H; inversion H|apply fits_attr with (1 := HV); constructor].
      * split; auto. intros H. apply HJ in H. apply H. constructor.
  - destruct (in_dec (list_eq_dec Z.eq_dec) k (keys r)) as [HK|HK]; [|now rewrite (item_absent k HK)].
    apply keys_in in HK as HV. destruct HV as (v & HV). rewrite (item_present k v HV). cbn [rbind].
    destruct (bdtype v) as [d|] eqn:ED.
    + apply bdtype_np in ED. destruct (btype_eqb d t) eqn:E; cbn [negb].
      * apply btype_eqb_eq in E. subst. split; [apply judged_dset with (1 := HV) (2 := ED)|apply fits_dset with (1 := HV) (2 := ED)].
      * apply btype_eqb_neq in E. split; [apply judged_dset with (1 := HV) (2 := ED)|].
        intros H. inversion H as [|k' t' v' H1 H2]; subst. rewrite <- (same_value _ _ _ HV H1) in H2.
        apply bdtype_np in H2, ED. congruence.
    + split; auto. intros H. inversion H as [|k' t' v' t'' H1 H2]; subst. rewrite <- (same_value _ _ _ HV H1) in H2.
      apply bdtype_np in H2. congruence.
Qed.
Lemma line_good p : good (line_wrong r) p <-> judged r p.
Proof.
  pose proof (line_cases p) as H. unfold good. destruct (line_wrong r p) as [[]|e].
  - split; [tauto|eauto].
  - split; [tauto|eauto].
  - split; [intros (b & [=])|]. intros HJ. exfalso. destruct e; try tauto.
    destruct HJ; cbn [line_name] in H; apply H, keys_in; eauto.
Qed.
Lemma lines_good l : Forall (good (line_wrong r)) l <-> Forall (judged r) l.
Proof. split; intros H; (eapply Forall_impl; [|exact H]); intros p; apply line_good. Qed.
Lemma fits_judged p : fits r p -> judged r p.
Proof.
  intros H. pose proof (line_cases p) as HC. destruct H as [k t v H1 H2|k t v H1 H2].
  - apply judged_attr with (1 := H1). intros H. destruct H2; inversion H; congruence.
  - apply judged_dset with (1 := H1) (2 := H2).
Qed.
Lemma line_key p : line_wrong r p = Raise KeyError <-> ~ In (line_name p) (keys r).
Proof.
  split; [intros E; pose proof (line_cases p) as H; now rewrite E in H|].
  intros H. destruct p; cbn [line_name line_wrong] in *; now rewrite (item_absent _ H).
Qed.
Lemma line_attribute p : line_wrong r p = Raise AttributeError <-> In (line_name p) (keys r) /\ ~ judged r p.
Proof.
  split; [intros E; pose proof (line_cases p) as H; now rewrite E in H|].
  intros [H1 H2]. pose proof (line_cases p) as H. destruct (line_wrong r p) as [[]|[]]; tauto.
Qed.

Theorem record_types attrs dsets :
  (record_incorrect_types_check attrs dsets r = Ok tt <-> Forall (fits r) (all_lines attrs dsets)) /\
  (record_incorrect_types_check attrs dsets r = Raise KeyError <->
     exists pre p post, all_lines attrs dsets = pre ++ p :: post /\ Forall (judged r) pre /\
       ~ In (line_name p) (keys r)) /\
  (record_incorrect_types_check attrs dsets r = Raise AttributeError <->
     exists pre p post, all_lines attrs dsets = pre ++ p :: post /\ Forall (judged r) pre /\
       In (line_name p) (keys r) /\ ~ judged r p) /\
  (forall e, record_incorrect_types_check attrs dsets r = Raise e -> e <> KeyError -> e <> AttributeError ->
     Forall (judged r) (all_lines attrs dsets) /\
     exists l, e = BorealisDataFormatTypeError l /\ l <> [] /\
       lists l (fun k => exists p, In p (all_lines attrs dsets) /\ line_name p = k /\ ~ fits r p)).
Proof.
  pose proof (walk_cases (line_wrong r) line_name (all_lines attrs dsets)) as HW.
  pose proof (record_types_walk attrs dsets r) as HR.
  assert (HS : forall e pre p post, all_lines attrs dsets = pre ++ p :: post -> Forall (judged r) pre ->
    line_wrong r p = Raise e -> record_incorrect_types_check attrs dsets r = Raise e).
  { intros e pre p post E H1 H2. rewrite E in HR. rewrite (walk_stop _ _ _ _ _ e) in HR; auto. now apply lines_good. }
  destruct (walk _ _ (all_lines attrs dsets)) as [w|e].
  - destruct HW as [HG HW]. apply lines_good in HG. destruct HR as (w' & HE & HR).
    assert (HL : lists w' (fun k => exists p, In p (all_lines attrs dsets) /\ line_name p = k /\ ~ fits r p)).
    { intros k. rewrite HE, HW. split; intros (p & H1 & H2 & H3); exists p; splits; auto.
      - intros H. pose proof (line_cases p) as HC. rewrite H3 in HC. tauto.
      - pose proof (line_cases p) as HC. pose proof (proj1 (Forall_forall _ _) HG p H1) as HJ.
        apply line_good in HJ as (b & HJ). rewrite HJ in *. destruct b; tauto. }
    assert (NS : forall e pre p post, all_lines attrs dsets = pre ++ p :: post -> line_wrong r p = Raise e -> False).
    { intros e pre p post E H. rewrite E in HG. apply Forall_app in HG as [_ HG]. inversion HG as [|? ? HJ _]; subst.
      apply line_good in HJ as (b & HJ). congruence. }
    rewrite HR. splits.
    + split.
      * intros H. destruct w' as [|x w']; [|discriminate]. apply Forall_forall. intros p Hp.
        pose proof (line_cases p) as HC. pose proof (proj1 (Forall_forall _ _) HG p Hp) as HJ.
        apply line_good in HJ as (b & HJ). rewrite HJ in HC. destruct b; [|tauto].
        exfalso. apply (HL (line_name p)). exists p. tauto.
      * intros H. destruct w' as [|x w']; auto. exfalso.
        destruct (proj1 (HL x) (or_introl eq_refl)) as (p & H1 & _ & H3). apply H3. now apply (proj1 (Forall_forall _ _) H).
    + split; [destruct w'; discriminate|]. intros (pre & p & post & E & _ & H). exfalso. apply line_key in H. eauto.
    + split; [destruct w'; discriminate|]. intros (pre & p & post & E & _ & H). exfalso. apply line_attribute in H. eauto.
    + intros e H _ _. split; auto. exists w'. destruct w' as [|x w']; [discriminate|].
      assert (e = BorealisDataFormatTypeError (x :: w')) by congruence. splits; auto. discriminate.
  - destruct HW as (pre & p & post & E & H1 & H2). apply lines_good in H1. rewrite HR.
    assert (HN : ~ judged r p) by (intros H; apply line_good in H as (b & H); congruence).
    splits.
    + split; [discriminate|]. intros H. exfalso. rewrite E in H. apply Forall_app in H as [_ H].
      inversion H as [|? ? HJ _]; subst. apply HN. now apply fits_judged.
    + split.
      * intros H. assert (e = KeyError) by congruence. subst. exists pre, p, post. splits; auto. now apply line_key.
      * intros (pre' & p' & post' & E' & H1' & H2'). apply line_key in H2'. rewrite <- HR. eauto.
    + split.
      * intros H. assert (e = AttributeError) by congruence. subst. exists pre, p, post. splits; auto; now apply line_attribute.
      * intros (pre' & p' & post' & E' & H1' & H2'). apply line_attribute in H2'. rewrite <- HR. eauto.
    + intros e' H HK HA. assert (e' = e) by congruence. subst. exfalso.
      pose proof (line_cases p) as HC. rewrite H2 in HC. destruct e; tauto.
Qed.
End Line.

(** ** Types of an array dictionary *)
Section Arrays.
Variables (attrs dsets : dict btype) (r : brecord).
Hypothesis NR : NoDup (keys r).

Lemma absent_dec (l : list pystr) : (exists k, In k l /\ ~ In k (keys r)) \/ there l r.
Proof.
  induction l as [|x l IH]; [right; intros k []|].
  destruct (in_dec (list_eq_dec Z.eq_dec) x (keys r)) as [H|H]; [|left; exists x; split; [now left|auto]].
  destruct IH as [(k & H1 & H2)|IH]; [left; exists k; split; [now right|auto]|].
  right. intros k [<-|Hk]; auto.
Qed.
Lemma flags_absent l k : In k l -> ~ In k (keys r) -> array_flags l r = Raise KeyError.
Proof.
  induction l as [|x l IH]; intros H1 H2; [destruct H1|]. cbn [array_flags].
  destruct (in_dec (list_eq_dec Z.eq_dec) x (keys r)) as [H|H]; [|now rewrite (item_absent r x H)].
  destruct (dict_item_in r x H) as (v & -> & _). cbn [rbind]. destruct H1 as [->|H1]; [tauto|].
  now rewrite (IH H1 H2).
Qed.

Theorem array_types_ok : array_types attrs dsets r (array_incorrect_types_check attrs dsets r).
Proof.
  unfold array_incorrect_types_check. fold (keys attrs) (keys dsets).
  destruct (absent_dec (keys attrs)) as [(k & H1 & H2)|HA].
  { rewrite (flags_absent _ _ H1 H2). cbn [rbind]. now apply at_attr_absent with k. }
  destruct (array_flags_cases (keys attrs) r NR HA) as (fl & -> & Hfl & _). cbn [rbind].
  destruct (existsb (fun b => b) fl) eqn:EF.
  { destruct (proj1 Hfl eq_refl) as (k & v & H1 & H2 & H3). apply at_attr_array with k v; auto.
    now apply is_ndarray_iff. }
  assert (HNA : forall k v, In k (keys attrs) -> In (k, v) r -> ~ is_array v).
  { intros k v H1 H2 H3. assert (false = true); [|discriminate]. apply Hfl. exists k, v. splits; auto. now apply is_ndarray_iff. }
  pose proof (wrong_attributes_cases attrs r NR HA) as HW.
  destruct (wrong_attributes attrs r) as [w1|e]; cbn [rbind].
  2:{ destruct HW as [-> (k & v & t & H1 & H2 & H3)]. now apply at_foreign with k t v. }
  destruct HW as [HW HWf].
  assert (HJ : attrs_judged attrs r).
  { split; auto. intros k t v H1 H2. split; [|eauto]. apply (HNA k); auto. apply keys_in. eauto. }
  destruct (absent_dec (keys dsets)) as [(k & H1 & H2)|HD].
  { rewrite (flags_absent _ _ H1 H2). cbn [rbind]. now apply at_dset_absent with k. }
  destruct (array_flags_cases (keys dsets) r NR HD) as (fl2 & -> & _ & Hfl2). cbn [rbind].
  destruct (forallb (fun b => b) fl2) eqn:EF2; cbn [negb].
  2:{ destruct (proj1 Hfl2 eq_refl) as (k & v & H1 & H2 & H3). apply at_dset_single with k v; auto.
      intros (t & s & l & ->). discriminate. }
  assert (HArr : forall k v, In k (keys dsets) -> In (k, v) r -> is_array v).
  { intros k v H1 H2. apply is_ndarray_iff. destruct (is_ndarray v) eqn:E; auto. exfalso.
    assert (true = false); [|discriminate]. apply Hfl2. exists k, v. auto. }
  assert (HDA : dsets_arrays dsets r) by (split; auto).
  pose proof (wrong_datasets_cases true dsets r NR HD) as HW2.
  destruct (wrong_datasets true dsets r) as [w2|e]; cbn [rbind].
  2:{ exfalso. destruct HW2 as [-> (k & v & t & H1 & H2 & H3)].
      destruct (HArr k v) as (t' & s & l & ->); auto; [apply keys_in; eauto|]. apply (H3 t'). constructor. }
  destruct HW2 as [HW2 _].
  set (w := if _ && _ then _ else _).
  assert (HL : lists w (ill_typed attrs dsets r)).
  { assert (HB : forall k, In k (set_union w1 w2) <-> exists t v, In (k, v) r /\
         ((In (k, t) attrs /\ ~ attr_ok t v) \/ (In (k, t) dsets /\ ~ (np_type v t \/ np_type v BNpStr)))).
    { intros k. rewrite in_set_union, HW, HW2. split.
      - intros [(v & t & H1 & H2 & H3)|(v & t & H1 & H2 & H3)]; exists t, v; split; auto.
        right. split; auto. intros [H|H]; apply H3; auto.
      - intros (t & v & H1 & [[H2 H3]|[H2 H3]]); [left|right]; exists v, t; splits; auto.
        intros [H|[_ H]]; apply H3; auto. }
    assert (HC : forall k v t, In (k, v) r -> In (k, t) dsets -> k <> s_ppo \/ ppo_tolerated r = false ->
              (dset_array_ok k t v <-> (np_type v t \/ np_type v BNpStr))).
    { intros k v t H1 H2 H3. split.
      - intros H. inversion H; subst; [left; constructor|right; constructor|]. exfalso. destruct H3 as [H3|H3]; [now apply H3|].
        assert (ppo_tolerated r = true); [|congruence]. apply ppo_tolerated_iff; auto. eexists. exact H1.
      - destruct (HArr k v) as (t' & s & l & ->); auto; [apply keys_in; eauto|].
        intros [H|H]; inversion H; subst; constructor. }
    assert (HG : forall k, k <> s_ppo \/ ppo_tolerated r = false -> (In k (set_union w1 w2) <-> ill_typed attrs dsets r k)).
    { intros k Hk. rewrite HB. unfold ill_typed. split; intros (t & v & H1 & [H2|[H2 H3]]); exists t, v; split; auto; right; split; auto.
      - intros H. apply H3. now apply (HC k v t).
      - intros H. apply H3. now apply (HC k v t). }
    assert (HP : ppo_tolerated r = true -> ~ ill_typed attrs dsets r s_ppo).
    { intros HPT (t & v & H1 & H2). apply ppo_tolerated_iff in HPT as (l & HI); auto.
      assert (v = BArr BI64 [2%nat] l) as -> by (apply (dict_in_get _ _ _ NR) in H1, HI; congruence).
      destruct H2 as [[H2 H3]|[H2 H3]].
      - apply (HNA s_ppo (BArr BI64 [2%nat] l)); auto; [apply keys_in; eauto|]. now exists BI64, [2%nat], l.
      - apply H3. now constructor. }
    intros k. subst w. destruct (ppo_tolerated r) eqn:EP.
    - rewrite andb_true_r. destruct (str_mem s_ppo (set_union w1 w2)) eqn:ES.
      + rewrite filter_In. destruct (str_eqb k s_ppo) eqn:EK; cbn [negb].
        * apply str_eqb_eq in EK as ->. split; [intros [_ H]; discriminate|intros H; exfalso; now apply HP].
        * rewrite HG; [tauto|]. left. intros ->. rewrite str_eqb_refl in EK. discriminate.
      + destruct (str_eqb k s_ppo) eqn:EK.
        * apply str_eqb_eq in EK as ->. rewrite <- str_mem_In, ES. split; [discriminate|intros H; exfalso; now apply HP].
        * apply HG. left. intros ->. rewrite str_eqb_refl in EK. discriminate.
    - rewrite andb_false_r. apply HG. auto. }
  clearbody w. rewrite zlen_pos. destruct w as [|x w].
  - apply at_good; auto. intros k Hk. apply HL in Hk. destruct Hk.
  - apply at_wrong; auto. discriminate.
Qed.

(** The cases exclude each other. *)
Theorem array_types_once x y : array_types attrs dsets r x -> array_types attrs dsets r y -> same_outcome x y.
Proof.
  assert (HE : forall k v v', In (k, v) r -> In (k, v') r -> v = v') by (intros; eapply same_value; eauto).
  assert (KA : forall k t, In (k, t) attrs -> In k (keys attrs)) by (intros; apply keys_in; eauto).
  assert (KR : forall k v, In (k, v) r -> In k (keys r)) by (intros; apply keys_in; eauto).
  assert (KT : forall k, In k (keys attrs) -> exists t, In (k, t) attrs) by (intros; now apply keys_in).
  intros HX HY. unfold same_outcome.
  destruct HX as [k H1 H2|k v H1 H2 H3 H4|k t v H1 H2 H3 H4 H5|k H1 H2 H3|k v H1 H2 H3 H4 H5|l H1 H2 H3 H4|H1 H2 H3];
  destruct HY as [k' G1 G2|k' v' G1 G2 G3 G4|k' t' v' G1 G2 G3 G4 G5|k' G1 G2 G3|k' v' G1 G2 G3 G4 G5|l' G1 G2 G3 G4|G1 G2 G3];
  try (now left); (right; exists l, l'; splits; auto; intros k; rewrite (H4 k), (G4 k); reflexivity) || exfalso.
  all: repeat match goal with
    | H : attrs_judged _ _ |- _ => destruct H
    | H : dsets_arrays _ _ |- _ => destruct H
    end; unfold there in *.
  all: try solve [eauto].
  all: try solve [match goal with H : In ?k (keys attrs), H' : In (?k, ?v) r, HJ : forall k t v, In (k, t) attrs -> In (k, v) r -> _ |- _ =>
      destruct (KT k H) as (t0 & Ht); destruct (HJ k t0 v Ht H'); auto end].
  all: try solve [match goal with H : In (?k, ?t) attrs, H' : In (?k, ?v) r, HJ : forall k t v, In (k, t) attrs -> In (k, v) r -> _ |- _ =>
      destruct (HJ k t v H H'); auto end].
  all: try solve [destruct l as [|z l]; [congruence|]; destruct (proj1 (H4 z) (or_introl eq_refl)); eauto].
  all: try solve [destruct l' as [|z l]; [congruence|]; destruct (proj1 (G4 z) (or_introl eq_refl)); eauto].
  all: try solve [destruct l as [|z l]; [congruence|]; apply (G3 z), H4; now left].
  all: try solve [destruct l' as [|z l]; [congruence|]; apply (H3 z), G4; now left].
  all: try solve [eapply H2; eassumption].
  all: try solve [eapply G2; eassumption].
Qed.
End Arrays.

(** ** Numbers of records *)
Section Counts.
Variables (r : brecord).
Hypothesis NR : NoDup (keys r).

Definition shape_item (k : pystr) : res (option (list nat)) :=
  rlet v := dict_item r k in
  match bshape v with
  | Some s => Ok s
  | None => Raise AttributeError
  end.
Lemma shapes_of_items l :
  shapes_of l r = match l with [] => Ok [] | k :: ks => rlet s := shape_item k in rlet rest := shapes_of ks r in Ok (s :: rest) end.
Proof.
  destruct l as [|k ks]; auto. cbn [shapes_of]. unfold shape_item. destruct (dict_item r k) as [v|]; cbn [rbind]; auto.
  destruct (bshape v) as [s|]; cbn [rbind]; auto.
Qed.

(** What a shape says of the field. *)
Definition tells (k : pystr) (s : option (list nat)) : Prop :=
  match s with
  | None => exists t, In (k, BEmpty t) r
  | Some s => (forall n, (exists s', s = n :: s') <-> has_entries r n k) /\ forall t, ~ In (k, BEmpty t) r
  end.
Lemma shape_item_cases k :
  match shape_item k with
  | Ok s => shaped r k /\ tells k s
  | Raise KeyError => ~ In k (keys r)
  | Raise AttributeError => In k (keys r) /\ ~ shaped r k
  | Raise _ => False
  end.
Proof.
  unfold shape_item.
  destruct (in_dec (list_eq_dec Z.eq_dec) k (keys r)) as [HK|HK]; [|now rewrite (item_absent r k HK)].
  apply keys_in in HK as HV. destruct HV as (v & HV). rewrite (item_present r NR k v HV). cbn [rbind].
  destruct v as [t c|s|t s l|t|]; cbn [bshape].
  - split; [now apply shaped_scalar with t c|]. split.
    + intros n. split; [intros (s' & [=])|].
      intros (t' & s' & l' & H). pose proof (same_value r NR _ _ _ HV H). discriminate.
    + intros t' H. pose proof (same_value r NR _ _ _ HV H). discriminate.
  - split; auto. intros [t c H|t s' l H|t H]; pose proof (same_value r NR _ _ _ HV H); discriminate.
  - split; [now apply shaped_array with t s l|]. split.
    + intros n. split.
      * intros (s' & ->). now exists t, s', l.
      * intros (t' & s' & l' & H). pose proof (same_value r NR _ _ _ HV H) as E. injection E as _ -> _. eauto.
    + intros t' H. pose proof (same_value r NR _ _ _ HV H). discriminate.
  - split; [now apply shaped_empty with t|]. now exists t.
  - split; auto. intros [t c H|t s' l H|t H]; pose proof (same_value r NR _ _ _ HV H); discriminate.
Qed.

Lemma shapes_cases l :
  match shapes_of l r with
  | Ok ss => Forall (shaped r) l /\ Forall2 tells l ss
  | Raise e => exists pre k post, l = pre ++ k :: post /\ Forall (shaped r) pre /\
      ((e = KeyError /\ ~ In k (keys r)) \/ (e = AttributeError /\ In k (keys r) /\ ~ shaped r k))
  end.
Proof.
  induction l as [|k l IH]; rewrite shapes_of_items.
  - split; constructor.
  - pose proof (shape_item_cases k) as HS.
    destruct (shape_item k) as [s|e]; cbn [rbind].
    + destruct HS as [HS1 HS2].
      destruct (shapes_of l r) as [ss|e]; cbn [rbind].
      * destruct IH as [IH1 IH2]. split; constructor; auto.
      * destruct IH as (pre & k' & post & -> & H1 & H2). exists (k :: pre), k', post. splits; auto.
    + exists [], k, l. splits; auto. destruct e; tauto.
Qed.
Lemma has_entries_unique n m k : has_entries r n k -> has_entries r m k -> n = m.
Proof.
  intros (t & s & l & H) (t' & s' & l' & H'). pose proof (same_value r NR _ _ _ H H'). congruence.
Qed.
Lemma empty_uncounted k t : In (k, BEmpty t) r -> ~ counted r k.
Proof. intros H (n & t' & s & l & H'). pose proof (same_value r NR _ _ _ H H'). discriminate. Qed.

Definition dims_told (n : nat) (l : list pystr) (x : res bool) : Prop :=
  match x with
  | Ok true => Forall (has_entries r n) l
  | Ok false => Forall (counted r) l /\ ~ Forall (has_entries r n) l
  | Raise IndexError => exists pre k post, l = pre ++ k :: post /\ Forall (counted r) pre /\
      ~ counted r k /\ forall t, ~ In (k, BEmpty t) r
  | Raise TypeError => exists pre k post t, l = pre ++ k :: post /\ Forall (counted r) pre /\ In (k, BEmpty t) r
  | Raise _ => False
  end.
Lemma first_dims l ss n ds : Forall2 tells l ss -> dims_told n l (all_first_dims ss (Some (n :: ds))).
Proof.
  induction 1 as [|k s l ss H HF IH]; cbn [all_first_dims]; [constructor|].
  destruct s as [[|d s]|]; cbn [first_dim rbind].
  - destruct H as [H HE]. exists [], k, l. splits; auto. intros (m & Hm). apply H in Hm as (s' & [=]).
  - destruct H as [H HE]. assert (HD : has_entries r d k) by (apply H; eauto). assert (HC : counted r k) by now exists d.
    destruct (all_first_dims ss (Some (n :: ds))) as [[]|e]; cbn [rbind dims_told] in *.
    + rewrite andb_true_r. destruct (Nat.eqb_spec d n) as [->|N].
      * now constructor.
      * split; [constructor; auto; eapply Forall_impl; [|exact IH]; intros a Ha; now exists n|].
        intros F. inversion F as [|? ? F1 F2]; subst. apply N. now apply (has_entries_unique d n k).
    + rewrite andb_false_r. destruct IH as [I1 I2]. split; [now constructor|]. intros F. inversion F; tauto.
    + destruct e; try contradiction.
      * destruct IH as (pre & k' & post & -> & I1 & I2 & I3). exists (k :: pre), k', post. splits; auto.
      * destruct IH as (pre & k' & post & t & -> & I1 & I2). exists (k :: pre), k', post, t. splits; auto.
  - destruct H as [t H]. exists [], k, l, t. splits; auto.
Qed.

Lemma first_unique (P : pystr -> Prop) pre k post pre' k' post' :
  pre ++ k :: post = pre' ++ k' :: post' -> Forall P pre -> Forall P pre' ->
  ~ P k -> ~ P k' -> k = k'.
Proof.
  revert pre'. induction pre as [|x pre IH]; intros [|y pre'] E H H' N N'; cbn in E; injection E as -> E; auto.
  - inversion H'; tauto.
  - inversion H; tauto.
  - inversion H; inversion H'; subst. eapply IH; eauto.
Qed.

Definition check_shapes (ss : list (option (list nat))) : res unit :=
  match ss with
  | [] => Ok tt
  | first :: _ =>
      match all_first_dims ss first with
      | Ok true => Ok tt
      | Ok false | Raise IndexError => Raise BorealisNumberOfRecordsError
      | Raise e => Raise e
      end
  end.
Definition met_empty (l : list pystr) : Prop :=
  exists pre k post t, l = pre ++ k :: post /\ Forall (counted r) pre /\ In (k, BEmpty t) r.
Lemma check_shapes_cases l ss : Forall2 tells l ss ->
  (check_shapes ss = Ok tt /\ exists n, Forall (has_entries r n) l) \/
  (check_shapes ss = Raise BorealisNumberOfRecordsError /\ ~ (exists n, Forall (has_entries r n) l) /\ ~ met_empty l) \/
  (check_shapes ss = Raise TypeError /\ met_empty l).
Proof.
  intros HF.
  assert (HE : forall n, Forall (has_entries r n) l -> Forall (counted r) l).
  { intros n. apply Forall_impl. intros k Hk. now exists n. }
  assert (HM : met_empty l -> ~ Forall (counted r) l).
  { intros (pre & k & post & t & -> & _ & I) F. apply Forall_app in F as [_ F]. inversion F as [|? ? F1 F2]; subst.
    exact (empty_uncounted _ _ I F1). }
  assert (HI : (exists pre k post, l = pre ++ k :: post /\ Forall (counted r) pre /\ ~ counted r k /\ forall t, ~ In (k, BEmpty t) r) ->
      ~ (exists n, Forall (has_entries r n) l) /\ ~ met_empty l).
  { intros (pre & k & post & E & F & N & I). split.
    - intros (n & G). apply HE in G. rewrite E in G. apply Forall_app in G as [_ G]. inversion G; tauto.
    - intros (pre' & k' & post' & t & E' & F' & I'). rewrite E in E'.
      pose proof (first_unique (counted r) _ _ _ _ _ _ E' F F' N (empty_uncounted _ _ I')). subst. now apply (I t). }
  destruct ss as [|[[|n s]|] ss].
  - inversion HF; subst. left. split; auto. exists 0%nat. constructor.
  - right; left. split; auto. apply HI. inversion HF as [|k ? l' ? H0 H2]; subst; destruct H0 as [H1 H1']. exists [], k, l'. splits; auto.
    intros (m & Hm). apply H1 in Hm as (s' & [=]).
  - pose proof (first_dims l _ n s HF) as HD. unfold check_shapes.
    destruct (all_first_dims _ _) as [[]|e]; cbn [dims_told] in HD.
    + left. split; auto. now exists n.
    + right; left. destruct HD as [HD1 HD2]. splits; auto.
      * intros (m & F). apply HD2. inversion HF as [|k ? l' ? H0 H2]; subst; destruct H0 as [H1 H1'].
        assert (m = n) as <-; auto. inversion F; subst. apply (has_entries_unique m n k); auto. apply H1. eauto.
      * intros M. now apply HM.
    + destruct e; try contradiction.
      * right; left. split; auto.
      * right; right. split; auto.
  - right; right. split; auto. inversion HF as [|k ? l' ? H0 H2]; subst; destruct H0 as [t H1]. exists [], k, l', t. splits; auto.
Qed.

Theorem counts l :
  (array_num_records_check l r = Ok tt <-> exists n, forall k, In k l -> has_entries r n k) /\
  (array_num_records_check l r = Raise KeyError <->
     exists pre k post, l = pre ++ k :: post /\ Forall (shaped r) pre /\ ~ In k (keys r)) /\
  (array_num_records_check l r = Raise AttributeError <->
     exists pre k post, l = pre ++ k :: post /\ Forall (shaped r) pre /\ In k (keys r) /\ ~ shaped r k) /\
  (array_num_records_check l r = Raise TypeError <->
     Forall (shaped r) l /\
     exists pre k post t, l = pre ++ k :: post /\ Forall (counted r) pre /\ In (k, BEmpty t) r) /\
  (forall e, array_num_records_check l r = Raise e -> e <> KeyError -> e <> AttributeError -> e <> TypeError ->
     e = BorealisNumberOfRecordsError /\ Forall (shaped r) l).
Proof.
  pose proof (shapes_cases l) as HS. unfold array_num_records_check.
  assert (SK : forall k, shaped r k -> In k (keys r)) by (intros k [t c H|t s d H|t H]; apply keys_in; eauto).
  destruct (shapes_of l r) as [ss|e]; cbn [rbind].
  - destruct HS as [HS HF].
    assert (NK : forall pre k post, l = pre ++ k :: post -> shaped r k).
    { intros pre k post ->. apply Forall_app in HS as [_ HS]. now inversion HS. }
    assert (HFA : (exists n, forall k, In k l -> has_entries r n k) <-> exists n, Forall (has_entries r n) l).
    { split; intros (n & H); exists n; now apply Forall_forall. }
    rewrite HFA. clear HFA.
    pose proof (check_shapes_cases l ss HF) as HC. unfold check_shapes, met_empty in HC.
    set (x := match ss with [] => _ | _ => _ end) in *. clearbody x.
    destruct HC as [[-> HC]|[(-> & HC1 & HC2)|[-> HC]]].
    + splits; try discriminate.
      * now split.
      * split; [discriminate|]. intros (pre & k & post & E & _ & H). exfalso. eauto.
      * split; [discriminate|]. intros (pre & k & post & E & _ & _ & H). exfalso. eauto.
      * split; [discriminate|]. intros (_ & pre & k & post & t & -> & _ & H). exfalso.
        destruct HC as (n & HC). apply Forall_app in HC as [_ HC]. inversion HC as [|? ? H1 H2]; subst.
        apply (empty_uncounted _ _ H). now exists n.
    + splits.
      * split; [discriminate|tauto].
      * split; [discriminate|]. intros (pre & k & post & E & _ & H). exfalso. eauto.
      * split; [discriminate|]. intros (pre & k & post & E & _ & _ & H). exfalso. eauto.
      * split; [discriminate|]. tauto.
      * intros e [= <-] _ _ _. auto.
    + splits.
      * split; [discriminate|]. intros (n & H). exfalso. destruct HC as (pre & k & post & t & -> & _ & I).
        apply Forall_app in H as [_ H]. inversion H as [|? ? H1 H2]; subst. apply (empty_uncounted _ _ I). now exists n.
      * split; [discriminate|]. intros (pre & k & post & E & _ & H). exfalso. eauto.
      * split; [discriminate|]. intros (pre & k & post & E & _ & _ & H). exfalso. eauto.
      * split; auto.
      * intros e [= <-] _ _ N. now destruct N.
  - destruct HS as (pre & k & post & -> & H1 & H2).
    assert (NS : ~ shaped r k) by (destruct H2 as [[_ H]|[_ [_ H]]]; auto).
    splits.
    + split; [discriminate|]. intros (n & H). exfalso. apply NS.
      destruct (H k) as (t & s & d & H'); [apply in_app_iff; right; now left|]. now apply shaped_array with t (n :: s) d.
    + split.
      * intros E. exists pre, k, post. splits; auto. destruct H2 as [[_ H]|[-> _]]; auto. discriminate.
      * intros (pre' & k' & post' & E & H1' & H2'). assert (k = k').
        { apply (first_unique (shaped r) _ _ _ _ _ _ E H1 H1' NS). auto. }
        subst. destruct H2 as [[-> _]|[_ [H _]]]; [reflexivity|tauto].
    + split.
      * intros E. exists pre, k, post. splits; auto; destruct H2 as [[-> _]|[_ [H H']]]; auto; discriminate.
      * intros (pre' & k' & post' & E & H1' & H2' & H3'). assert (k = k').
        { apply (first_unique (shaped r) _ _ _ _ _ _ E H1 H1' NS H3'). }
        subst. destruct H2 as [[_ H]|[-> _]]; [tauto|reflexivity].
    + split; [destruct H2 as [[-> _]|[-> _]]; discriminate|]. intros (F & _). exfalso.
      apply Forall_app in F as [_ F]. inversion F; tauto.
    + intros e' E N1 N2 _. exfalso. destruct H2 as [[-> _]|[-> _]]; congruence.
Qed.
End Counts.
