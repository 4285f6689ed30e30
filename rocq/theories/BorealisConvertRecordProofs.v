(** Proofs about the records that the conversion of Borealis records gives. *)
From Coq Require Import String ZArith List Bool Lia.
From Verif Require Import Base BytesProofs FloatBits FloatSpec DmapTypes DmapFileProofs DmapWriteFacts DmapWriteProofs SDarnFormats SDarn SDarnSpec
  SDarnChecks BorealisTypes BorealisFormats BorealisArrays BorealisFile BorealisFillProofs BorealisFileProofs
  BorealisTime BorealisConvert BorealisConvertSpec BorealisConvertProofs.
From Verif Require Conversions.
Import ListNotations.
Open Scope list_scope.
Open Scope Z_scope.

(** ** Names and formats *)

(** The format dict2dmap gives to a plain value. *)
Definition plain_format (it : item) : option fmt :=
  match it with
  | IPlain (VArr a) => Conversions.dtype_format (nd_dtype a)
  | IPlain v => Conversions.value_format v
  | _ => None
  end.
Definition layout (r : record) : list (pystr * option fmt) := map (fun p => (fst p, plain_format (snd p))) r.

(** The layout of the fields in common. *)
Definition common_layout : list (pystr * option fmt) := map (fun p => (fst p, Some (snd p))) (firstn 43 iqdat_types).

Ltac unwind H :=
  repeat match type of H with
         | rbind ?x _ = Ok _ => let v := fresh "v" in let E := fresh "E" in apply rbind_ok in H as (v & E & H)
         end.

Lemma layout_app a b : layout (a ++ b) = layout a ++ layout b.
Proof. apply map_app. Qed.
Lemma time_layout m : layout (time_fields m) =
  [(str "time.yr", Some Fh); (str "time.mo", Some Fh); (str "time.dy", Some Fh); (str "time.hr", Some Fh);
   (str "time.mt", Some Fh); (str "time.sc", Some Fh); (str "time.us", Some Fi)].
Proof. unfold time_fields. destruct (civil (m / 86400000000)) as [[yr mo] dy]. reflexivity. Qed.

Lemma common_fields_layout ctime r sid b beam txpow nrang xcf c :
  common_fields ctime r sid b beam txpow nrang xcf = Ok c -> layout c = common_layout.
Proof.
  intros H. unfold common_fields in H. unwind H. apply ok_inj in H as <-.
  rewrite !layout_app, time_layout. reflexivity.
Qed.
Lemma tables_layout r t : tables r = Ok t -> plain_format (fst t) = Some Fh /\ plain_format (snd t) = Some Fh.
Proof.
  intros H. unfold tables in H. unwind H. destruct v0 as [| |[] | |]; try discriminate. unwind H.
  injection H as <-. split; reflexivity.
Qed.
Lemma iqdat_record_layout ctime sid key origin scaling r shape data b beam out :
  iqdat_record ctime sid key origin scaling r shape data b beam = Ok out ->
  layout out = map (fun p => (fst p, Some (snd p))) iqdat_types.
Proof.
  intros H. unfold iqdat_record in H. cbv zeta in H. unwind H.
  apply ok_inj in H as <-. match goal with E : tables r = Ok ?t |- _ => destruct (tables_layout _ _ E) as [T1 T2] end.
  rewrite layout_app. erewrite common_fields_layout by eassumption. cbn [layout map fst snd].
  rewrite T1, T2. reflexivity.
Qed.
Lemma rawacf_record_layout power ctime sid key origin scaling r shape main xcfs b beam out :
  rawacf_record power ctime sid key origin scaling r shape main xcfs b beam = Ok out ->
  layout out = common_layout ++
    [(str "rawacf.revision.major", Some Fi); (str "rawacf.revision.minor", Some Fi); (str "combf", Some Fs);
     (str "thr", Some Ff); (str "ptab", Some Fh); (str "ltab", Some Fh); (str "pwr0", Some Ff);
     (str "slist", Some Fh); (str "acfd", Some Ff); (str "xcfd", Some Ff)].
Proof.
  intros H. unfold rawacf_record in H. destruct shape as [|nb [|nr [|nl [|]]]]; try discriminate.
  destruct (negb (Nat.ltb b nb) || Nat.eqb nl 0); [discriminate|]. cbv zeta in H. unwind H.
  apply ok_inj in H as <-. match goal with E : tables r = Ok ?t |- _ => destruct (tables_layout _ _ E) as [T1 T2] end.
  rewrite layout_app. erewrite common_fields_layout by eassumption. f_equal. cbn [layout map fst snd].
  rewrite T1, T2. reflexivity.
Qed.

(** dict2dmap keeps names and formats. *)
Definition formats (r : record) : list (pystr * option fmt) := map (fun p => (fst p, item_fmt (snd p))) r.
Lemma record2dmap_formats r r' : Conversions.record2dmap r = Ok r' ->
  Forall (fun p => match snd p with IPlain (VIntList _) => False | _ => True end) r -> formats r' = layout r.
Proof.
  revert r'. induction r as [|[k it] r IH]; intros r' H F; cbn [Conversions.record2dmap] in H.
  - injection H as <-. reflexivity.
  - apply rbind_ok in H as (x & E & H). apply rbind_ok in H as (y & E' & H). apply ok_inj in H as <-.
    inversion F as [|? ? F1 F2]; subst. cbn [formats layout map fst snd]. f_equal; [|now apply IH]. f_equal.
    cbn [snd] in F1. destruct it as [s|a0|v]; cbn [Conversions.field2dmap] in E; try discriminate.
    destruct v as [z|t z|w|w|w|w|a|l|]; try contradiction; cbn [plain_format Conversions.value_format] in *;
      try discriminate; try (apply ok_inj in E as <-; reflexivity).
    unfold Conversions.array_item in E. destruct (Conversions.dtype_format (nd_dtype a)) eqn:ED; [|discriminate].
    injection E as <-. reflexivity.
Qed.
Lemma layout_no_list r l : layout r = map (fun p => (fst p, Some (snd p))) l ->
  Forall (fun p => match snd p with IPlain (VIntList _) => False | _ => True end) r.
Proof.
  revert l. induction r as [|[k it] r IH]; intros l H; constructor.
  - destruct l as [|p l]; [discriminate|]. cbn in H. injection H as H1 H2 H3. cbn [snd].
    destruct it as [s|a|v]; auto. destruct v; auto. discriminate H2.
  - destruct l as [|p l]; [discriminate|]. cbn in H. injection H as H1 H2 H3. eapply IH; eauto.
Qed.

(** A record with the fields [l] in these formats. *)
Definition exactly (l : group) (r : record) : Prop := formats r = map (fun p => (fst p, Some (snd p))) l.

(** Decidable form of the field rules for a list of names and formats. *)
Definition declaredb (t : sd_type) (p : pystr * fmt) : bool :=
  existsb (fun g => existsb (fun q => str_eqb (fst q) (fst p) && fmt_eqb (snd q) (snd p)) g) (sd_groups t).
Definition whole_or_none (l : group) (g : group) : bool :=
  forallb (fun q => str_mem (fst q) (map fst l)) g || forallb (fun q => negb (str_mem (fst q) (map fst l))) g.
Lemma fmt_eqb_true a b : fmt_eqb a b = true -> a = b.
Proof. destruct a, b; cbn; congruence. Qed.
Lemma exactly_acceptable t l r : exactly l r -> forallb (declaredb t) l = true ->
  forallb (whole_or_none l) (sd_groups t) = true -> acceptable t r.
Proof.
  intros E D W. unfold exactly, formats in E.
  assert (EN : names r = map fst l).
  { apply (f_equal (map fst)) in E. rewrite !map_map in E. exact E. }
  split.
  - intros g Hg. rewrite forallb_forall in W. specialize (W g Hg). apply orb_prop in W as [W|W]; rewrite forallb_forall in W.
    + left. intros k Hk. apply in_map_iff in Hk as (q & <- & Hq). apply W in Hq. rewrite EN. now apply str_mem_In.
    + right. intros k Hk C. apply in_map_iff in Hk as (q & <- & Hq). apply W in Hq. rewrite EN in C.
      apply str_mem_In in C. rewrite C in Hq. discriminate.
  - intros k it Hk. assert (In (k, item_fmt it) (map (fun p => (fst p, item_fmt (snd p))) r)) as I.
    { apply in_map_iff. now exists (k, it). }
    rewrite E in I. apply in_map_iff in I as ([k' f] & EQ & I). cbn in EQ. injection EQ as -> EF.
    exists f. split.
    + right. rewrite forallb_forall in D. apply D in I. apply existsb_exists in I as (g & Hg & I).
      apply existsb_exists in I as ([k2 f2] & Hq & I). apply andb_prop in I as [I1 I2]. cbn [fst snd] in *.
      apply str_eqb_eq in I1 as ->. apply fmt_eqb_true in I2 as ->. eauto.
    + destruct it; cbn in EF; try discriminate; injection EF as ->; constructor; reflexivity.
Qed.

(** ** Fields of converted records *)

Lemma dict_get_app {A} (a b : dict A) k : dict_get (a ++ b) k = match dict_get a k with Some v => Some v | None => dict_get b k end.
Proof. induction a as [|[k' v] a IH]; cbn; [reflexivity|]. destruct (str_eqb k' k); auto. Qed.
Lemma record2dmap_get r r' k it : Conversions.record2dmap r = Ok r' -> dict_get r k = Some it ->
  exists it', Conversions.field2dmap k it = Ok it' /\ dict_get r' k = Some it'.
Proof.
  revert r'. induction r as [|[k0 it0] r IH]; intros r' H G; [discriminate|]. cbn [Conversions.record2dmap] in H.
  apply rbind_ok in H as (x & E & H). apply rbind_ok in H as (y & E' & H). apply ok_inj in H as <-. cbn in *.
  destruct (str_eqb k0 k) eqn:K; [|eauto]. apply str_eqb_eq in K as ->. injection G as ->. eauto.
Qed.
Lemma out_array_get r r' k d shape data : Conversions.record2dmap r = Ok r' -> dict_get r k = Some (va d shape data) ->
  out_array r' k d shape data.
Proof.
  intros H G. destruct (record2dmap_get _ _ _ _ H G) as (it & E & G'). unfold va in E. cbn in E.
  unfold Conversions.array_item in E. cbn in E. destruct (Conversions.dtype_format d); [|discriminate].
  apply ok_inj in E as <-. eexists. split; [exact G'|reflexivity].
Qed.
Lemma out_scalar_get r r' k v f : Conversions.record2dmap r = Ok r' -> dict_get r k = Some (IPlain v) ->
  Conversions.value_format v = Some f -> out_scalar r' k v.
Proof.
  intros H G F. destruct (record2dmap_get _ _ _ _ H G) as (it & E & G').
  destruct v; cbn in E, F; try discriminate; apply ok_inj in E as <-; eexists; (split; [exact G'|reflexivity]).
Qed.
Lemma layout_get_none r l k : layout r = l -> str_mem k (map fst l) = false -> dict_get r k = None.
Proof.
  intros <- H. induction r as [|[k' v] r IH]; [reflexivity|]. cbn in *. destruct (str_eqb k' k); [discriminate|auto].
Qed.

(** ** Lists *)

Lemma nth_flat {A B} (f : A -> list B) m l i j a : (forall x, In x l -> length (f x) = m) ->
  nth_error l i = Some a -> (j < m)%nat -> nth_error (flat_map f l) (i * m + j) = nth_error (f a) j.
Proof.
  revert i. induction l as [|x l IH]; intros i HL HN HJ; [destruct i; discriminate|]. cbn [flat_map].
  pose proof (HL x (or_introl eq_refl)) as LX. destruct i as [|i]; cbn in HN.
  - injection HN as ->. cbn. apply nth_error_app1. lia.
  - rewrite nth_error_app2 by (cbn; lia). rewrite LX. replace (S i * m + j - m)%nat with (i * m + j)%nat by (cbn; lia).
    apply IH; auto. intros y Hy. apply HL. now right.
Qed.
Lemma flat_length {A B} (f : A -> list B) m l : (forall x, In x l -> length (f x) = m) -> length (flat_map f l) = (length l * m)%nat.
Proof.
  induction l as [|x l IH]; intros H; [reflexivity|]. cbn [flat_map length]. rewrite app_length, IH, (H x); [lia|now left|].
  intros y Hy. apply H. now right.
Qed.
Lemma nth_seq i k : (i < k)%nat -> nth_error (seq 0 k) i = Some i.
Proof. intros H. rewrite (nth_error_nth' (seq 0 k) 0%nat) by now rewrite seq_length. f_equal. now rewrite seq_nth. Qed.
Lemma nth_error_firstn {A} n (l : list A) s : (s < n)%nat -> nth_error (firstn n l) s = nth_error l s.
Proof.
  revert l s. induction n as [|n IH]; intros l s H; [lia|]. destruct l as [|x l]; [reflexivity|].
  destruct s as [|s]; [reflexivity|]. cbn. apply IH. lia.
Qed.
Lemma nth_error_skipn {A} p (l : list A) s : nth_error (skipn p l) s = nth_error l (p + s).
Proof. revert l. induction p as [|p IH]; intros l; [reflexivity|]. destruct l as [|x l]; [now destruct s|]. apply IH. Qed.
Lemma nth_window {A} n p (l : list A) s : (s < n)%nat -> nth_error (firstn n (skipn p l)) s = nth_error l (p + s).
Proof. intros H. now rewrite nth_error_firstn, nth_error_skipn. Qed.
Lemma nth_parts l j : nth_error (parts l) (j * 2) = option_map fst (nth_error l j) /\
  nth_error (parts l) (j * 2 + 1) = option_map snd (nth_error l j).
Proof.
  revert l. induction j as [|j IH]; intros l; destruct l as [|c l]; try (split; reflexivity).
  change (parts (c :: l)) with (fst c :: snd c :: parts l). cbn [Nat.mul Nat.add nth_error]. apply IH.
Qed.
Lemma parts_length l : length (parts l) = (length l * 2)%nat.
Proof. unfold parts. apply flat_length. reflexivity. Qed.
Lemma window_length {A} n p (l : list A) : (p + n <= length l)%nat -> length (firstn n (skipn p l)) = n.
Proof. intros H. rewrite firstn_length, skipn_length. lia. Qed.
Lemma index_bound a b na nb : (a < na -> b < nb -> a * nb + b < na * nb)%nat.
Proof. intros. nia. Qed.
