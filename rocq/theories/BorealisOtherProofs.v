(** Proofs about the other structure of data that were read. *)
From Coq Require Import String ZArith List Bool Lia.
From Verif Require Import Base Bytes BytesProofs SDarnFormats BorealisTypes BorealisFormats BorealisChecks BorealisArrays BorealisTime BorealisFile
  BorealisSpec BorealisFileSpec SDarnChecks DmapFileProofs BorealisCheckProofs BorealisFillProofs BorealisFileProofs.
Import ListNotations.
Open Scope list_scope.
Open Scope Z_scope.

Lemma restructureable_iff g t : fm_restructureable (format_class g t) = true <-> has_structures t.
Proof. unfold has_structures. destruct g, t; split; intros H; try reflexivity; try discriminate; try (now destruct H). Qed.

Lemma arrays_nodup F rs a : site_to_array F rs = Ok a -> NoDup (keys a).
Proof.
  unfold site_to_array. destruct (negb _); [discriminate|].
  destruct (reshape_site_arrays F rs) as [[|[nm first] rs']|]; cbn [rbind]; try discriminate.
  destruct (mapM _ (fm_shared F)) as [sh|]; cbn [rbind]; [|discriminate].
  destruct (mapM _ (fm_array_gen F)) as [sp|]; cbn [rbind]; [|discriminate].
  destruct (fm_dims_array F) as [ds|]; cbn [rbind]; [|discriminate].
  destruct (mapM _ ds) as [ts|]; cbn [rbind]; [|discriminate].
  destruct (fill_loop _ _ _ _) as [ts'|]; cbn [rbind]; [|discriminate].
  intros H. injection H as <-. repeat apply dict_update_nodup. constructor.
Qed.

Lemma record_nodup F a i r : site_record F a i = Ok r -> NoDup (keys r).
Proof.
  unfold site_record.
  destruct (mapM _ (fm_shared F)) as [sh|]; cbn [rbind]; [|discriminate].
  destruct (mapM _ (fm_site_gen F)) as [sp|]; cbn [rbind]; [|discriminate].
  destruct (unshared_fields F) as [ds|]; cbn [rbind]; [|discriminate].
  destruct (mapM _ ds) as [ts|]; cbn [rbind]; [|discriminate].
  intros H. injection H as <-. repeat apply dict_update_nodup. constructor.
Qed.

Lemma dict_set_in {A} (d : dict A) k v k' v' : In (k', v') (dict_set d k v) -> v' = v \/ In (k', v') d.
Proof.
  induction d as [|[k0 v0] d IH]; cbn [dict_set].
  - intros [E|[]]. injection E as -> ->. now left.
  - destruct (str_eqb k0 k).
    + intros [E|H]; [injection E as -> ->; now left|right; now right].
    + intros [E|H]; [right; now left|]. destruct (IH H) as [->|K]; [now left|right; now right].
Qed.

Lemma loop_proper F a ts : forall rec out rs, proper out -> site_loop record_name F a ts rec out = Ok rs -> proper rs.
Proof.
  induction ts as [|row ts IH]; intros rec out rs P; cbn [site_loop]; [intros H; injection H as <-; exact P|].
  destruct row as [|[b|x y|s] row]; try discriminate.
  destruct (record_name b) as [key|]; cbn [rbind]; [|discriminate].
  destruct (site_record F a rec) as [r|] eqn:ER; cbn [rbind]; [|discriminate].
  apply IH. destruct P as [P1 P2]. split; [now apply dict_set_nodup|].
  intros n r' H. apply dict_set_in in H as [->|H]; [now apply (record_nodup _ _ _ _ ER)|now apply (P2 n)].
Qed.

Lemma flatten_record_nodup fs : forall r r', flatten_record fs r = Ok r' -> NoDup (keys r) -> NoDup (keys r').
Proof.
  induction fs as [|f fs IH]; intros r r'; cbn [flatten_record]; [intros H; now injection H as <-|].
  destruct (dict_item r f) as [v|]; cbn [rbind]; [|discriminate].
  destruct v; cbn [rbind]; try discriminate; intros H N; (eapply IH; [exact H|]); now apply dict_set_nodup.
Qed.

Lemma flatten_proper F rs rs' : flatten_site_arrays F rs = Ok rs' -> proper rs -> proper rs'.
Proof.
  unfold flatten_site_arrays. destruct (fm_flat F) as [[df fs]|]; [|intros H; now injection H as <-].
  intros H [P1 P2].
  assert (K : keys rs' = keys rs /\ forall n r', In (n, r') rs' -> exists r, In (n, r) rs /\ flatten_record fs r = Ok r').
  { clear P1 P2. revert rs' H. induction rs as [|[n r] rs IH]; intros rs'; cbn [mapM]; [intros H; injection H as <-; now split; [|intros ? ? []]|].
    cbn [snd fst]. destruct (flatten_record fs r) as [r'|] eqn:E; cbn [rbind]; [|discriminate].
    destruct (mapM _ rs) as [l|]; cbn [rbind]; [|discriminate]. intros H. injection H as <-.
    destruct (IH l eq_refl) as [K1 K2]. split; [unfold keys in *; cbn [map fst]; now rewrite K1|].
    intros m q [X|X]; [injection X as -> ->; exists r; split; [now left|exact E]|].
    destruct (K2 m q X) as (r0 & Y1 & Y2). exists r0. split; [now right|exact Y2]. }
  destruct K as [K1 K2]. split; [now rewrite K1|].
  intros n r' Hr. destruct (K2 n r' Hr) as (r & R1 & R2). apply (flatten_record_nodup _ _ _ R2). now apply (P2 n).
Qed.

Lemma records_proper F a rs : array_to_site record_name F a = Ok rs -> proper rs.
Proof.
  unfold array_to_site. destruct (negb _); [discriminate|].
  destruct (dict_item a _) as [v|]; cbn [rbind]; [|discriminate].
  assert (PN : proper []) by (split; [constructor|intros ? ? []]).
  destruct v as [ty c|s|ty sh data|ty|]; try discriminate.
  destruct sh as [|n [|w [|x sh]]]; try (destruct n); try discriminate; try (destruct (negb (time_type ty)); [discriminate|]); intros H.
  - now apply (flatten_proper _ _ _ H).
  - destruct (site_loop _ _ _ _ _ _) as [out|] eqn:E; cbn [rbind] in H; [|discriminate]. apply (flatten_proper _ _ _ H). exact (loop_proper _ _ _ _ _ _ PN E).
  - destruct (site_loop _ _ _ _ _ _) as [out|] eqn:E; cbn [rbind] in H; [|discriminate]. apply (flatten_proper _ _ _ H). exact (loop_proper _ _ _ _ _ _ PN E).
Qed.

Lemma wrapped {A} (r : res A) : match wrap_restructure r with Ok a => r = Ok a | Raise e => e = BorealisRestructureError \/ e = OutOfModel end.
Proof. destruct r as [a|e]; [reflexivity|]. destruct e; cbn; auto. Qed.

Lemma other_arrays g t rs :
  match site_arrays g t rs with
  | Ok a => has_structures t /\ NoDup (keys a) /\ arrays_ok (format_class g t) a
  | Raise e => e = BorealisRestructureError \/ (has_structures t /\ e = OutOfModel)
  end.
Proof.
  unfold site_arrays. destruct (fm_restructureable (format_class g t)) eqn:ER; [|now left].
  apply restructureable_iff in ER.
  set (r := rlet a := site_to_array (format_class g t) rs in rlet _ := check_array_dict (format_class g t) a in Ok a).
  pose proof (wrapped r) as W. destruct (wrap_restructure r) as [a|e]; [|destruct W; auto].
  unfold r in W. destruct (site_to_array (format_class g t) rs) as [a'|] eqn:EA; cbn [rbind] in W; [|discriminate].
  destruct (check_array_dict (format_class g t) a') as [[]|] eqn:EC; cbn [rbind] in W; [|discriminate].
  injection W as <-. pose proof (arrays_nodup _ _ _ EA) as N. splits; auto. now apply arrays_ok_check.
Qed.

Lemma other_records g t a :
  match array_records g t a with
  | Ok rs => has_structures t /\ proper rs /\ forall n r, In (n, r) rs -> site_record_ok (format_class g t) r
  | Raise e => e = BorealisRestructureError \/ (has_structures t /\ e = OutOfModel)
  end.
Proof.
  unfold array_records. destruct (fm_restructureable (format_class g t)) eqn:ER; [|now left].
  apply restructureable_iff in ER.
  set (r := rlet rs := array_to_site record_name (format_class g t) a in rlet _ := check_site_records (format_class g t) rs in Ok rs).
  pose proof (wrapped r) as W. destruct (wrap_restructure r) as [rs|e]; [|destruct W; auto].
  unfold r in W. destruct (array_to_site record_name (format_class g t) a) as [rs'|] eqn:EA; cbn [rbind] in W; [|discriminate].
  destruct (check_site_records (format_class g t) rs') as [[]|] eqn:EC; cbn [rbind] in W; [|discriminate].
  injection W as <-. pose proof (records_proper _ _ _ EA) as P. splits; auto. now apply site_check_iff.
Qed.

(** The faults that decide. *)
Lemma arrays_unfold g t rs e : has_structures t -> e <> OutOfModel -> site_to_array (format_class g t) rs = Raise e ->
  site_arrays g t rs = Raise BorealisRestructureError.
Proof.
  intros HT NE E. unfold site_arrays. rewrite (proj2 (restructureable_iff g t) HT), E. cbn [rbind]. destruct e; reflexivity || now destruct NE.
Qed.
Lemma records_unfold g t a e : has_structures t -> e <> OutOfModel -> array_to_site record_name (format_class g t) a = Raise e ->
  array_records g t a = Raise BorealisRestructureError.
Proof.
  intros HT NE E. unfold array_records. rewrite (proj2 (restructureable_iff g t) HT), E. cbn [rbind]. destruct e; reflexivity || now destruct NE.
Qed.

Lemma none_arrays g t : site_arrays g t [] = Raise BorealisRestructureError.
Proof.
  destruct t; [| | |destruct g; reflexivity]; (apply (arrays_unfold g _ [] IndexError); [discriminate|discriminate|]); destruct g; reflexivity.
Qed.
Lemma timeless g t a : ~ In (str "sqn_timestamps") (keys a) -> array_records g t a = Raise BorealisRestructureError.
Proof.
  intros N.
  assert (D : dict_item a (str "sqn_timestamps") = Raise KeyError) by (unfold dict_item; now rewrite (proj2 (dict_get_none _ _) N)).
  destruct (fm_restructureable (format_class g t)) eqn:ER.
  - apply restructureable_iff in ER. apply (records_unfold g t a KeyError ER); [discriminate|]. unfold array_to_site.
    rewrite (proj2 (restructureable_iff g t) ER). cbn [negb]. now rewrite D.
  - unfold array_records. now rewrite ER.
Qed.

Lemma hash_named av fs name rs t c r : dict_get rs (str "borealis_git_hash") = Some r ->
  array_write av fs name (DRecords rs) (type_name t) c = (fs, Raise AttributeError).
Proof.
  intros H. unfold array_write. rewrite type_name_of. cbn [arrays_hash]. unfold s_hash. rewrite H. reflexivity.
Qed.
