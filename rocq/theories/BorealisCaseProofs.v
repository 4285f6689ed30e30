(** Deciding [consistent] for concrete records. *)
From Coq Require Import String ZArith List Bool Lia.
From Verif Require Import Base SDarnFormats BorealisTypes BorealisFormats BorealisChecks BorealisArrays
  BytesProofs DmapWriteProofs DmapWriteFacts DmapFileProofs SDarnChecks BorealisSpec BorealisCheckProofs
  BorealisCatalogue BorealisCatalogueProofs BorealisShapes.
Import ListNotations.
Open Scope list_scope.
Open Scope nat_scope.

Fixpoint nats_eqb (a b : list nat) : bool :=
  match a, b with
  | [], [] => true
  | x :: a', y :: b' => Nat.eqb x y && nats_eqb a' b'
  | _, _ => false
  end.
Lemma nats_eqb_eq a b : nats_eqb a b = true -> a = b.
Proof.
  revert b. induction a as [|x a IH]; intros [|y b] H; try discriminate; [reflexivity|]. cbn in H.
  apply andb_true_iff in H as [H1 H2]. apply Nat.eqb_eq in H1. f_equal; auto.
Qed.

Definition cell_eqb (a b : cell) : bool :=
  match a, b with
  | CZ x, CZ y => Z.eqb x y
  | CC x y, CC x' y' => Z.eqb x x' && Z.eqb y y'
  | CS s, CS s' => str_eqb s s'
  | _, _ => false
  end.
Lemma cell_eqb_eq a b : cell_eqb a b = true -> a = b.
Proof.
  destruct a, b; cbn; intros H; try discriminate.
  - apply Z.eqb_eq in H. now subst.
  - apply andb_true_iff in H as [H1 H2]. apply Z.eqb_eq in H1, H2. now subst.
  - apply str_eqb_eq in H. now subst.
Qed.
Fixpoint cells_eqb (a b : list cell) : bool :=
  match a, b with
  | [], [] => true
  | x :: a', y :: b' => cell_eqb x y && cells_eqb a' b'
  | _, _ => false
  end.
Lemma cells_eqb_eq a b : cells_eqb a b = true -> a = b.
Proof.
  revert b. induction a as [|x a IH]; intros [|y b] H; try discriminate; [reflexivity|]. cbn in H.
  apply andb_true_iff in H as [H1 H2]. apply cell_eqb_eq in H1. f_equal; auto.
Qed.
Definition bval_eqb (a b : bval) : bool :=
  match a, b with
  | BScalar t c, BScalar t' c' => btype_eqb t t' && cell_eqb c c'
  | BText s, BText s' => str_eqb s s'
  | BArr t s l, BArr t' s' l' => btype_eqb t t' && nats_eqb s s' && cells_eqb l l'
  | BEmpty t, BEmpty t' => btype_eqb t t'
  | BPlain, BPlain => true
  | _, _ => false
  end.
Lemma bval_eqb_eq a b : bval_eqb a b = true -> a = b.
Proof.
  destruct a, b; cbn [bval_eqb]; intros H; try discriminate; rewrite ?andb_true_iff in H.
  - destruct H as [H1 H2]. apply btype_eqb_eq in H1. apply cell_eqb_eq in H2. now subst.
  - apply str_eqb_eq in H. now subst.
  - destruct H as [[H1 H2] H3]. apply btype_eqb_eq in H1. apply nats_eqb_eq in H2. apply cells_eqb_eq in H3. now subst.
  - apply btype_eqb_eq in H. now subst.
  - reflexivity.
Qed.
Definition opt_eqb (a b : option bval) : bool :=
  match a, b with
  | Some x, Some y => bval_eqb x y
  | None, None => true
  | _, _ => false
  end.
Lemma opt_eqb_eq a b : opt_eqb a b = true -> a = b.
Proof. destruct a, b; cbn; intros H; try discriminate; [|reflexivity]. apply bval_eqb_eq in H. now subst. Qed.

Definition one_okb (ty : btype) (v : option bval) : bool :=
  match v with
  | Some (BScalar ty' _) => btype_eqb ty ty' && negb (btype_eqb ty BStr)
  | Some (BText s) => btype_eqb ty BStr && Nat.leb (length s) 256 && negb (Z.eqb (last s 1%Z) 0)
  | _ => false
  end.
Definition many_okb (ty : btype) (sh : list nat) (n : nat) (v : option bval) : bool :=
  match v with
  | Some (BArr ty' sh' data) => btype_eqb ty ty' && nats_eqb sh' sh && Nat.eqb (length data) n
  | _ => false
  end.

Definition row_okb (g : generation) (t : filetype) (z : sizes) (c : counts) (r : brecord) (p : field_row) : bool :=
  negb (fr_in p t g) ||
  match fr_role p g with
  | Varying =>
      match fr_kind p with
      | One => one_okb (fr_type p g) (dict_get r (fr_name p))
      | Many => str_eqb (fr_name p) (str "pulse_phase_offset") ||
                many_okb (fr_type p g) (stored_shape g t z c (fr_name p)) (size (shape_of t z c (fr_name p)))
                  (dict_get r (fr_name p))
      end
  | _ => true
  end.

Definition all_dims : list dim := [DSeq; DBeam; DBlank; DArr; DRange; DLag; DSamp; DPhase].
Definition same_set (a b : list pystr) : bool :=
  forallb (fun x => str_mem x b) a && forallb (fun x => str_mem x a) b.
Definition fields_of (g : generation) (t : filetype) : list pystr :=
  map fr_name (filter (fun p => fr_in p t g && match fr_role p g with MadeArray => false | _ => true end) catalogue).

Definition fitsb (g : generation) (t : filetype) (z : sizes) (c : counts) (r : brecord) : bool :=
  same_set (keys r) (fields_of g t) && forallb (row_okb g t z c r) catalogue &&
  opt_eqb (dict_get r (str "num_sequences")) (Some (BScalar BI64 (CZ (Z.of_nat (c_seq c))))) &&
  opt_eqb (dict_get r (dims_field g t))
    (Some (BArr BU32 [length (data_layout t)] (map (fun d => CZ (Z.of_nat (dim_val z c d))) (data_layout t)))) &&
  forallb (fun d => Z.ltb (Z.of_nat (dim_val z c d)) (2 ^ 32)) all_dims &&
  forallb (fun d => match d with DBlank => true | _ => Nat.leb 1 (dim_val z c d) end) all_dims.

Lemma dim_in d : In d all_dims.
Proof. destruct d; cbn; tauto. Qed.

Lemma fitsb_ok g t z c r : fitsb g t z c r = true -> record_fits g t z c r.
Proof.
  unfold fitsb. rewrite !andb_true_iff. intros [[[[[H1 H2] H3] H4] H5] H6]. rewrite !forallb_forall in *.
  constructor.
  - intros k. unfold same_set in H1. rewrite andb_true_iff, !forallb_forall in H1. destruct H1 as [Ha Hb].
    assert (E : In k (keys r) <-> In k (fields_of g t)).
    { split; intros H; [apply Ha in H|apply Hb in H]; now apply str_mem_In. }
    rewrite E. unfold fields_of. rewrite in_map_iff. split.
    + intros (p & <- & Hp). apply filter_In in Hp as [Hp Hq]. apply andb_true_iff in Hq as [Hi Hr].
      exists (fr_role p g). split; [|intros C; rewrite C in Hr; discriminate]. exists (fr_kind p), (fr_type p g), p. splits; auto.
    + intros (ro & (kd & ty & p & Hp & Hn & _ & _ & Hi & Hr) & N). exists p. split; [assumption|]. apply filter_In.
      split; [assumption|]. rewrite Hi, Hr. destruct ro; try reflexivity. now destruct N.
  - intros k ty (p & Hp & Hn & Hk & Ht & Hi & Hr). apply H2 in Hp. unfold row_okb in Hp. rewrite Hi, Hr, Hk, Ht, Hn in Hp.
    cbn [negb orb] in Hp. unfold one_okb in Hp. destruct (dict_get r k) as [[]|]; try discriminate.
    + apply andb_true_iff in Hp as [A B]. apply btype_eqb_eq in A. subst. eexists. split; [reflexivity|]. constructor.
      intros C. rewrite C in B. discriminate.
    + rewrite !andb_true_iff in Hp. destruct Hp as [[A B] C]. apply btype_eqb_eq in A. apply Nat.leb_le in B.
      apply negb_true_iff, Z.eqb_neq in C. eexists. split; [reflexivity|]. now constructor.
  - now apply opt_eqb_eq.
  - intros k ty (p & Hp & Hn & Hk & Ht & Hi & Hr) NP. apply H2 in Hp. unfold row_okb in Hp. rewrite Hi, Hr, Hk, Ht, Hn in Hp.
    apply str_eqb_neq in NP. rewrite NP in Hp. cbn [negb orb] in Hp. unfold many_okb in Hp. destruct (dict_get r k) as [[]|]; try discriminate.
    rewrite !andb_true_iff in Hp. destruct Hp as [[A B] C]. apply btype_eqb_eq in A. apply nats_eqb_eq in B. apply Nat.eqb_eq in C. subst. eauto.
  - now apply opt_eqb_eq.
  - intros d. apply Z.ltb_lt. apply H5. apply dim_in.
  - intros d Hd. specialize (H6 d (dim_in d)). destruct d; try (now apply Nat.leb_le).
Qed.

(** Fields equal in all records. *)
Definition commonb (g : generation) (t : filetype) (rs : brecords) : bool :=
  forallb (fun p => negb (fr_in p t g) ||
    match fr_role p g with
    | Common => forallb (fun x => forallb (fun y => opt_eqb (dict_get (snd x) (fr_name p)) (dict_get (snd y) (fr_name p))) rs) rs
    | _ => true
    end) catalogue.
Lemma commonb_ok g t rs : commonb g t rs = true ->
  forall k n r n' r', role_of g t k Common -> In (n, r) rs -> In (n', r') rs -> dict_get r k = dict_get r' k.
Proof.
  unfold commonb. rewrite forallb_forall. intros H k n r n' r' (kd & ty & p & Hp & Hn & _ & _ & Hi & Hr) H1 H2.
  specialize (H p Hp). rewrite Hi, Hr, Hn in H. cbn [negb orb] in H. rewrite forallb_forall in H. specialize (H _ H1).
  rewrite forallb_forall in H. specialize (H _ H2). now apply opt_eqb_eq.
Qed.
Definition common_arraysb (g : generation) (t : filetype) (rs : brecords) : bool :=
  forallb (fun p => negb (fr_in p t g) ||
    match fr_role p g, fr_kind p with
    | Common, Many => forallb (fun x => match dict_get (snd x) (fr_name p) with
                                        | Some (BArr ty _ _) => btype_eqb ty (fr_type p g)
                                        | _ => false
                                        end) rs
    | _, _ => true
    end) catalogue.
Lemma common_arraysb_ok g t rs : common_arraysb g t rs = true -> forall k ty n r, listed g t k Many ty Common -> In (n, r) rs ->
  exists s l, dict_get r k = Some (BArr ty s l).
Proof.
  unfold common_arraysb. rewrite forallb_forall. intros H k ty n r (p & Hp & Hn & Hk & Ht & Hi & Hr) HI.
  specialize (H p Hp). rewrite Hi, Hr, Hn, Hk, Ht in H. cbn [negb orb] in H. rewrite forallb_forall in H. specialize (H _ HI). cbn [snd] in H.
  destruct (dict_get r k) as [[]|]; try discriminate. apply btype_eqb_eq in H. subst. eauto.
Qed.

(** No field of that name varies. *)
Definition no_varying (g : generation) (t : filetype) (k : pystr) : bool :=
  forallb (fun p => negb (fr_in p t g && str_eqb (fr_name p) k && match fr_role p g with Varying => true | _ => false end)) catalogue.
Lemma no_varying_ok g t k : no_varying g t k = true -> ~ role_of g t k Varying.
Proof.
  unfold no_varying. rewrite forallb_forall. intros H (kd & ty & p & Hp & Hn & _ & _ & Hi & Hr).
  specialize (H p Hp). rewrite Hi, Hr, Hn, str_eqb_refl in H. discriminate.
Qed.
