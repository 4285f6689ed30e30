(** Deciding the hypotheses of the file theorems for concrete records. *)
From Coq Require Import String ZArith List Bool Lia.
From Verif Require Import Base BytesProofs SDarnFormats BorealisTypes BorealisFormats BorealisSpec
  BorealisFile BorealisFileSpec BorealisCheckProofs BorealisFileProofs.
Import ListNotations.
Open Scope list_scope.
Open Scope Z_scope.

Definition numberb (t : btype) : bool := match t with BStr | BNpStr | BBytes | BOther => false | _ => true end.
Lemma numberb_ok t : numberb t = true -> number_type t.
Proof. destruct t; cbn; auto; discriminate. Qed.

Definition plainb (s : pystr) : bool := forallb (fun c => (0 <=? c) && (c <? 128)) s && negb (last s 1 =? 0).
Lemma plainb_ok s : plainb s = true -> plain_text s.
Proof.
  unfold plainb. intros H. apply andb_true_iff in H as [H1 H2]. split.
  - apply Forall_forall. intros c Hc. rewrite forallb_forall in H1. apply H1 in Hc. lia.
  - apply negb_true_iff, Z.eqb_neq in H2. exact H2.
Qed.

Definition attr_keptb (v : bval) : bool :=
  match v with BText s => plainb s | BScalar t _ => numberb t | _ => false end.
Lemma attr_keptb_ok v : attr_keptb v = true -> attr_kept v.
Proof. destruct v; cbn; try discriminate; intros H; constructor; [now apply numberb_ok|now apply plainb_ok]. Qed.

Definition text_cellb (c : cell) : bool :=
  match c with CS s => forallb (fun x => (0 <=? x) && (x <? 1114112)) s && negb (last s 1 =? 0) | _ => false end.
Lemma text_cellb_ok c : text_cellb c = true -> text_cell c.
Proof.
  destruct c as [| |s]; cbn; try discriminate. intros H. apply andb_true_iff in H as [H1 H2]. exists s. split; [reflexivity|]. split.
  - apply Forall_forall. intros x Hx. rewrite forallb_forall in H1. apply H1 in Hx. lia.
  - apply negb_true_iff, Z.eqb_neq in H2. exact H2.
Qed.

Definition dset_keptb (v : bval) : bool :=
  match v with
  | BArr BNpStr (x :: s) l => Nat.eqb (length l) (size (x :: s)) && forallb text_cellb l
  | BArr BBytes (_ :: _) _ => true
  | BArr t (_ :: _) _ => numberb t
  | _ => false
  end.
Lemma dset_keptb_ok v : dset_keptb v = true -> dset_kept v.
Proof.
  destruct v as [| |t [|x s] l| |]; try discriminate; [destruct t; discriminate|].
  destruct (btype_eqb t BNpStr) eqn:E.
  - apply btype_eqb_eq in E. subst. cbn [dset_keptb]. intros H. apply andb_true_iff in H as [H1 H2]. apply kept_texts; [discriminate| |].
    + now apply Nat.eqb_eq.
    + apply Forall_forall. intros c Hc. rewrite forallb_forall in H2. apply text_cellb_ok. auto.
  - intros H. apply kept_array; [discriminate|]. destruct t; try discriminate; try (now right); left; apply numberb_ok; exact H.
Qed.

Definition keptb (attrs dsets : dict btype) (r : brecord) : bool :=
  forallb (fun p => (negb (str_mem (fst p) (keys attrs)) || attr_keptb (snd p)) &&
                    (negb (str_mem (fst p) (keys dsets)) || dset_keptb (snd p))) r.
Lemma keptb_ok attrs dsets r k v : keptb attrs dsets r = true -> In (k, v) r ->
  (In k (keys attrs) -> attr_kept v) /\ (In k (keys dsets) -> dset_kept v).
Proof.
  intros H HI. unfold keptb in H. rewrite forallb_forall in H. apply H in HI. apply andb_true_iff in HI as [H1 H2].
  cbn [fst snd] in H1, H2. split; intros HK; apply str_mem_In in HK.
  - rewrite HK in H1. now apply attr_keptb_ok.
  - rewrite HK in H2. now apply dset_keptb_ok.
Qed.

Lemma storableb_ok F r : keptb (site_attrs F) (fm_array F) r = true -> storable F r.
Proof.
  intros H. split; intros k v t HI HT; apply (keptb_ok _ _ _ k v H HI); apply keys_in; exists t; [now apply in_site_attrs|exact HT].
Qed.
Lemma storable_arraysb_ok F a : keptb (array_attrs F) (array_dsets F) a = true -> storable_arrays F a.
Proof.
  intros H. split; intros k v t HI HT; apply (keptb_ok _ _ _ k v H HI); apply keys_in; exists t; [now apply in_array_attrs|now apply in_array_dsets].
Qed.

Lemma version_of_ok h v : version_of h = v -> hash_version h v.
Proof. apply version_iff. Qed.
