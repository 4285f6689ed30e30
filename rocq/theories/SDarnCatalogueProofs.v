(** Proofs for C107. *)
From Coq Require Import String ZArith List Bool Ascii Lia.
From Verif Require Import Base BytesProofs DmapTypes SDarnFormats SDarn SDarnSpec SDarnProofs SDarnCatalogueSpec.
Import ListNotations.
Open Scope list_scope.

Definition rows_at (c : nat) (place : ascii) : list (pystr * fmt) :=
  map (fun r => (str (fst (fst r)), snd (fst r)))
    (filter (fun r => match get c (snd r) with Some x => Ascii.eqb x place | None => false end) catalogue).

Lemma rows_placed t place k f : In (k, f) (rows_at (column t) place) <-> placed t k f place.
Proof.
  unfold rows_at, placed. rewrite in_map_iff. split.
  - intros ([[s f'] m] & E & H). cbn [fst snd] in E. injection E as <- <-. apply filter_In in H as [H G]. cbn [snd] in G.
    exists s, m. split; [exact H|]. split; [reflexivity|]. destruct (get (column t) m); [|discriminate]. apply Ascii.eqb_eq in G. congruence.
  - intros (s & m & H & <- & G). exists (s, f, m). split; [reflexivity|]. apply filter_In. split; [exact H|]. cbn [snd]. rewrite G.
    apply Ascii.eqb_refl.
Qed.

Definition memb (x : pystr * fmt) (l : list (pystr * fmt)) : bool :=
  existsb (fun y => str_eqb (fst x) (fst y) && fmt_eqb (snd x) (snd y)) l.
Lemma memb_In x l : memb x l = true -> In x l.
Proof.
  unfold memb. rewrite existsb_exists. intros ([k f] & H & E). apply andb_true_iff in E as [E1 E2].
  destruct x as [k' f']. cbn [fst snd] in *. apply str_eqb_eq in E1 as ->.
  assert (f' = f) as -> by (destruct f, f'; discriminate || reflexivity). exact H.
Qed.
Definition same_members (a b : list (pystr * fmt)) : bool :=
  forallb (fun x => memb x b) a && forallb (fun x => memb x a) b.
Lemma same_members_ok a b x : same_members a b = true -> In x a <-> In x b.
Proof.
  intros H. apply andb_true_iff in H as [H1 H2]. rewrite forallb_forall in H1, H2.
  split; intros I; apply memb_In; auto.
Qed.

Definition types_ok (t : sd_type) : bool :=
  same_members (sd_loose t) (rows_at (column t) "o") &&
  forallb (fun p => same_members (snd p) (rows_at (column t) (mark (fst p)))) (combine (seq 0 (length (sd_groups t))) (sd_groups t)).
Lemma tables_ok t : types_ok t = true.
Proof. destruct t; vm_compute; reflexivity. Qed.

Lemma combine_nth {A} (l : list A) : forall n i g, nth_error l i = Some g -> In ((n + i)%nat, g) (combine (seq n (length l)) l).
Proof.
  induction l as [|x l IH]; intros n [|i] g H; try discriminate; cbn [length seq combine].
  - injection H as ->. left. now rewrite Nat.add_0_r.
  - right. rewrite <- Nat.add_succ_comm. now apply IH.
Qed.

Lemma loose_placed t k f : In (k, f) (sd_loose t) <-> placed t k f "o".
Proof.
  pose proof (tables_ok t) as H. apply andb_true_iff in H as [H _]. rewrite <- rows_placed. now apply same_members_ok.
Qed.
Lemma group_placed t i g k f : nth_error (sd_groups t) i = Some g -> In (k, f) g <-> placed t k f (mark i).
Proof.
  intros N. pose proof (tables_ok t) as H. apply andb_true_iff in H as [_ H]. rewrite forallb_forall in H.
  specialize (H (i, g) (combine_nth _ 0 i g N)). rewrite <- rows_placed. now apply same_members_ok.
Qed.

Lemma catalogue_names : NoDup (map (fun r => str (fst (fst r))) catalogue).
Proof. apply nodupb_NoDup. vm_compute. reflexivity. Qed.

Lemma declared_placed t k f : declared t k f -> exists place, placed t k f place.
Proof.
  intros [H|(g & G & H)]; [exists "o"%char; now apply loose_placed|].
  apply In_nth_error in G as (i & G). exists (mark i). now apply (group_placed t i g k f G).
Qed.

Lemma one_row {A} (h : A -> pystr) l x y : NoDup (map h l) -> In x l -> In y l -> h x = h y -> x = y.
Proof.
  induction l as [|a l IH]; [contradiction|]. cbn [map]. intros N X Y E. inversion N as [|? ? N1 N2]; subst.
  destruct X as [->|X], Y as [->|Y]; auto.
  - exfalso. apply N1. rewrite E. now apply in_map.
  - exfalso. apply N1. rewrite <- E. now apply in_map.
Qed.

Lemma one_format t t' k f f' : declared t k f -> declared t' k f' -> f = f'.
Proof.
  intros H H'. apply declared_placed in H as (c & s & m & I & E & _). apply declared_placed in H' as (c' & s' & m' & I' & E' & _).
  assert (X : (s, f, m) = (s', f', m')); [|congruence].
  apply (one_row _ _ _ _ catalogue_names I I'). cbn [fst snd]. congruence.
Qed.

(** Which of two types has a main field unknown to the other. *)
Definition all_names (t : sd_type) : list pystr := names (sd_loose t ++ concat (sd_groups t)).
Lemma declared_name t k f : declared t k f -> In k (all_names t).
Proof.
  intros H. unfold all_names, names. rewrite map_app, in_app_iff. destruct H as [H|(g & G & H)].
  - left. apply in_map_iff. now exists (k, f).
  - right. apply in_map_iff. exists (k, f). split; [reflexivity|]. apply in_concat. eauto.
Qed.
Definition own (t t' : sd_type) : bool := existsb (fun k => negb (str_mem k (all_names t'))) (names (sd_main t)).
Definition inside (t t' : sd_type) : bool := forallb (fun k => str_mem k (names (sd_main t'))) (names (sd_main t)).
Lemma apart t t' : t <> t' -> own t t' = true \/ (inside t t' = true /\ own t' t = true).
Proof. intros N. destruct t, t'; try congruence; vm_compute; auto. Qed.

Lemma main_group t : In (sd_main t) (sd_groups t).
Proof. destruct t; left; reflexivity. Qed.

Lemma own_not t t' r : own t t' = true -> acceptable t r -> has_main t r -> ~ acceptable t' r.
Proof.
  intros O [HA _] (k & K1 & K2) [_ HB]. apply existsb_exists in O as (w & W1 & W2).
  destruct (HA _ (main_group t)) as [HC|HC]; [|now apply (HC k)].
  specialize (HC w W1). apply in_map_iff in HC as ([w' it] & E & I). cbn [fst] in E. subst w'.
  destruct (HB w it I) as (f & D & _). apply declared_name, str_mem_In in D. now rewrite D in W2.
Qed.

Lemma one_type t t' r : acceptable t r -> acceptable t' r -> has_main t r -> t = t'.
Proof.
  intros HA HB HM. assert (D : {t = t'} + {t <> t'}) by decide equality. destruct D as [D|D]; [exact D|]. exfalso.
  destruct (apart t t' D) as [O|[I O]].
  - now apply (own_not t t' r O HA HM).
  - apply (own_not t' t r O HB); [|exact HA]. destruct HM as (k & K1 & K2). exists k. split; [exact K1|].
    apply forallb_forall with (x := k) in I; [|exact K2]. now apply str_mem_In.
Qed.

Lemma grid_map k f : declared Grid k f -> declared Map k f.
Proof.
  assert (B : forallb (fun x => memb x (concat (sd_groups Map))) (sd_loose Grid ++ concat (sd_groups Grid)) = true) by (vm_compute; reflexivity).
  rewrite forallb_forall in B. intros H. right.
  assert (I : In (k, f) (sd_loose Grid ++ concat (sd_groups Grid))).
  { apply in_app_iff. destruct H as [H|(g & G & H)]; [now left|right]. apply in_concat. eauto. }
  apply B, memb_In, in_concat in I as (g & G & I). eauto.
Qed.
