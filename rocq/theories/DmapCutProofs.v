(** Proofs for C105. *)
From Coq Require Import ZArith List Bool Lia ZifyBool ZifyNat.
From Verif Require Import Base Bytes BytesSpec BytesProofs DmapTypes DmapRead DmapSpec DmapReadProofs DmapFileProofs
  DmapStreamProofs DmapAnySpec DmapAnyProofs DmapAnyFaultSpec DmapCutSpec.
Import ListNotations.
Open Scope Z_scope.

Lemma occurs_more P Q p x : occurs P p x -> occurs (P ++ Q) p x.
Proof. intros (a & b & -> & L). exists a, (b ++ Q). rewrite <- !app_assoc. auto. Qed.
Lemma occurs_less P Q p x : occurs (P ++ Q) p x -> p + zlen x <= zlen P -> occurs P p x.
Proof.
  intros (a & b & E & L) H. unfold zlen in *.
  exists a, (skipn (length (a ++ x)) P). split; [|exact L].
  assert (EP : firstn (length (a ++ x)) P = a ++ x).
  { assert (F : firstn (length (a ++ x)) (P ++ Q) = a ++ x).
    { rewrite E, app_assoc, firstn_app, Nat.sub_diag, firstn_O, app_nil_r. apply firstn_all. }
    rewrite firstn_app in F. rewrite app_length in *.
    replace (length a + length x - length P)%nat with 0%nat in F by lia. now rewrite firstn_O, app_nil_r in F. }
  rewrite app_assoc, <- EP at 1. rewrite EP at 1. rewrite <- EP at 1. symmetry. apply firstn_skipn.
Qed.

Lemma same_int buf p n m a b : occurs buf p a -> occurs buf p b -> wire_int32 n a -> wire_int32 m b -> n = m.
Proof.
  intros HA HB' H1 H2. pose proof (wire_int_len _ _ _ _ H1). pose proof (wire_int_len _ _ _ _ H2).
  assert (b = a) as -> by (eapply occurs_eq; eauto; congruence).
  apply wire_int_iff in H1 as (_ & _ & ->); [|lia]. apply wire_int_iff in H2 as (_ & _ & ->); [|lia]. reflexivity.
Qed.

Lemma walk_cut P Q p ns : walk P p ns -> 0 <= p -> forall ks, walk (P ++ Q) p ks ->
  exists ms, ks = ns ++ ms /\ p + sum ns = zlen P.
Proof.
  induction 1 as [|p n ns szb HO HW HP H IH]; intros H0 ks HK.
  - exists ks. split; [reflexivity|]. cbn. lia.
  - pose proof (occurs_bounds _ _ _ HO). pose proof (wire_int_len _ _ _ _ HW). apply (occurs_more P Q) in HO.
    inversion HK as [E1 E2|p' n' ks' szb' HO' HW' HP' HK']; subst.
    + rewrite zlen_app in *. pose proof (zlen_nonneg Q). lia.
    + pose proof (same_int _ _ _ _ _ _ HO HO' HW HW') as <-.
      destruct (IH ltac:(lia) _ HK') as (ms & -> & E). exists ms. split; [reflexivity|]. cbn [sum]. lia.
Qed.

Lemma read_walk buf rs : is_bytearray buf -> dmap_read buf = Ok rs -> exists ns, walk buf 0 ns /\ length ns = length rs.
Proof.
  intros [HB HM] H. apply dmap_read_iff_trace in H as (bl & HF & HD).
  apply fields_walk in HF as (ns & HW & HL); auto. exists ns. split; auto. rewrite HL. eapply Forall2_len; eauto.
Qed.

Lemma part_bytes (P Q : bytes) : is_bytearray (P ++ Q) -> is_bytearray P.
Proof. intros [HB HM]. rewrite zlen_app in HM. pose proof (zlen_nonneg Q). apply Forall_app in HB as [HB _]. split; [exact HB|lia]. Qed.

Lemma block_head buf p sz b : block_at buf p sz b -> exists szb, occurs buf (p + 4) szb /\ wire_int32 sz szb.
Proof.
  intros [ss aa ident szb nsb nab sb HO HI HSZ HNS HNA HR HSS HAA HC HS HA]. exists szb. split; [|exact HSZ].
  apply occurs_app in HO as [_ HO]. apply occurs_app in HO as [HO _]. unfold zlen in HO. rewrite HI in HO. exact HO.
Qed.

Lemma block_grow P Q p sz b sz' b' : is_bytearray (P ++ Q) -> block_at P p sz b -> block_at (P ++ Q) p sz' b' ->
  sz = sz' /\ (tame b -> b = b') /\ (tame b' -> b = b').
Proof.
  intros HA H H'. pose proof (part_bytes _ _ HA) as [HB HM]. destruct HA as [HB' HM'].
  destruct (block_head _ _ _ _ H) as (x & O1 & W1). destruct (block_head _ _ _ _ H') as (x' & O2 & W2).
  pose proof (same_int _ _ _ _ _ _ (occurs_more _ Q _ _ O1) O2 W1 W2) as <-. split; [reflexivity|].
  pose proof (block_span _ _ _ _ H) as SP.
  assert (R : read_record_fields P p = (Ok b, p + sz)) by (apply block_iff; [exact HB|exact HM|lia|eauto]).
  assert (R' : read_record_fields (P ++ Q) p = (Ok b', p + sz)) by (apply block_iff; [exact HB'|exact HM'|lia|eauto]).
  split; intros HT.
  - apply read_block_ok in R as (id & bs & O & W & E); auto; [|lia]. apply (occurs_more P Q) in O.
    rewrite (read_block_occ _ _ _ _ _ HM' O W) in R'. now injection R'.
  - apply read_block_ok in R' as (id & bs & O & W & E); auto; [|lia]. apply occurs_less in O; [|lia].
    rewrite (read_block_occ _ _ _ _ _ HM O W) in R. now injection R.
Qed.

Lemma blocks_cut P Q p blP : is_bytearray (P ++ Q) -> blocks_at P p blP -> forall bl, blocks_at (P ++ Q) p bl ->
  forall i b b', nth_error bl i = Some b -> nth_error blP i = Some b' -> (tame b -> b' = b) /\ (tame b' -> b' = b).
Proof.
  intros HA H. induction H as [|p sz b0 blP H1 H IH]; intros bl HK i b b' N N'; [destruct i; discriminate N'|].
  inversion HK as [E1 E2|p' sz' b1 bl' K1 K]; subst.
  - destruct i; discriminate N.
  - destruct (block_grow _ _ _ _ _ _ _ HA H1 K1) as (<- & T1 & T2). destruct i as [|i]; cbn [nth_error] in N, N'; [|eauto].
    injection N as <-. injection N' as <-. auto.
Qed.

Lemma chain_kept P Q p bl q : is_bytearray (P ++ Q) -> chain_at (P ++ Q) p bl q -> q = zlen P -> Forall tame bl -> blocks_at P p bl.
Proof.
  intros HA H. pose proof (part_bytes _ _ HA) as [HB HM]. destruct HA as [HB' HM'].
  induction H as [p|p sz b bl q H1 H IH]; intros EQ HT; [subst; constructor|].
  inversion HT as [|b0 l0 T1 T2]; subst b0 l0. econstructor; [|now apply IH].
  pose proof (block_span _ _ _ _ H1) as SP.
  assert (LE : p + sz <= q). { clear - H. induction H as [|p' sz' b' bl q H1 H IH]; [lia|]. apply block_span in H1. lia. }
  assert (R : read_record_fields (P ++ Q) p = (Ok b, p + sz)) by (apply block_iff; [exact HB'|exact HM'|lia|eauto]).
  apply read_block_ok in R as (id & bs & O & W & E); auto; [|lia]. apply occurs_less in O; [|lia].
  pose proof (read_block_occ _ _ _ _ _ HM O W) as R. apply block_iff in R as (sz' & K & E'); auto; [|lia].
  replace sz with sz' by lia. exact K.
Qed.
