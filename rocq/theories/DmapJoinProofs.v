(** Proofs for C106. *)
From Coq Require Import ZArith List Bool Lia.
From Verif Require Import Base Bytes BytesSpec BytesProofs DmapTypes DmapRead DmapSpec DmapReadProofs DmapFileProofs
  DmapStreamProofs DmapAnySpec DmapAnyProofs DmapCutSpec DmapCutProofs DmapJoinSpec.
Import ListNotations.
Open Scope Z_scope.

Section Shift.
Variables A B : bytes.
Notation a := (zlen A).

Lemma occurs_move p x : 0 <= p -> occurs B p x <-> occurs (A ++ B) (a + p) x.
Proof.
  intros H. split; [apply occurs_shift|]. intros O. apply occurs_in_suffix in O; [|lia].
  now replace (a + p - a) with p in O by lia.
Qed.

Lemma stands_move p x : 0 <= p -> stands B p x <-> stands (A ++ B) (a + p) x.
Proof.
  pose proof (zlen_nonneg A). intros H0. split; intros [O|N _ _]; try lia; apply st_front; now apply occurs_move.
Qed.

Lemma text_move p s q : 0 <= p -> text_at B p s q <-> text_at (A ++ B) (a + p) s (a + q).
Proof.
  pose proof (zlen_nonneg A). intros H0. split; intros T.
  - inversion T as [bs W O E|e N]; subst; [|lia]. rewrite Z.add_assoc. apply ta_plain; [exact W|now apply stands_move].
  - inversion T as [bs W O E|e N]; subst; [|lia]. replace q with (p + zlen bs) by lia. apply ta_plain; [exact W|now apply stands_move].
Qed.

Lemma sizes_move ns : forall p, 0 <= p -> sizes_at B p ns <-> sizes_at (A ++ B) (a + p) ns.
Proof.
  induction ns as [|n ns IH]; intros p H0; [split; constructor|].
  split; intros T; inversion T as [|p' n' ns' bs W O T']; subst; apply (za_cons _ _ _ _ bs); auto.
  - now apply stands_move.
  - rewrite <- Z.add_assoc. apply IH; [lia|exact T'].
  - now apply stands_move.
  - rewrite <- Z.add_assoc in T'. apply IH in T'; [exact T'|lia].
Qed.

Lemma cells_move f p dims sh d q : 0 <= p -> cells_at B f p dims sh d q <-> cells_at (A ++ B) f (a + p) dims sh d (a + q).
Proof.
  intros H0. split; intros T.
  - inversion T; subst.
    + rewrite Z.add_assoc. econstructor; eauto. now apply occurs_move.
    + rewrite Z.add_assoc. eapply (ca_rest _ _ _ _ before n m after d (A ++ front)); eauto.
      * now rewrite <- app_assoc.
      * rewrite zlen_app. lia.
  - inversion T; subst.
    + replace q with (p + product sh * Z.of_nat (wire_size f)) by lia. econstructor; eauto. now apply occurs_move.
    + replace q with (p + product (before ++ n :: after) * Z.of_nat (wire_size f)) by lia.
      match goal with E : A ++ B = front ++ rest |- _ => rename E into EQ end.
      assert (LF : (length A <= length front)%nat) by (unfold zlen in *; lia).
      assert (EF : front = A ++ skipn (length A) front).
      { rewrite <- (firstn_skipn (length A) front) at 1. f_equal.
        apply (f_equal (firstn (length A))) in EQ. rewrite firstn_app, Nat.sub_diag, firstn_O, app_nil_r, firstn_all, firstn_app in EQ.
        replace (length A - length front)%nat with 0%nat in EQ by lia. rewrite firstn_O, app_nil_r in EQ. now symmetry. }
      rewrite EF, <- app_assoc in EQ. apply app_inv_head in EQ.
      eapply (ca_rest _ _ _ _ before n m after d (skipn (length A) front)); eauto.
      unfold zlen in *. rewrite skipn_length. lia.
Qed.

Lemma text_forward buf p s q : 0 <= p -> text_at buf p s q -> p < q.
Proof.
  intros H0 T. inversion T as [bs W O E|e N]; subst; [|lia].
  destruct W as (u & _ & _ & ->). rewrite zlen_app. unfold zlen at 2. cbn [length]. pose proof (zlen_nonneg u). lia.
Qed.

Lemma array_move blk p d q : 0 <= p -> array_at B blk p d q <-> array_at (A ++ B) blk (a + p) d (a + q).
Proof.
  pose proof (zlen_nonneg A). intros H0. split; intros T.
  - inversion T; subst. match goal with H : text_at B p _ _ |- _ => pose proof (text_forward _ _ _ _ H0 H) end.
    pose proof (zlen_nonneg dims).
    apply (array_at_intro _ _ _ name f dims shape data db (a + p1)); auto.
    + now apply text_move.
    + now apply stands_move; [lia|].
    + rewrite <- Z.add_assoc. now apply stands_move; [lia|].
    + rewrite <- Z.add_assoc. now apply sizes_move; [lia|].
    + rewrite <- !Z.add_assoc. rewrite (Z.add_assoc p1). now apply cells_move; [lia|].
  - inversion T; subst. match goal with H : text_at (A ++ B) (a + p) _ _ |- _ => pose proof (text_forward (A ++ B) (a + p) _ _ ltac:(lia) H) end.
    pose proof (zlen_nonneg dims).
    assert (EP : p1 = a + (p1 - a)) by lia. set (p2 := p1 - a) in *. clearbody p2. subst p1.
    apply (array_at_intro _ _ _ name f dims shape data db p2); auto.
    + now apply text_move.
    + now apply stands_move; [lia|].
    + apply stands_move; [lia|]. now rewrite Z.add_assoc.
    + apply sizes_move; [lia|]. now rewrite Z.add_assoc.
    + apply cells_move; [lia|]. now rewrite !Z.add_assoc.
Qed.

Lemma arrays_move blk aa : forall p r, arrays_from B 0 blk p aa r <-> arrays_from (A ++ B) a blk (a + p) aa (a + r).
Proof.
  induction aa as [|d aa IH]; intros p r; split; intros T; inversion T; subst.
  - constructor.
  - match goal with E : a + p = a + r |- _ => apply Z.add_reg_l in E; subst end. constructor.
  - apply (af_cons _ _ _ _ _ (a + q)); [lia|now apply array_move|now apply IH].
  - assert (EP : q = a + (q - a)) by lia. set (q2 := q - a) in *. clearbody q2. subst q.
    apply (af_cons _ _ _ _ _ q2); [lia|apply array_move; [lia|assumption]|now apply IH].
Qed.

Lemma blocks_move bl : forall p, 0 <= p -> blocks_from B 0 p bl <-> blocks_from (A ++ B) a (a + p) bl.
Proof.
  induction bl as [|[ss aa] bl IH]; intros p H0; split; intros T.
  - inversion T; subst. rewrite <- zlen_app. constructor.
  - inversion T as [E|]; subst. rewrite zlen_app in E. apply Z.add_reg_l in E. subst. constructor.
  - inversion T; subst. apply (bf_block _ _ _ sz ss aa bl ident szb nsb nab sb); auto.
    + now apply occurs_move.
    + rewrite zlen_app. lia.
    + rewrite <- !Z.add_assoc. rewrite (Z.add_assoc p). now apply arrays_move.
    + rewrite <- Z.add_assoc. apply IH; [lia|assumption].
  - inversion T; subst. rewrite zlen_app in *. apply (bf_block _ _ _ sz ss aa bl ident szb nsb nab sb); auto.
    + now apply occurs_move.
    + lia.
    + apply arrays_move. now rewrite !Z.add_assoc.
    + apply IH; [lia|]. now rewrite Z.add_assoc.
Qed.
End Shift.

Lemma arrays_from_at buf lo blk p aa r : arrays_from buf lo blk p aa r -> arrays_at buf blk p aa r.
Proof. induction 1; econstructor; eauto. Qed.

Lemma blocks_from_at buf lo p bl : blocks_from buf lo p bl -> blocks_at buf p bl.
Proof. induction 1; econstructor; eauto. econstructor; eauto. now apply arrays_from_at in H9. Qed.

(** Blocks without negative sizes stay where they are when bytes are added. *)
Lemma blocks_join P Q p blP bl : is_bytearray (P ++ Q) -> blocks_at P p blP -> Forall tame blP ->
  blocks_at (P ++ Q) (zlen P) bl -> blocks_at (P ++ Q) p (blP ++ bl).
Proof.
  intros HA H. pose proof (part_bytes _ _ HA) as [HB HM]. destruct HA as [HB' HM'].
  induction H as [|p sz b blP H1 H IH]; intros HT HK; [exact HK|].
  inversion HT as [|b0 l0 T1 T2]; subst b0 l0. cbn [app]. econstructor; [|now apply IH].
  pose proof (block_span _ _ _ _ H1) as SP.
  assert (R : read_record_fields P p = (Ok b, p + sz)) by (apply block_iff; [exact HB|exact HM|lia|eauto]).
  apply read_block_ok in R as (id & bs & O & W & E); auto; [|lia]. apply (occurs_more P Q) in O.
  pose proof (read_block_occ _ _ _ _ _ HM' O W) as R. apply block_iff in R as (sz' & K & E'); auto; [|lia].
  replace sz with sz' by lia. exact K.
Qed.

Lemma last_bytearray (P Q : bytes) : is_bytearray (P ++ Q) -> is_bytearray Q.
Proof. intros [HB HM]. rewrite zlen_app in HM. pose proof (zlen_nonneg P). apply Forall_app in HB as [_ HB]. split; [exact HB|lia]. Qed.

Lemma read_blocks_at buf bl rs : is_bytearray buf -> blocks_at buf 0 bl -> dmap_read buf = Ok rs -> Forall2 dict_of_block bl rs.
Proof.
  intros HA HB H. apply read_any in H as (bl' & _ & H' & F); auto. now rewrite (any_once _ _ _ HA HB H').
Qed.

Lemma read_join A B blA blB rsA rsB : is_bytearray (A ++ B) ->
  blocks_at A 0 blA -> Forall tame blA -> blocks_from B 0 0 blB ->
  dmap_read A = Ok rsA -> dmap_read B = Ok rsB -> dmap_read (A ++ B) = Ok (rsA ++ rsB).
Proof.
  intros HA H1 HT H2 R1 R2. pose proof (part_bytes _ _ HA) as BA. pose proof (last_bytearray _ _ HA) as BB.
  pose proof (read_blocks_at _ _ _ BA H1 R1) as F1.
  pose proof (read_blocks_at _ _ _ BB (blocks_from_at _ _ _ _ H2) R2) as F2.
  apply (blocks_move A B blB 0 ltac:(lia)), blocks_from_at in H2. rewrite Z.add_0_r in H2.
  apply read_any; [exact HA|]. exists (blA ++ blB). split; [|split; [now apply blocks_join|now apply Forall2_app]].
  apply read_any in R1 as (bl & N & K & _); [|exact BA]. rewrite (any_once _ _ _ BA H1 K). destruct bl; [congruence|discriminate].
Qed.

Lemma read_split A B blA blB rsA rs : is_bytearray (A ++ B) ->
  blocks_at A 0 blA -> Forall tame blA -> blocks_from (A ++ B) (zlen A) (zlen A) blB -> blB <> [] ->
  dmap_read A = Ok rsA -> dmap_read (A ++ B) = Ok rs -> exists rsB, dmap_read B = Ok rsB /\ rs = rsA ++ rsB.
Proof.
  intros HA H1 HT H2 N R1 R. pose proof (part_bytes _ _ HA) as BA. pose proof (last_bytearray _ _ HA) as BB.
  pose proof (read_blocks_at _ _ _ BA H1 R1) as F1.
  pose proof (blocks_join _ _ _ _ _ HA H1 HT (blocks_from_at _ _ _ _ H2)) as J.
  pose proof (read_blocks_at _ _ _ HA J R) as F. apply Forall2_app_inv_l in F as (r1 & r2 & F1' & F2 & ->).
  assert (r1 = rsA) as ->.
  { assert (K : dmap_read A = Ok r1); [|congruence]. apply read_any; [exact BA|]. exists blA. split; [|auto].
    apply read_any in R1 as (bl & N' & K & _); [|exact BA]. rewrite (any_once _ _ _ BA H1 K). exact N'. }
  exists r2. split; [|reflexivity].
  assert (H3 : blocks_from (A ++ B) (zlen A) (zlen A + 0) blB) by now rewrite Z.add_0_r.
  apply blocks_move, blocks_from_at in H3; [|lia]. apply read_any; [exact BB|]. exists blB. auto.
Qed.
