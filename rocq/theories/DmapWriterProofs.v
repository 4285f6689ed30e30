(** Facts about everything the writer emits, representable or not. *)
From Coq Require Import ZArith List Bool Lia ZifyBool ZifyNat.
From Verif Require Import Base Bytes BytesSpec BytesProofs Utf8 Utf8Proofs FloatBits FloatBitsProofs
  DmapTypes DmapRead DmapWrite Conversions DmapSpec DmapWriteSpec
  DmapReadProofs DmapFileProofs DmapStreamProofs DmapWriteProofs.
Import ListNotations.
Open Scope Z_scope.
Ltac Zify.zify_post_hook ::= Z.div_mod_to_equations.

(** ** The bytes of a record as a concatenation over its fields *)

Definition item_bytes (it : item) : res bytes :=
  match it with
  | IScalar s => dmap_scalar_to_bytes s
  | IArray a => fst (dmap_array_to_bytes a)
  | IPlain _ => Raise DmapTypeError
  end.

Lemma array_to_bytes_after a b a' : dmap_array_to_bytes a = (Ok b, a') -> a' = array_after a.
Proof.
  unfold dmap_array_to_bytes. destruct (rbind _ _) as [h|e]; [|discriminate].
  cbv zeta. intros [= _ <-]. reflexivity.
Qed.

Lemma fields_to_bytes_iff r data ns na r' :
  fields_to_bytes r = (Ok (data, ns, na), r') <->
  exists bl, Forall2 (fun p b => item_bytes (snd p) = Ok b) r bl /\ data = concat bl /\
    ns = scalars_of r /\ na = arrays_of r /\ r' = record_after r.
Proof.
  revert data ns na r'; induction r as [|[k it] r IH]; intros data ns na r'; cbn [fields_to_bytes].
  - split.
    + intros [= <- <- <- <-]. exists []. repeat split; auto; constructor.
    + intros (bl & HF & -> & -> & -> & ->). inversion HF. reflexivity.
  - unfold scalars_of, arrays_of. cbn [filter snd record_after map fst].
    destruct it as [s|a|v]; cbn [is_scalar is_array item_after].
    + rewrite zlen_cons. destruct (dmap_scalar_to_bytes s) as [b|e] eqn:Eb.
      * destruct (fields_to_bytes r) as [[[[d n1] n2]|e] r''] eqn:Er.
        -- destruct (proj1 (IH _ _ _ _) eq_refl) as (bl & HF & -> & -> & -> & ->).
           split.
           ++ intros [= <- <- <- <-]. exists (b :: bl).
              splits; [constructor; auto|auto|unfold scalars_of; lia|auto|auto].
           ++ intros (bl' & HF' & -> & -> & -> & ->).
              inversion HF' as [|? b' ? bl0 Hb HF0]; subst. cbn [snd item_bytes] in Hb.
              assert (b' = b) as -> by congruence.
              assert (bl0 = bl) as ->.
              { clear - HF HF0. revert bl0 HF0. induction HF as [|p b r bl Hp HF IH];
                  intros bl0 HF0; inversion HF0; subst; auto. f_equal; [congruence|auto]. }
              unfold scalars_of, arrays_of. cbn [concat]. rewrite Z.add_comm. reflexivity.
        -- split; [discriminate|]. intros (bl' & HF' & -> & -> & -> & ->).
           inversion HF' as [|? b' ? bl0 Hb HF0]; subst.
           assert (HC : (Raise e, r'') = (Ok (concat bl0, scalars_of r, arrays_of r), record_after r)).
           { apply IH. exists bl0. auto. }
           discriminate.
      * split; [discriminate|]. intros (bl' & HF' & _).
        inversion HF' as [|? b' ? bl0 Hb HF0]; subst. cbn [snd item_bytes] in Hb. congruence.
    + rewrite zlen_cons. destruct (dmap_array_to_bytes a) as [[b|e] a'] eqn:Eb.
      * apply array_to_bytes_after in Eb as Ea. subst a'.
        destruct (fields_to_bytes r) as [[[[d n1] n2]|e] r''] eqn:Er.
        -- destruct (proj1 (IH _ _ _ _) eq_refl) as (bl & HF & -> & -> & -> & ->).
           split.
           ++ intros [= <- <- <- <-]. exists (b :: bl).
              splits; [constructor; auto; cbn [snd item_bytes]; now rewrite Eb
                      |auto|auto|unfold arrays_of; lia|auto].
           ++ intros (bl' & HF' & -> & -> & -> & ->).
              inversion HF' as [|? b' ? bl0 Hb HF0]; subst. cbn [snd item_bytes] in Hb.
              rewrite Eb in Hb. cbn [fst] in Hb.
              assert (b' = b) as -> by congruence.
              assert (bl0 = bl) as ->.
              { clear - HF HF0. revert bl0 HF0. induction HF as [|p b r bl Hp HF IH];
                  intros bl0 HF0; inversion HF0; subst; auto. f_equal; [congruence|auto]. }
              unfold scalars_of, arrays_of. cbn [concat]. rewrite (Z.add_comm 1). reflexivity.
        -- split; [discriminate|]. intros (bl' & HF' & -> & -> & -> & ->).
           inversion HF' as [|? b' ? bl0 Hb HF0]; subst.
           assert (HC : (Raise e, r'') = (Ok (concat bl0, scalars_of r, arrays_of r), record_after r)).
           { apply IH. exists bl0. auto. }
           discriminate.
      * split; [discriminate|]. intros (bl' & HF' & _).
        inversion HF' as [|? b' ? bl0 Hb HF0]; subst. cbn [snd item_bytes] in Hb.
        rewrite Eb in Hb. discriminate.
    + split; [discriminate|]. intros (bl' & HF' & _).
      inversion HF' as [|? b' ? bl0 Hb HF0]; subst. discriminate.
Qed.

(** ** Headers *)

Lemma scalars_of_nonneg r : 0 <= scalars_of r.
Proof. apply zlen_nonneg. Qed.
Lemma arrays_of_nonneg r : 0 <= arrays_of r.
Proof. apply zlen_nonneg. Qed.

Lemma pack_int32_inv z bs : pack_int true 4 z = Ok bs -> wire_int32 z bs /\ - 2 ^ 31 <= z < 2 ^ 31.
Proof.
  intros H. apply pack_int_inv in H as [-> H]. split; [|now apply int32_range].
  apply wire_int_enc; [lia|]. apply fits_iff; [lia|exact H].
Qed.

Lemma record_bytes_header r bs r' :
  dmap_record_to_bytes r = (Ok bs, r') ->
  exists w1 w2 w3 bl,
    bs = ident65537 ++ w1 ++ w2 ++ w3 ++ concat bl /\
    wire_int32 (zlen bs) w1 /\ wire_int32 (scalars_of r) w2 /\ wire_int32 (arrays_of r) w3 /\
    Forall2 (fun p b => item_bytes (snd p) = Ok b) r bl /\ r' = record_after r.
Proof.
  unfold dmap_record_to_bytes.
  destruct (fields_to_bytes r) as [[[[d n1] n2]|e] r''] eqn:Er; [|discriminate].
  apply fields_to_bytes_iff in Er as (bl & HF & -> & -> & -> & ->). cbv zeta.
  destruct (header_bytes _ _ _) as [h|e] eqn:Eh; [|discriminate]. cbn [rbind].
  intros [= <- <-]. unfold header_bytes in Eh.
  inv_rbind Eh b0. inv_rbind Eh b1. inv_rbind Eh b2. inv_rbind Eh b3. injection Eh as <-.
  apply pack_int_inv in H as [-> _]. change (le_enc 4 65537) with ident65537.
  apply pack_int32_inv in H0 as [W1 _]. apply pack_int32_inv in H1 as [W2 _].
  apply pack_int32_inv in H2 as [W3 _].
  exists b1, b2, b3, bl. rewrite <- !app_assoc. splits; auto.
  rewrite !zlen_app. pose proof (wire_int_len _ _ _ _ W1). pose proof (wire_int_len _ _ _ _ W2).
  pose proof (wire_int_len _ _ _ _ W3). change (zlen ident65537) with 4.
  replace (4 + (zlen b1 + (zlen b2 + (zlen b3 + zlen (concat bl))))) with (zlen (concat bl) + 16) by lia.
  exact W1.
Qed.

(** All records of a successful run. *)
Lemma records_bytes_iff acc rs acc' rs' :
  dmap_records_to_bytes acc rs = (Ok tt, acc', rs') <->
  exists bl, Forall2 (fun r b => dmap_record_to_bytes r = (Ok b, record_after r)) rs bl /\
    acc' = acc ++ concat bl /\ rs' = map record_after rs.
Proof.
  revert acc acc' rs'; induction rs as [|r rs IH]; intros acc acc' rs'; cbn [dmap_records_to_bytes].
  - split.
    + intros [= <- <-]. exists []. splits; [constructor|cbn; now rewrite app_nil_r|reflexivity].
    + intros (bl & HF & -> & ->). inversion HF. cbn. now rewrite app_nil_r.
  - destruct (dmap_record_to_bytes r) as [[b|e] r'] eqn:Er.
    + assert (r' = record_after r) as ->.
      { apply record_bytes_header in Er. now destruct Er as (w1 & w2 & w3 & bl & _ & _ & _ & _ & _ & ->). }
      destruct (dmap_records_to_bytes (acc ++ b) rs) as [[res acc2] rs2] eqn:E2.
      split.
      * intros [= -> <- <-]. apply IH in E2 as (bl & HF & -> & ->).
        exists (b :: bl). splits; [constructor; auto|cbn [concat]; now rewrite app_assoc|reflexivity].
      * intros (bl & HF & -> & ->). inversion HF as [|? b' ? bl0 Hb HF0]; subst.
        assert (b' = b) as -> by congruence.
        assert (HC : (res, acc2, rs2) = (Ok tt, (acc ++ b) ++ concat bl0, map record_after rs)).
        { rewrite <- E2. apply IH. exists bl0. auto. }
        injection HC as -> -> ->. cbn [concat map]. now rewrite app_assoc.
    + split; [discriminate|]. intros (bl & HF & _).
      inversion HF as [|? b' ? bl0 Hb HF0]; subst. congruence.
Qed.

(** ** Walks over sequences of blocks *)

Definition block_like (b : bytes) : Prop :=
  exists w1 rest, b = ident65537 ++ w1 ++ rest /\ wire_int32 (zlen b) w1.

Lemma record_bytes_block_like r b r' : dmap_record_to_bytes r = (Ok b, r') -> block_like b.
Proof.
  intros H. apply record_bytes_header in H as (w1 & w2 & w3 & bl & HE & W1 & _).
  exists w1, (w2 ++ w3 ++ concat bl). auto.
Qed.

Lemma walk_blocks bl : Forall block_like bl -> forall pre,
  walk (pre ++ concat bl) (zlen pre) (map zlen bl).
Proof.
  intros H. induction H as [|b bl (w1 & rest & HE & W1) H IH]; intros pre; cbn [concat map].
  - rewrite app_nil_r. constructor.
  - econstructor; [|exact W1| |].
    + rewrite HE. exists (pre ++ ident65537), (rest ++ concat bl). split.
      * now rewrite <- !app_assoc.
      * rewrite zlen_app. reflexivity.
    + rewrite HE, zlen_app. change (zlen ident65537) with 4.
      pose proof (zlen_nonneg (w1 ++ rest)). lia.
    + rewrite app_assoc, <- zlen_app. apply IH.
Qed.

Lemma walk_blocks0 bl : Forall block_like bl -> walk (concat bl) 0 (map zlen bl).
Proof. intros H. exact (walk_blocks bl H []). Qed.

