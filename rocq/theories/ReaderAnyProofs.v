(** Proofs for C103. *)
From Coq Require Import ZArith List Bool Lia ZifyBool ZifyNat.
From Verif Require Import Base Bytes BytesSpec BytesProofs DmapTypes DmapRead Conversions DmapSpec DmapReadProofs DmapFileProofs
  DmapStreamProofs DmapFaultSpec DmapFaultProofs DmapAnySpec DmapAnyProofs DmapAnyFaultSpec DmapAnyFaultProofs
  SDarnFormats SDarn SDarnSpec SDarnProofs SDarnObjectProofs SDarnFileProofs SDarnFaultSpec SDarnReadFaultProofs.
Import ListNotations.
Open Scope Z_scope.

Lemma chain_span buf p bl q : chain_at buf p bl q -> p <= q.
Proof. induction 1 as [|p sz b bl q H1 H IH]; [lia|]. apply block_span in H1. lia. Qed.

Section Objects.
Variable buf : bytes.
Hypothesis HB : Forall is_byte buf.
Hypothesis HM : zlen buf <= ssize_max.

Lemma block_same p sz b sz' b' : 0 <= p -> block_at buf p sz b -> block_at buf p sz' b' -> sz = sz' /\ b = b'.
Proof.
  intros HP H H'.
  assert (E : read_record_fields buf p = (Ok b, p + sz)) by (apply block_iff; eauto).
  assert (E' : read_record_fields buf p = (Ok b', p + sz')) by (apply block_iff; eauto).
  rewrite E in E'. injection E' as -> E'. split; [lia|reflexivity].
Qed.

(** Of two chains from the same position one begins with the other. *)
Lemma chain_same p bl q : chain_at buf p bl q -> 0 <= p -> forall bl' q', chain_at buf p bl' q' ->
  (exists t, bl' = bl ++ t /\ chain_at buf q t q') \/ (exists t, bl = bl' ++ t /\ chain_at buf q' t q).
Proof.
  induction 1 as [p|p sz b bl q H1 H IH]; intros HP bl' q' H'; [left; exists bl'; auto|].
  inversion H' as [p' E1 E2 E3|p' sz' b' bl'' q'' H1' H'' E1 E2 E3]; subst;
    [right; exists (b :: bl); split; [reflexivity|econstructor; eauto]|].
  destruct (block_same _ _ _ _ _ HP H1 H1') as [<- <-]. apply block_span in H1.
  destruct (IH ltac:(lia) _ _ H'') as [(t & -> & C)|(t & -> & C)]; [left|right]; exists t; split; auto.
Qed.

Lemma loop_any fuel : forall r, rdr_buf r = buf -> 0 <= rdr_cursor r <= zlen buf -> zlen buf - rdr_cursor r < Z.of_nat fuel ->
  exists bl q x r', chain_at buf (rdr_cursor r) bl q /\ read_records_loop fuel r = (x, r') /\
    rdr_buf r' = buf /\ rdr_records r' = rdr_records r ++ recs bl /\ rdr_rec_num r' = rdr_rec_num r + zlen bl /\
    ((q = zlen buf /\ x = Ok tt /\ rdr_cursor r' = q) \/ exists e, q < zlen buf /\ block_bad buf q e /\ x = Raise e).
Proof.
  induction fuel as [|fuel IH]; intros [b0 p rs n] EB HP HF; cbn [rdr_buf rdr_cursor rdr_records rdr_rec_num] in *; subst b0; [lia|].
  cbn [read_records_loop rdr_buf rdr_cursor]. unfold end_bytes. destruct (p <? zlen buf) eqn:EC.
  - unfold read_record, bind. destruct (read_record_fields buf p) as [[b|e] c] eqn:E.
    + cbn [ret]. apply block_iff in E as (sz & H1 & ->); auto; [|lia]. apply block_span in H1 as SP.
      destruct (IH (mk_reader buf (p + sz) (rs ++ [record_of_fields b]) (n + 1))) as (bl & q & x & r' & C & R & K1 & K2 & K3 & K4);
        cbn [rdr_buf rdr_cursor rdr_records rdr_rec_num] in *; auto; try lia.
      exists (b :: bl), q, x, r'. splits; auto.
      * econstructor; eauto.
      * rewrite K2. unfold recs. cbn [map]. now rewrite <- app_assoc.
      * rewrite K3, zlen_cons. lia.
    + exists [], p. eexists _, _. splits; [constructor|reflexivity| | | |]; cbn [rdr_buf rdr_records rdr_rec_num recs map].
      * reflexivity.
      * now rewrite app_nil_r.
      * unfold zlen; cbn; lia.
      * right. exists e. splits; [lia| |reflexivity]. apply block_raise; auto; [lia|]. now exists c.
  - exists [], p. eexists _, _. splits; [constructor|reflexivity| | | |]; cbn [rdr_buf rdr_records rdr_rec_num rdr_cursor recs map].
    * reflexivity.
    * now rewrite app_nil_r.
    * unfold zlen; cbn; lia.
    * left. splits; [lia|reflexivity|reflexivity].
Qed.

Lemma darn_any t fuel : forall r, rdr_buf r = buf -> 0 <= rdr_cursor r <= zlen buf -> zlen buf - rdr_cursor r < Z.of_nat fuel ->
  exists bl q x r', chain_at buf (rdr_cursor r) bl q /\ Forall (acceptable t) (recs bl) /\
    read_darn_loop fuel (read_struct_list t) (read_optional_list t) r = (x, r') /\
    rdr_buf r' = buf /\ rdr_records r' = rdr_records r ++ recs bl /\ rdr_rec_num r' = rdr_rec_num r + zlen bl /\
    ((q = zlen buf /\ x = Ok tt /\ rdr_cursor r' = q) \/ (exists e, q < zlen buf /\ block_bad buf q e /\ x = Raise e) \/
     exists sz b e, block_at buf q sz b /\ ~ acceptable t (record_of_fields b) /\
       read_check_error t (record_of_fields b) (rdr_rec_num r + zlen bl) e /\ x = Raise e /\ rdr_cursor r' = q + sz).
Proof.
  induction fuel as [|fuel IH]; intros [b0 p rs n] EB HP HF; cbn [rdr_buf rdr_cursor rdr_records rdr_rec_num] in *; subst b0; [lia|].
  cbn [read_darn_loop rdr_buf rdr_cursor]. unfold end_bytes. destruct (p <? zlen buf) eqn:EC.
  - unfold read_darn_record, read_record, bind. cbn [rdr_buf rdr_cursor rdr_records rdr_rec_num].
    destruct (read_record_fields buf p) as [[b|e] c] eqn:E.
    + cbn [ret]. apply block_iff in E as (sz & H1 & ->); auto; [|lia]. apply block_span in H1 as SP.
      destruct (acceptable_dec t (record_of_fields b)) as [HA|HA].
      * pose proof HA as HA'. apply (read_accepts t _ n) in HA'. rewrite HA'. cbn [rdr_buf rdr_cursor rdr_records rdr_rec_num].
        destruct (IH (mk_reader buf (p + sz) (rs ++ [record_of_fields b]) (n + 1)))
          as (bl & q & x & r' & C & A & R & K1 & K2 & K3 & K4);
          cbn [rdr_buf rdr_cursor rdr_records rdr_rec_num] in *; auto; try lia.
        assert (Z1 : n + 1 + zlen bl = n + zlen (A:=block) (b :: bl)) by (unfold zlen, block; cbn [length]; lia).
        exists (b :: bl), q, x, r'. rewrite Z1 in K3, K4. splits; auto.
        -- econstructor; eauto.
        -- unfold recs. cbn [map]. constructor; auto.
        -- rewrite K2. unfold recs. cbn [map]. now rewrite <- app_assoc.
      * destruct (read_check_fails t _ n (recs_dmap_items b) HA) as (e & HE & HF'). rewrite HE.
        exists [], p. eexists _, _. splits; [constructor|constructor|reflexivity| | | |];
          cbn [rdr_buf rdr_records rdr_rec_num rdr_cursor recs map].
        -- reflexivity.
        -- now rewrite app_nil_r.
        -- unfold zlen; cbn; lia.
        -- right. right. exists sz, b, e. splits; auto. replace (n + zlen (@nil block)) with n by (unfold zlen; cbn; lia). exact HF'.
    + exists [], p. eexists _, _. splits; [constructor|constructor|reflexivity| | | |]; cbn [rdr_buf rdr_records rdr_rec_num recs map].
      * reflexivity.
      * now rewrite app_nil_r.
      * unfold zlen; cbn; lia.
      * right. left. exists e. splits; [lia| |reflexivity]. apply block_raise; auto; [lia|]. now exists c.
  - exists [], p. eexists _, _. splits; [constructor|constructor|reflexivity| | | |]; cbn [rdr_buf rdr_records rdr_rec_num rdr_cursor recs map].
    * reflexivity.
    * now rewrite app_nil_r.
    * unfold zlen; cbn; lia.
    * left. splits; [lia|reflexivity|reflexivity].
Qed.

End Objects.

Lemma read_state r : is_bytearray (rdr_buf r) -> 0 <= rdr_cursor r <= zlen (rdr_buf r) ->
  exists bl rs q x r', chain_at (rdr_buf r) (rdr_cursor r) bl q /\ Forall2 dict_of_block bl rs /\ read_records r = (x, r') /\
    rdr_buf r' = rdr_buf r /\ rdr_records r' = rdr_records r ++ rs /\ rdr_rec_num r' = rdr_rec_num r + zlen bl /\
    ((q = zlen (rdr_buf r) /\ x = Ok (rdr_records r') /\ rdr_cursor r' = q) \/
     exists e, q < zlen (rdr_buf r) /\ block_bad (rdr_buf r) q e /\ x = Raise e).
Proof.
  intros [HB HM] HP.
  destruct (loop_any _ HB HM (S (length (rdr_buf r))) r eq_refl HP ltac:(unfold zlen; lia)) as (bl & q & x & r' & C & R & K1 & K2 & K3 & K4).
  unfold read_records. rewrite R. destruct K4 as [(-> & -> & K4)|(e & L & F & ->)].
  - exists bl, (recs bl), (zlen (rdr_buf r)). unfold end_bytes. rewrite K1, K4, Z.ltb_irrefl.
    eexists _, r'. splits; eauto. now apply Forall2_dict.
  - exists bl, (recs bl), q. eexists _, r'. splits; eauto. now apply Forall2_dict.
Qed.

Lemma darn_state t r : is_bytearray (rdr_buf r) -> 0 <= rdr_cursor r <= zlen (rdr_buf r) ->
  exists bl rs q x r', chain_at (rdr_buf r) (rdr_cursor r) bl q /\ Forall2 dict_of_block bl rs /\ Forall (acceptable t) rs /\
    sd_read t r = (x, r') /\
    rdr_buf r' = rdr_buf r /\ rdr_records r' = rdr_records r ++ rs /\ rdr_rec_num r' = zlen bl /\
    ((q = zlen (rdr_buf r) /\ x = dmap2dict (rdr_records r') /\ rdr_cursor r' = q) \/
     (exists e, q < zlen (rdr_buf r) /\ block_bad (rdr_buf r) q e /\ x = Raise e) \/
     exists sz b d e, block_at (rdr_buf r) q sz b /\ dict_of_block b d /\ ~ acceptable t d /\
       read_check_error t d (zlen bl) e /\ x = Raise e /\ rdr_cursor r' = q + sz).
Proof.
  intros [HB HM] HP.
  destruct (darn_any _ HB HM t (S (length (rdr_buf r))) (mk_reader (rdr_buf r) (rdr_cursor r) (rdr_records r) 0) eq_refl HP ltac:(unfold zlen; cbn; lia))
    as (bl & q & x & r' & C & A & R & K1 & K2 & K3 & K4). cbn [rdr_buf rdr_cursor rdr_records rdr_rec_num] in *.
  rewrite Z.add_0_l in K3, K4.
  unfold sd_read, read_darn_records. rewrite R. destruct K4 as [(-> & -> & K4)|[(e & L & F & ->)|(sz & b & e & H1 & H2 & H3 & -> & H4)]].
  - exists bl, (recs bl), (zlen (rdr_buf r)). eexists _, r'. splits; eauto. now apply Forall2_dict.
  - exists bl, (recs bl), q. eexists _, r'. splits; eauto; [now apply Forall2_dict|]. right. left. eauto.
  - exists bl, (recs bl), q. eexists _, r'. splits; eauto; [now apply Forall2_dict|].
    right. right. exists sz, b, (record_of_fields b), e. splits; auto. apply record_of_fields_dict.
Qed.
