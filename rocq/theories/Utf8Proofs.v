(** Lemmas about the UTF-8 codec of Utf8.v. *)
From Coq Require Import ZArith List Bool Lia ZifyBool ZifyNat.
From Verif Require Import Base Bytes BytesSpec BytesProofs Utf8.
Import ListNotations.
Open Scope Z_scope.
Ltac Zify.zify_post_hook ::= Z.div_mod_to_equations.

Definition ascii (s : pystr) : Prop := Forall (fun c => 0 <= c < 128) s.

Lemma some_inj {A} (x y : A) : Some x = Some y -> x = y.
Proof. congruence. Qed.

(** Unfolding of the decoder, one class of lead byte at a time. *)
Lemma utf8_dec_1 b0 t :
  0 <= b0 < 128 ->
  utf8_dec (b0 :: t) = match utf8_dec t with Some s => Some (b0 :: s) | None => None end.
Proof.
  intros H. cbn [utf8_dec]. replace ((0 <=? b0) && (b0 <? 128)) with true by lia. reflexivity.
Qed.

Lemma utf8_dec_2 b0 b1 t :
  194 <= b0 < 224 -> 128 <= b1 < 192 ->
  utf8_dec (b0 :: b1 :: t) =
  match utf8_dec t with
  | Some s => Some ((b0 - 192) * 64 + (b1 - 128) :: s) | None => None end.
Proof.
  intros H0 H1. cbn [utf8_dec]. unfold is_cont.
  replace ((0 <=? b0) && (b0 <? 128)) with false by lia.
  replace ((194 <=? b0) && (b0 <? 224)) with true by lia.
  replace ((128 <=? b1) && (b1 <? 192)) with true by lia.
  reflexivity.
Qed.

Lemma utf8_dec_3 b0 b1 b2 t :
  224 <= b0 < 240 -> 128 <= b1 < 192 -> 128 <= b2 < 192 ->
  (b0 = 224 -> 160 <= b1) -> (b0 = 237 -> b1 < 160) ->
  utf8_dec (b0 :: b1 :: b2 :: t) =
  match utf8_dec t with
  | Some s => Some ((b0 - 224) * 4096 + (b1 - 128) * 64 + (b2 - 128) :: s)
  | None => None end.
Proof.
  intros H0 H1 H2 H3 H4. cbn [utf8_dec]. unfold is_cont.
  replace ((0 <=? b0) && (b0 <? 128)) with false by lia.
  replace ((194 <=? b0) && (b0 <? 224)) with false by lia.
  replace ((224 <=? b0) && (b0 <? 240)) with true by lia.
  replace ((128 <=? b1) && (b1 <? 192)) with true by lia.
  replace ((128 <=? b2) && (b2 <? 192)) with true by lia.
  replace (negb (b0 =? 224) || (160 <=? b1)) with true by lia.
  replace (negb (b0 =? 237) || (b1 <? 160)) with true by lia.
  reflexivity.
Qed.

Lemma utf8_dec_4 b0 b1 b2 b3 t :
  240 <= b0 < 245 -> 128 <= b1 < 192 -> 128 <= b2 < 192 -> 128 <= b3 < 192 ->
  (b0 = 240 -> 144 <= b1) -> (b0 = 244 -> b1 < 144) ->
  utf8_dec (b0 :: b1 :: b2 :: b3 :: t) =
  match utf8_dec t with
  | Some s => Some ((b0 - 240) * 262144 + (b1 - 128) * 4096
                    + (b2 - 128) * 64 + (b3 - 128) :: s)
  | None => None end.
Proof.
  intros H0 H1 H2 H3 H4 H5. cbn [utf8_dec]. unfold is_cont.
  replace ((0 <=? b0) && (b0 <? 128)) with false by lia.
  replace ((194 <=? b0) && (b0 <? 224)) with false by lia.
  replace ((224 <=? b0) && (b0 <? 240)) with false by lia.
  replace ((240 <=? b0) && (b0 <? 245)) with true by lia.
  replace ((128 <=? b1) && (b1 <? 192)) with true by lia.
  replace ((128 <=? b2) && (b2 <? 192)) with true by lia.
  replace ((128 <=? b3) && (b3 <? 192)) with true by lia.
  replace (negb (b0 =? 240) || (144 <=? b1)) with true by lia.
  replace (negb (b0 =? 244) || (b1 <? 144)) with true by lia.
  reflexivity.
Qed.

(** The decoder inverts the encoder, one character at a time. *)
Lemma utf8_dec_enc1 c b t :
  utf8_enc1 c = Some b ->
  utf8_dec (b ++ t) = match utf8_dec t with Some s => Some (c :: s) | None => None end.
Proof.
  unfold utf8_enc1.
  destruct (c <? 0) eqn:E0; [discriminate|].
  destruct (c <? 128) eqn:E1.
  { intros HS; apply some_inj in HS; subst b. cbn [app]. apply utf8_dec_1. lia. }
  destruct (c <? 2048) eqn:E2.
  { intros HS; apply some_inj in HS; subst b. cbn [app]. rewrite utf8_dec_2 by lia.
    destruct (utf8_dec t); auto. do 2 f_equal. lia. }
  destruct (c <? 65536) eqn:E3.
  { destruct ((55296 <=? c) && (c <? 57344)) eqn:ES; [discriminate|].
    intros HS; apply some_inj in HS; subst b. cbn [app]. rewrite utf8_dec_3 by lia.
    destruct (utf8_dec t); auto. do 2 f_equal. lia. }
  destruct (c <? 1114112) eqn:E4; [|discriminate].
  intros HS; apply some_inj in HS; subst b. cbn [app]. rewrite utf8_dec_4 by lia.
  destruct (utf8_dec t); auto. do 2 f_equal. lia.
Qed.

Lemma utf8_dec_enc s e : utf8_enc s = Some e -> utf8_dec e = Some s.
Proof.
  revert e; induction s as [|c s IH]; cbn [utf8_enc]; intros e.
  - intros [= <-]. reflexivity.
  - destruct (utf8_enc1 c) as [b|] eqn:E1; [|discriminate].
    destruct (utf8_enc s) as [bs|] eqn:E2; [|discriminate].
    intros [= <-]. rewrite (utf8_dec_enc1 _ _ _ E1), (IH _ eq_refl). reflexivity.
Qed.

Lemma utf8_enc1_2 b0 b1 :
  194 <= b0 < 224 -> 128 <= b1 < 192 ->
  utf8_enc1 ((b0 - 192) * 64 + (b1 - 128)) = Some [b0; b1].
Proof.
  intros H0 H1. unfold utf8_enc1. set (c := (b0 - 192) * 64 + (b1 - 128)).
  replace (c <? 0) with false by lia.
  replace (c <? 128) with false by lia.
  replace (c <? 2048) with true by lia.
  repeat f_equal; lia.
Qed.

Lemma utf8_enc1_3 b0 b1 b2 :
  224 <= b0 < 240 -> 128 <= b1 < 192 -> 128 <= b2 < 192 ->
  (b0 = 224 -> 160 <= b1) -> (b0 = 237 -> b1 < 160) ->
  utf8_enc1 ((b0 - 224) * 4096 + (b1 - 128) * 64 + (b2 - 128)) = Some [b0; b1; b2].
Proof.
  intros H0 H1 H2 H3 H4. unfold utf8_enc1.
  set (c := (b0 - 224) * 4096 + (b1 - 128) * 64 + (b2 - 128)).
  replace (c <? 0) with false by lia.
  replace (c <? 128) with false by lia.
  replace (c <? 2048) with false by lia.
  replace (c <? 65536) with true by lia.
  replace ((55296 <=? c) && (c <? 57344)) with false by lia.
  repeat f_equal; lia.
Qed.

Lemma utf8_enc1_4 b0 b1 b2 b3 :
  240 <= b0 < 245 -> 128 <= b1 < 192 -> 128 <= b2 < 192 -> 128 <= b3 < 192 ->
  (b0 = 240 -> 144 <= b1) -> (b0 = 244 -> b1 < 144) ->
  utf8_enc1 ((b0 - 240) * 262144 + (b1 - 128) * 4096 + (b2 - 128) * 64 + (b3 - 128))
  = Some [b0; b1; b2; b3].
Proof.
  intros H0 H1 H2 H3 H4 H5. unfold utf8_enc1.
  set (c := (b0 - 240) * 262144 + (b1 - 128) * 4096 + (b2 - 128) * 64 + (b3 - 128)).
  replace (c <? 0) with false by lia.
  replace (c <? 128) with false by lia.
  replace (c <? 2048) with false by lia.
  replace (c <? 65536) with false by lia.
  replace (c <? 1114112) with true by lia.
  repeat f_equal; lia.
Qed.

(** The strict decoder accepts only the encoder's output. *)
Lemma utf8_enc_dec bs s : utf8_dec bs = Some s -> utf8_enc s = Some bs.
Proof.
  remember (length bs) as n eqn:Hn.
  revert bs s Hn. induction n as [n IH] using (well_founded_induction Wf_nat.lt_wf).
  intros bs s Hn H. destruct bs as [|b0 t]; cbn [utf8_dec] in H.
  { injection H as <-. reflexivity. }
  cbn [length] in Hn.
  destruct ((0 <=? b0) && (b0 <? 128)) eqn:E1.
  { destruct (utf8_dec t) as [s'|] eqn:ET; [|discriminate]. injection H as <-.
    assert (HI : utf8_enc s' = Some t) by (eapply IH; eauto; lia).
    cbn [utf8_enc]. unfold utf8_enc1.
    replace (b0 <? 0) with false by lia. replace (b0 <? 128) with true by lia.
    rewrite HI. reflexivity. }
  destruct ((194 <=? b0) && (b0 <? 224)) eqn:E2.
  { destruct t as [|b1 t1]; [discriminate|].
    destruct (is_cont b1) eqn:C1; [|discriminate].
    destruct (utf8_dec t1) as [s'|] eqn:ET; [|discriminate]. injection H as <-.
    cbn [length] in Hn.
    assert (HI : utf8_enc s' = Some t1) by (eapply IH; eauto; lia).
    cbn [utf8_enc]. unfold is_cont in C1.
    rewrite utf8_enc1_2 by lia. rewrite HI. reflexivity. }
  destruct ((224 <=? b0) && (b0 <? 240)) eqn:E3.
  { destruct t as [|b1 [|b2 t2]]; try discriminate.
    destruct (is_cont b1 && is_cont b2 && (negb (b0 =? 224) || (160 <=? b1))
              && (negb (b0 =? 237) || (b1 <? 160))) eqn:C; [|discriminate].
    destruct (utf8_dec t2) as [s'|] eqn:ET; [|discriminate]. injection H as <-.
    cbn [length] in Hn.
    assert (HI : utf8_enc s' = Some t2) by (eapply IH; eauto; lia).
    cbn [utf8_enc]. unfold is_cont in C.
    rewrite utf8_enc1_3 by lia. rewrite HI. reflexivity. }
  destruct ((240 <=? b0) && (b0 <? 245)) eqn:E4; [|discriminate].
  destruct t as [|b1 [|b2 [|b3 t3]]]; try discriminate.
  destruct (is_cont b1 && is_cont b2 && is_cont b3 && (negb (b0 =? 240) || (144 <=? b1))
            && (negb (b0 =? 244) || (b1 <? 144))) eqn:C; [|discriminate].
  destruct (utf8_dec t3) as [s'|] eqn:ET; [|discriminate]. injection H as <-.
  cbn [length] in Hn.
  assert (HI : utf8_enc s' = Some t3) by (eapply IH; eauto; lia).
  cbn [utf8_enc]. unfold is_cont in C.
  rewrite utf8_enc1_4 by lia. rewrite HI. reflexivity.
Qed.

(** Shape of the encoding of one character. *)
Lemma utf8_enc1_shape c b :
  utf8_enc1 c = Some b ->
  (0 <= c < 128 /\ b = [c]) \/
  (128 <= c /\ Forall (fun x => 128 <= x < 256) b /\ (2 <= length b)%nat).
Proof.
  unfold utf8_enc1.
  destruct (c <? 0) eqn:E0; [discriminate|].
  destruct (c <? 128) eqn:E1.
  { intros HS; apply some_inj in HS; subst b. left. split; auto. lia. }
  destruct (c <? 2048) eqn:E2.
  { intros HS; apply some_inj in HS; subst b. right. split; [lia|]. split; [repeat constructor; lia|cbn [length]; lia]. }
  destruct (c <? 65536) eqn:E3.
  { destruct ((55296 <=? c) && (c <? 57344)) eqn:ES; [discriminate|].
    intros HS; apply some_inj in HS; subst b. right. split; [lia|]. split; [repeat constructor; lia|cbn [length]; lia]. }
  destruct (c <? 1114112) eqn:E4; [|discriminate].
  intros HS; apply some_inj in HS; subst b. right. split; [lia|]. split; [repeat constructor; lia|cbn [length]; lia].
Qed.

Lemma utf8_enc_bytes s e : utf8_enc s = Some e -> Forall is_byte e.
Proof.
  revert e; induction s as [|c s IH]; cbn [utf8_enc]; intros e.
  - intros [= <-]. constructor.
  - destruct (utf8_enc1 c) as [b|] eqn:E1; [|discriminate].
    destruct (utf8_enc s) as [bs|] eqn:E2; [|discriminate].
    intros [= <-]. apply Forall_app. split; [|auto].
    apply utf8_enc1_shape in E1 as [[H ->]|(H & H1 & H2)].
    + repeat constructor; lia.
    + eapply Forall_impl; [|exact H1]. unfold is_byte; intros; lia.
Qed.

Lemma utf8_enc_nul s e : utf8_enc s = Some e -> (In 0 e <-> In 0 s).
Proof.
  revert e; induction s as [|c s IH]; cbn [utf8_enc]; intros e.
  - intros [= <-]. reflexivity.
  - destruct (utf8_enc1 c) as [b|] eqn:E1; [|discriminate].
    destruct (utf8_enc s) as [bs|] eqn:E2; [|discriminate].
    intros [= <-]. rewrite in_app_iff, (IH _ eq_refl). cbn [In].
    apply utf8_enc1_shape in E1 as [[H ->]|(H & H1 & H2)].
    + cbn [In]. tauto.
    + rewrite Forall_forall in H1.
      assert (~ In 0 b) by (intros HI; apply H1 in HI; lia).
      assert (c <> 0) by lia. tauto.
Qed.

Lemma utf8_enc_ascii s : ascii s -> utf8_enc s = Some s.
Proof.
  induction 1 as [|c s Hc Hs IH]; cbn [utf8_enc]; auto.
  rewrite IH. unfold utf8_enc1.
  replace (c <? 0) with false by lia. replace (c <? 128) with true by lia. reflexivity.
Qed.

Lemma utf8_enc_len s e : utf8_enc s = Some e -> (length s <= length e)%nat.
Proof.
  revert e; induction s as [|c s IH]; cbn [utf8_enc]; intros e.
  - intros [= <-]. auto.
  - destruct (utf8_enc1 c) as [b|] eqn:E1; [|discriminate].
    destruct (utf8_enc s) as [bs|] eqn:E2; [|discriminate].
    intros [= <-]. rewrite app_length. specialize (IH _ eq_refl). cbn [length].
    apply utf8_enc1_shape in E1 as [[H ->]|(H & H1 & H2)]; cbn [length]; lia.
Qed.

Lemma utf8_enc_len_nonascii s e :
  utf8_enc s = Some e -> ~ ascii s -> (length s < length e)%nat.
Proof.
  revert e; induction s as [|c s IH]; cbn [utf8_enc]; intros e.
  - intros _ H. exfalso; apply H; constructor.
  - destruct (utf8_enc1 c) as [b|] eqn:E1; [|discriminate].
    destruct (utf8_enc s) as [bs|] eqn:E2; [|discriminate].
    intros [= <-] HN. rewrite app_length. cbn [length].
    apply utf8_enc1_shape in E1 as [[H ->]|(H & H1 & H2)]; cbn [length].
    + assert (~ ascii s) by (intros HA; apply HN; constructor; auto).
      specialize (IH _ eq_refl H0). lia.
    + pose proof (utf8_enc_len _ _ E2). lia.
Qed.

Lemma utf8_enc_app s t :
  utf8_enc (s ++ t) =
  match utf8_enc s, utf8_enc t with
  | Some a, Some b => Some (a ++ b)
  | _, _ => None
  end.
Proof.
  induction s as [|c s IH]; cbn [utf8_enc app].
  - destruct (utf8_enc t); reflexivity.
  - rewrite IH. destruct (utf8_enc1 c); auto.
    destruct (utf8_enc s); auto. destruct (utf8_enc t); auto. now rewrite app_assoc.
Qed.

Lemma utf8_enc_inj s t e : utf8_enc s = Some e -> utf8_enc t = Some e -> s = t.
Proof.
  intros H1 H2. apply utf8_dec_enc in H1, H2. congruence.
Qed.
