(** The reader of DmapRead.v against the wire format of DmapSpec.v. *)
From Coq Require Import ZArith List Bool Lia ZifyBool ZifyNat.
From Verif Require Import Base Bytes BytesSpec BytesProofs Utf8 Utf8Proofs FloatBits DmapTypes DmapRead DmapSpec.
Import ListNotations.
Open Scope Z_scope.
Ltac Zify.zify_post_hook ::= Z.div_mod_to_equations.

(** ** Specification numbers are the model's numbers *)

Lemma le_num_dec bs : le_num bs = le_dec bs.
Proof. reflexivity. Qed.

Lemma pow2_half n : (0 < n)%nat -> 2 ^ (8 * Z.of_nat n - 1) = wrap_mod n / 2.
Proof.
  intros H. unfold wrap_mod.
  replace (8 * Z.of_nat n) with (1 + (8 * Z.of_nat n - 1)) at 2 by lia.
  rewrite Z.pow_add_r by lia. generalize (2 ^ (8 * Z.of_nat n - 1)). intros; lia.
Qed.

Lemma fits_iff s n z : (0 < n)%nat -> fits s n z <-> int_min s n <= z <= int_max s n.
Proof.
  intros H. unfold fits, int_min, int_max. destruct s.
  - rewrite pow2_half by auto. lia.
  - fold (wrap_mod n). lia.
Qed.

Lemma wire_int_iff s n z bs :
  (0 < n)%nat ->
  wire_int s n z bs <-> length bs = n /\ Forall is_byte bs /\ z = unpack_int s n bs.
Proof.
  intros Hn. unfold wire_int. rewrite fits_iff by auto. rewrite le_num_dec. fold (wrap_mod n).
  split.
  - intros (HL & HB & HR & HE). repeat split; auto.
    unfold unpack_int. rewrite HE. destruct s.
    + symmetry. now apply to_signed_of_range.
    + symmetry. apply Z.mod_small. unfold int_min, int_max in HR. lia.
  - intros (HL & HB & ->). repeat split; auto; try (now apply unpack_int_range).
    pose proof (le_dec_range bs HB) as HR. rewrite HL in HR.
    unfold unpack_int. destruct s.
    + symmetry. now apply to_signed_mod.
    + symmetry. now apply Z.mod_small.
Qed.

Lemma wire_int_len s n z bs : wire_int s n z bs -> zlen bs = Z.of_nat n.
Proof. intros (H & _). unfold zlen. now rewrite H. Qed.

Lemma wire_int_fun s n z a b : (0 < n)%nat -> wire_int s n z a -> wire_int s n z b -> a = b.
Proof.
  intros Hn (L1 & B1 & _ & E1) (L2 & B2 & _ & E2). rewrite le_num_dec in *.
  apply le_dec_inj; congruence.
Qed.

Lemma wire_int_enc s n z : (0 < n)%nat -> fits s n z -> wire_int s n z (le_enc n z).
Proof.
  intros Hn HF. unfold wire_int. rewrite le_enc_length, le_num_dec, le_dec_enc.
  repeat split; auto. apply le_enc_bytes.
Qed.

Lemma wire_size_eq f : wire_size f = fmt_size f.
Proof. now destruct f. Qed.

Lemma fmt_size_pos f : (0 < fmt_size f)%nat.
Proof. destruct f; cbn; lia. Qed.

Lemma wire_signed_eq f : wire_signed f = fmt_signed f.
Proof. now destruct f. Qed.

Lemma data_types_code f : dmap_data_types (wire_code f) = Some (Some f).
Proof. now destruct f. Qed.

Lemma data_types_inv c f : dmap_data_types c = Some (Some f) -> c = wire_code f.
Proof.
  unfold dmap_data_types.
  repeat match goal with
         | |- (if ?c =? ?k then _ else _) = _ -> _ =>
             destruct (Z.eqb_spec c k); [intros [= <-]; cbn; congruence || (intros; discriminate)|]
         end; try discriminate.
Qed.

(** ** Reader monad *)

Lemma bind_ok {A B} (m : rd A) (f : A -> rd B) c b c2 :
  bind m f c = (Ok b, c2) -> exists a c1, m c = (Ok a, c1) /\ f a c1 = (Ok b, c2).
Proof.
  unfold bind. destruct (m c) as [[a|e] c1]; [|discriminate]. intros H. exists a, c1. auto.
Qed.

Lemma bind_eq {A B} (m : rd A) (f : A -> rd B) c a c1 :
  m c = (Ok a, c1) -> bind m f c = f a c1.
Proof. unfold bind. now intros ->. Qed.

Lemma bind_raise {A B} (m : rd A) (f : A -> rd B) c e c1 :
  m c = (Raise e, c1) -> bind m f c = (Raise e, c1).
Proof. unfold bind. now intros ->. Qed.

Lemma lift_ok {A} (r : res A) c a c' : lift r c = (Ok a, c') -> r = Ok a /\ c' = c.
Proof. unfold lift. intros [= -> <-]. auto. Qed.

Ltac inv_bind H :=
  apply bind_ok in H;
  let a := fresh "a" in let c := fresh "c" in let H1 := fresh "H" in
  destruct H as (a & c & H1 & H).

Tactic Notation "inv_bindn" hyp(H) "as" ident(x) :=
  apply bind_ok in H;
  let c := fresh "c" in let H1 := fresh "H" in
  destruct H as (x & c & H1 & H).

Lemma bytes_check_ok a b c u c' : bytes_check a b c = (Ok u, c') -> a <= b /\ c' = c.
Proof.
  unfold bytes_check. destruct (b <? a) eqn:E; [discriminate|]. intros [= <- <-]. lia.
Qed.

Lemma bytes_check_pass a b c : a <= b -> bytes_check a b c = (Ok tt, c).
Proof. intros H. unfold bytes_check. now replace (b <? a) with false by lia. Qed.

Lemma zn_check_ok a c u c' : zero_negative_check a c = (Ok u, c') -> 0 < a /\ c' = c.
Proof.
  unfold zero_negative_check. destruct (a =? 0) eqn:E; [discriminate|].
  destruct (a <? 0) eqn:E2; [discriminate|]. intros [= <- <-]. lia.
Qed.

Lemma zn_check_pass a c : 0 < a -> zero_negative_check a c = (Ok tt, c).
Proof.
  intros H. unfold zero_negative_check. replace (a =? 0) with false by lia.
  now replace (a <? 0) with false by lia.
Qed.

Lemma check_data_type_ok t c o c' :
  check_data_type t c = (Ok o, c') -> dmap_data_types t = Some o /\ c' = c.
Proof.
  unfold check_data_type. destruct (dmap_data_types t); [|discriminate].
  intros [= <- <-]. auto.
Qed.

Section Reader.
Variable buf : bytes.

Lemma checks_ok n c u c' :
  read_data_checks buf n c = (Ok u, c') -> c < zlen buf /\ n <= zlen buf - c /\ c' = c.
Proof.
  unfold read_data_checks, bind, get_cursor, end_bytes.
  destruct (zlen buf <=? c) eqn:E1; [discriminate|].
  destruct (zlen buf - c <? n) eqn:E2; [discriminate|].
  intros [= <- <-]. lia.
Qed.

Lemma checks_pass n c :
  c < zlen buf -> n <= zlen buf - c -> read_data_checks buf n c = (Ok tt, c).
Proof.
  intros H1 H2. unfold read_data_checks, bind, get_cursor, end_bytes.
  replace (zlen buf <=? c) with false by lia.
  now replace (zlen buf - c <? n) with false by lia.
Qed.

Lemma read_c_ok c b c' :
  0 <= c -> read_data_c buf c = (Ok b, c') -> occurs buf c [b] /\ c' = c + 1.
Proof.
  intros H0 H. unfold read_data_c in H.
  inv_bind H. apply checks_ok in H1 as (_ & _ & ->).
  inv_bind H. injection H1 as <- <-.
  inv_bind H. apply lift_ok in H1 as [H1 ->].
  inv_bind H. injection H2 as <- <-. injection H as <- <-.
  split; auto. now apply py_index_ok.
Qed.

Lemma read_c_occ c b : occurs buf c [b] -> read_data_c buf c = (Ok b, c + 1).
Proof.
  intros H. pose proof (occurs_bounds _ _ _ H) as [HB1 HB2]. change (zlen [b]) with 1 in HB2.
  unfold read_data_c. erewrite bind_eq by (apply checks_pass; lia).
  unfold bind at 1, get_cursor. unfold bind at 1, lift.
  rewrite (py_index_occurs _ _ _ H). reflexivity.
Qed.

Lemma read_raw_ok n c bs c' :
  0 <= c -> read_data_raw buf n c = (Ok bs, c') ->
  occurs buf c bs /\ length bs = n /\ c' = c + Z.of_nat n.
Proof.
  intros H0 H. unfold read_data_raw in H.
  inv_bind H. apply checks_ok in H1 as (_ & _ & ->).
  inv_bind H. injection H1 as <- <-.
  inv_bind H. apply lift_ok in H1 as [H1 ->].
  inv_bind H. injection H2 as <- <-. injection H as <- <-.
  apply unpack_from_ok in H1 as [HO HL]; try lia.
  unfold zlen in HL. repeat split; auto. lia.
Qed.

Lemma read_raw_occ n c bs :
  zlen buf <= ssize_max -> occurs buf c bs -> length bs = n -> (0 < n)%nat ->
  read_data_raw buf n c = (Ok bs, c + Z.of_nat n).
Proof.
  intros HM H HL Hn. pose proof (occurs_bounds _ _ _ H) as [HB1 HB2].
  assert (HZ : zlen bs = Z.of_nat n) by (unfold zlen; lia).
  unfold read_data_raw. erewrite bind_eq by (apply checks_pass; lia).
  unfold bind at 1, get_cursor. unfold bind at 1, lift.
  rewrite <- HZ, (unpack_from_occurs _ _ _ H HM). reflexivity.
Qed.

Lemma read_i_ok c v c' :
  0 <= c -> Forall is_byte buf -> read_data_i buf c = (Ok v, c') ->
  exists bs, occurs buf c bs /\ wire_int32 v bs /\ c' = c + 4.
Proof.
  intros H0 HB H. unfold read_data_i in H. inv_bind H. injection H as <- <-.
  apply read_raw_ok in H1 as (HO & HL & ->); auto.
  exists a. split; auto. split; auto. apply wire_int_iff; [lia|]. repeat split; auto.
  eapply occurs_Forall; eauto.
Qed.

Lemma read_i_occ c v bs :
  zlen buf <= ssize_max -> occurs buf c bs -> wire_int32 v bs ->
  read_data_i buf c = (Ok v, c + 4).
Proof.
  intros HM HO HW. apply wire_int_iff in HW as (HL & HB & ->); [|lia].
  unfold read_data_i. erewrite bind_eq by (apply read_raw_occ; eauto; lia). reflexivity.
Qed.

(** ** Text *)

Lemma scan_nul_occ s : forall fuel c k,
  occurs buf (c + k) (s ++ [0]) -> ~ In 0 s -> (length s < fuel)%nat ->
  scan_nul buf fuel c k = Ok (k + zlen s).
Proof.
  induction s as [|x s IH]; intros fuel c k HO HN HF; destruct fuel as [|fuel];
    cbn [length] in HF; try lia; cbn [scan_nul app] in *.
  - rewrite (py_index_occurs _ _ _ HO).
    pose proof (occurs_bounds _ _ _ HO) as [_ HB]. change (zlen [0]) with 1 in HB.
    unfold end_bytes. replace (zlen buf <=? c + k) with false by lia. cbn.
    f_equal. unfold zlen; cbn; lia.
  - change (x :: s ++ [0]) with ([x] ++ (s ++ [0])) in HO.
    apply occurs_app in HO as [HO1 HO2]. change (zlen [x]) with 1 in HO2.
    rewrite (py_index_occurs _ _ _ HO1).
    cbn [In] in HN. replace (x =? 0) with false by lia. cbn [negb orb].
    rewrite (IH fuel c (k + 1)); try tauto; try lia.
    + f_equal. rewrite zlen_cons. lia.
    + now replace (c + (k + 1)) with (c + k + 1) by lia.
Qed.

Lemma scan_nul_ok : forall fuel c k n,
  0 <= c + k -> scan_nul buf fuel c k = Ok n ->
  exists s, occurs buf (c + k) (s ++ [0]) /\ ~ In 0 s /\ n = k + zlen s.
Proof.
  induction fuel as [|fuel IH]; intros c k n H0 H; cbn [scan_nul] in H; [discriminate|].
  destruct (py_index buf (c + k)) as [b|e] eqn:EB; [|discriminate].
  apply py_index_ok in EB; auto.
  pose proof (occurs_bounds _ _ _ EB) as [_ HB]. change (zlen [b]) with 1 in HB.
  unfold end_bytes in H. replace (zlen buf <=? c + k) with false in H by lia.
  rewrite orb_false_r in H. destruct (b =? 0) eqn:E0; cbn [negb] in H.
  - injection H as <-. exists []. apply Z.eqb_eq in E0. subst b. cbn [app].
    split; [exact EB|]. split; [cbn; tauto|]. unfold zlen; cbn; lia.
  - apply IH in H as (s & HO & HN & ->); [|lia].
    exists (b :: s). replace (c + (k + 1)) with (c + k + 1) in HO by lia.
    split; [|split].
    + change ((b :: s) ++ [0]) with ([b] ++ (s ++ [0])). apply occurs_app. auto.
    + cbn [In]. intros [->|HI]; [discriminate|auto].
    + rewrite zlen_cons. lia.
Qed.

Lemma read_s_ok c s c' :
  0 <= c -> read_data_s buf c = (Ok s, c') ->
  exists bs, occurs buf c bs /\ wire_text s bs /\ c' = c + zlen bs.
Proof.
  intros H0 H. unfold read_data_s in H.
  inv_bind H. apply checks_ok in H1 as (_ & _ & ->).
  inv_bind H. injection H1 as <- <-.
  inv_bind H. apply lift_ok in H1 as [H1 ->].
  apply scan_nul_ok in H1 as (e & HO & HN & ->); [|lia].
  replace (c + 0) with c in HO by lia.
  inv_bind H. apply bytes_check_ok in H1 as [_ ->].
  inv_bind H. apply lift_ok in H1 as [H1 ->].
  inv_bind H. injection H2 as <- <-.
  apply unpack_from_ok in H1 as [HO' HL]; try (pose proof (zlen_nonneg e); lia).
  apply occurs_app in HO as HO''. destruct HO'' as [HO1 HO2].
  assert (a1 = e) as -> by (eapply occurs_eq; eauto; lia).
  destruct (utf8_dec e) as [s'|] eqn:ED; [|discriminate]. injection H as <- <-.
  apply utf8_enc_dec in ED.
  exists (e ++ [0]). split; auto. split.
  - exists e. split; auto. split; auto. now rewrite <- (utf8_enc_nul _ _ ED).
  - rewrite zlen_app. change (zlen [0]) with 1. lia.
Qed.

Lemma read_s_occ c s bs :
  zlen buf <= ssize_max -> occurs buf c bs -> wire_text s bs ->
  read_data_s buf c = (Ok s, c + zlen bs).
Proof.
  intros HM HO (e & HE & HN & ->).
  pose proof (occurs_bounds _ _ _ HO) as [HB1 HB2].
  rewrite zlen_app in HB2. change (zlen [0]) with 1 in HB2. pose proof (zlen_nonneg e).
  unfold read_data_s. erewrite bind_eq by (apply checks_pass; lia).
  unfold bind at 1, get_cursor.
  erewrite bind_eq.
  2:{ unfold lift. rewrite (scan_nul_occ e); [reflexivity| | |].
      - now replace (c + 0) with c by lia.
      - now rewrite (utf8_enc_nul _ _ HE).
      - unfold zlen in HB2. lia. }
  replace (0 + zlen e) with (zlen e) by lia.
  erewrite bind_eq by (apply bytes_check_pass; unfold end_bytes; lia).
  erewrite bind_eq.
  2:{ unfold lift. rewrite unpack_from_occurs; [reflexivity| |auto].
      eapply occurs_prefix; eauto. }
  unfold bind, advance. rewrite (utf8_dec_enc _ _ HE).
  rewrite zlen_app. reflexivity.
Qed.

(** ** Scalars *)

Lemma read_data_ok f c v c' :
  0 <= c -> Forall is_byte buf -> read_data buf f c = (Ok v, c') ->
  exists bs, occurs buf c bs /\ wire_value f v bs /\ c' = c + zlen bs.
Proof.
  intros H0 HB H.
  assert (HI : forall g, In g [Fh; Fi; Fq; FB; FH; FI; FQ] ->
    (do bs <- read_data_raw buf (fmt_size g);
     ret (VInt (unpack_int (fmt_signed g) (fmt_size g) bs))) c = (Ok v, c') ->
    exists bs, occurs buf c bs /\ wire_value g v bs /\ c' = c + zlen bs).
  { clear H. intros g Hg H. inv_bind H. injection H as <- <-.
    apply read_raw_ok in H1 as (HO & HL & ->); auto.
    exists a. split; auto. split; [|unfold zlen; lia].
    constructor; auto. rewrite wire_size_eq, wire_signed_eq.
    apply wire_int_iff; [apply fmt_size_pos|]. repeat split; auto.
    eapply occurs_Forall; eauto. }
  destruct f; try (apply HI in H; [exact H|cbn; tauto]); clear HI; cbn [read_data] in H.
  - inv_bind H. injection H as <- <-. apply read_c_ok in H1 as (HO & ->); auto.
    exists [a]. split; auto. split; auto. constructor.
    eapply occurs_Forall in HO; eauto. now inversion HO.
  - inv_bind H. injection H as <- <-. apply read_raw_ok in H1 as (HO & HL & ->); auto.
    exists a. split; auto. split; [|unfold zlen; lia].
    rewrite <- le_num_dec. constructor; auto. eapply occurs_Forall; eauto.
  - inv_bind H. injection H as <- <-. apply read_raw_ok in H1 as (HO & HL & ->); auto.
    exists a. split; auto. split; [|unfold zlen; lia].
    rewrite <- le_num_dec. constructor; auto. eapply occurs_Forall; eauto.
  - inv_bind H. injection H as <- <-. apply read_s_ok in H1 as (bs & HO & HW & ->); auto.
    exists bs. split; auto. split; auto. now constructor.
Qed.

Lemma read_data_occ f c v bs :
  zlen buf <= ssize_max -> occurs buf c bs -> wire_value f v bs ->
  read_data buf f c = (Ok v, c + zlen bs).
Proof.
  intros HM HO HW. destruct HW as [b Hb|s bs HW|bs HL HB|bs HL HB|f z bs HIn HW].
  - cbn [read_data]. erewrite bind_eq by (apply read_c_occ; eauto). reflexivity.
  - cbn [read_data]. erewrite bind_eq by (eapply read_s_occ; eauto). reflexivity.
  - cbn [read_data]. erewrite bind_eq by (apply read_raw_occ; eauto; lia).
    unfold zlen. rewrite HL. reflexivity.
  - cbn [read_data]. erewrite bind_eq by (apply read_raw_occ; eauto; lia).
    unfold zlen. rewrite HL. reflexivity.
  - rewrite wire_size_eq, wire_signed_eq in HW.
    apply wire_int_iff in HW as (HL & HB & ->); [|apply fmt_size_pos].
    assert (HR : read_data buf f =
      do bs <- read_data_raw buf (fmt_size f);
      ret (VInt (unpack_int (fmt_signed f) (fmt_size f) bs))).
    { cbn [In] in HIn. destruct f; try reflexivity; exfalso; intuition discriminate. }
    rewrite HR. erewrite bind_eq by (apply read_raw_occ; eauto; apply fmt_size_pos).
    unfold ret, zlen. now rewrite HL.
Qed.

Lemma read_scalar_ok c s c' :
  0 <= c -> Forall is_byte buf -> read_scalar buf c = (Ok s, c') ->
  exists bs, occurs buf c bs /\ wire_scalar s bs /\ c' = c + zlen bs.
Proof.
  intros H0 HB H. unfold read_scalar in H.
  inv_bind H. apply read_s_ok in H1 as (nb & HO1 & HW1 & ->); auto.
  pose proof (zlen_nonneg nb).
  inv_bind H. apply read_c_ok in H2 as (HO2 & ->); [|lia].
  inv_bind H. apply check_data_type_ok in H2 as (HD & ->).
  destruct a1 as [f|]; [|discriminate].
  apply data_types_inv in HD. subst a0.
  inv_bind H. injection H as <- <-.
  apply read_data_ok in H2 as (vb & HO3 & HW3 & ->); auto; [|lia].
  exists (nb ++ [wire_code f] ++ vb). split; [|split].
  - apply occurs_app. split; auto. apply occurs_app. split; auto.
  - now constructor.
  - rewrite !zlen_app. change (zlen [wire_code f]) with 1. lia.
Qed.

Lemma read_scalar_occ c s bs :
  zlen buf <= ssize_max -> occurs buf c bs -> wire_scalar s bs ->
  read_scalar buf c = (Ok s, c + zlen bs).
Proof.
  intros HM HO HW. destruct HW as [name f v nb vb HT HV].
  apply occurs_app in HO as [HO1 HO]. apply occurs_app in HO as [HO2 HO3].
  change (zlen [wire_code f]) with 1 in HO3.
  unfold read_scalar. erewrite bind_eq by (eapply read_s_occ; eauto).
  erewrite bind_eq by (apply read_c_occ; eauto).
  erewrite bind_eq by (unfold check_data_type; rewrite data_types_code; reflexivity).
  cbv beta iota. erewrite bind_eq by (eapply read_data_occ; eauto).
  unfold ret. f_equal. rewrite !zlen_app. change (zlen [wire_code f]) with 1. lia.
Qed.

(** ** Lists of things read one after the other *)

Lemma read_shape_ok n : forall c xs c',
  0 <= c <= zlen buf -> Forall is_byte buf -> read_shape buf n c = (Ok xs, c') ->
  length xs = n /\
  exists bs, occurs buf c bs /\ wire_list wire_int32 xs bs /\ c' = c + zlen bs.
Proof.
  induction n as [|n IH]; intros c xs c' H0 HB H; cbn [read_shape] in H.
  - injection H as <- <-. split; auto. exists []. rewrite zlen_nil.
    split; [now apply occurs_nil|]. split; [constructor|lia].
  - inv_bind H. inv_bind H. injection H as <- <-.
    apply read_i_ok in H1 as (b & HO1 & HW1 & ->); auto; [|lia].
    pose proof (wire_int_len _ _ _ _ HW1) as HL. pose proof (occurs_bounds _ _ _ HO1).
    apply IH in H2 as (HLn & bs & HO2 & HW2 & ->); auto; [|lia].
    split; [cbn [length]; lia|]. exists (b ++ bs). split; [|split].
    + apply occurs_app. split; auto. rewrite HL. exact HO2.
    + now constructor.
    + rewrite zlen_app. lia.
Qed.

Lemma read_shape_occ xs bs :
  zlen buf <= ssize_max -> wire_list wire_int32 xs bs -> forall c, occurs buf c bs ->
  read_shape buf (length xs) c = (Ok xs, c + zlen bs).
Proof.
  intros HM HW. induction HW as [|x xs b bs HR HW IH]; intros c HO; cbn [read_shape length].
  - rewrite zlen_nil, Z.add_0_r. reflexivity.
  - apply occurs_app in HO as [HO1 HO2]. pose proof (wire_int_len _ _ _ _ HR) as HL.
    erewrite bind_eq by (eapply read_i_occ; eauto).
    rewrite HL in HO2. erewrite bind_eq by (apply IH; exact HO2).
    unfold ret. f_equal. rewrite zlen_app. lia.
Qed.

Lemma read_scalars_ok n : forall c xs c',
  0 <= c <= zlen buf -> Forall is_byte buf -> read_scalars buf n c = (Ok xs, c') ->
  length xs = n /\
  exists bs, occurs buf c bs /\ wire_list wire_scalar xs bs /\ c' = c + zlen bs.
Proof.
  induction n as [|n IH]; intros c xs c' H0 HB H; cbn [read_scalars] in H.
  - injection H as <- <-. split; auto. exists []. rewrite zlen_nil.
    split; [now apply occurs_nil|]. split; [constructor|lia].
  - inv_bind H. inv_bind H. injection H as <- <-.
    apply read_scalar_ok in H1 as (b & HO1 & HW1 & ->); auto; [|lia].
    pose proof (occurs_bounds _ _ _ HO1). pose proof (zlen_nonneg b).
    apply IH in H2 as (HLn & bs & HO2 & HW2 & ->); auto; [|lia].
    split; [cbn [length]; lia|]. exists (b ++ bs). split; [|split].
    + apply occurs_app. split; auto.
    + now constructor.
    + rewrite zlen_app. lia.
Qed.

Lemma read_scalars_occ xs bs :
  zlen buf <= ssize_max -> wire_list wire_scalar xs bs -> forall c, occurs buf c bs ->
  read_scalars buf (length xs) c = (Ok xs, c + zlen bs).
Proof.
  intros HM HW. induction HW as [|x xs b bs HR HW IH]; intros c HO; cbn [read_scalars length].
  - rewrite zlen_nil, Z.add_0_r. reflexivity.
  - apply occurs_app in HO as [HO1 HO2].
    erewrite bind_eq by (eapply read_scalar_occ; eauto).
    erewrite bind_eq by (apply IH; exact HO2).
    unfold ret. f_equal. rewrite zlen_app. lia.
Qed.

(** ** Arrays *)

Lemma fold_left_mul l : forall a, fold_left Z.mul l a = a * product l.
Proof.
  induction l as [|x l IH]; intros a; cbn [fold_left product fold_right].
  - lia.
  - rewrite IH. unfold product. lia.
Qed.

Lemma prod_product l : prod l = product l.
Proof. unfold prod. rewrite fold_left_mul. lia. Qed.

Lemma product_cons x l : product (x :: l) = x * product l.
Proof. reflexivity. Qed.

Lemma product_nil : product [] = 1.
Proof. reflexivity. Qed.

Lemma product_nonneg l : Forall (fun n => 0 <= n) l -> 0 <= product l.
Proof.
  induction 1 as [|x l Hx Hl IH]; rewrite ?product_nil, ?product_cons; [lia|]. nia.
Qed.

Lemma product_pos l : Forall (fun n => 1 <= n) l -> 1 <= product l.
Proof.
  induction 1 as [|x l Hx Hl IH]; rewrite ?product_nil, ?product_cons; [lia|]. nia.
Qed.

Lemma product_ge l n : Forall (fun n => 1 <= n) l -> In n l -> n <= product l.
Proof.
  induction 1 as [|x l Hx Hl IH]; cbn [In]; [tauto|]. rewrite product_cons.
  pose proof (product_pos _ Hl).
  intros [->|HI]; [nia|]. specialize (IH HI). nia.
Qed.

Lemma product_app a b : product (a ++ b) = product a * product b.
Proof.
  induction a as [|x a IH]; cbn [app]; rewrite ?product_nil, ?product_cons; [lia|].
  rewrite IH. ring.
Qed.

Lemma product_rev l : product (rev l) = product l.
Proof.
  induction l as [|x l IH]; cbn [rev]; auto.
  rewrite product_app, IH, !product_cons, product_nil. ring.
Qed.

Lemma reshape_nonneg n shape r :
  Forall (fun n => 0 <= n) shape -> np_reshape n shape = Ok r ->
  r = shape /\ zlen shape <= 32 /\ n = product shape.
Proof.
  intros HN. unfold np_reshape, npy_maxdims.
  destruct (32 <? zlen shape) eqn:E; [discriminate|].
  assert (HF1 : filter (fun x => x <? 0) shape = []).
  { clear E. induction HN as [|x l Hx Hl IH]; cbn [filter]; auto.
    replace (x <? 0) with false by lia. auto. }
  assert (HF2 : filter (fun x => 0 <=? x) shape = shape).
  { clear E HF1. induction HN as [|x l Hx Hl IH]; cbn [filter]; auto.
    replace (0 <=? x) with true by lia. now rewrite IH. }
  rewrite HF1, HF2, prod_product.
  destruct (product shape =? n) eqn:E2; [|discriminate]. intros [= <-].
  repeat split; auto; lia.
Qed.

Lemma reshape_nonneg_ok n shape :
  Forall (fun n => 0 <= n) shape -> zlen shape <= 32 -> n = product shape ->
  np_reshape n shape = Ok shape.
Proof.
  intros HN HL ->. unfold np_reshape, npy_maxdims.
  replace (32 <? zlen shape) with false by lia.
  assert (HF1 : filter (fun x => x <? 0) shape = []).
  { clear HL. induction HN as [|x l Hx Hl IH]; cbn [filter]; auto.
    replace (x <? 0) with false by lia. auto. }
  assert (HF2 : filter (fun x => 0 <=? x) shape = shape).
  { clear HL HF1. induction HN as [|x l Hx Hl IH]; cbn [filter]; auto.
    replace (0 <=? x) with true by lia. now rewrite IH. }
  rewrite HF1, HF2, prod_product, Z.eqb_refl. reflexivity.
Qed.

Lemma fmt_dtype_eq f : f <> Fs -> fmt_dtype f = Some (wire_dtype f).
Proof. destruct f; cbn; congruence. Qed.

Lemma elem_dec_eq f : f <> Fs -> elem_dec (wire_dtype f) = unpack_int (wire_signed f) (wire_size f).
Proof. destruct f; try reflexivity; congruence. Qed.

Lemma wire_elems_of_raw f raw :
  f <> Fs -> Forall (fun x => length x = fmt_size f) raw -> Forall (Forall is_byte) raw ->
  wire_list (wire_int (wire_signed f) (wire_size f)) (map (elem_dec (wire_dtype f)) raw) (concat raw).
Proof.
  intros Hf H1 H2. rewrite elem_dec_eq by auto.
  induction raw as [|x raw IH]; cbn [map concat]; constructor.
  - inversion H1; inversion H2; subst. apply wire_int_iff.
    + rewrite wire_size_eq. apply fmt_size_pos.
    + rewrite wire_size_eq. auto.
  - apply IH; [now inversion H1|now inversion H2].
Qed.

Lemma raw_of_wire_elems f data eb :
  f <> Fs -> wire_list (wire_int (wire_signed f) (wire_size f)) data eb ->
  exists raw, eb = concat raw /\ Forall (fun x => length x = fmt_size f) raw /\
              data = map (elem_dec (wire_dtype f)) raw.
Proof.
  intros Hf HW. induction HW as [|x xs b bs HR HW (raw & E1 & E2 & E3)].
  - exists []. auto.
  - rewrite wire_size_eq in HR. apply wire_int_iff in HR as (HL & HB & ->); [|apply fmt_size_pos].
    exists (b :: raw). cbn [concat map]. subst. rewrite elem_dec_eq by auto. auto.
Qed.

Lemma read_array_ok blk c a c' :
  0 <= c -> Forall is_byte buf -> read_array buf blk c = (Ok a, c') ->
  Forall (fun n => 0 <= n) (ar_shape a) ->
  exists bs, occurs buf c bs /\ wire_array blk a bs /\ c' = c + zlen bs.
Proof.
  intros H0 HB H HNN. unfold read_array in H.
  inv_bindn H as name. apply read_s_ok in H1 as (nb & HO1 & HW1 & ->); auto.
  pose proof (zlen_nonneg nb) as HZ1.
  inv_bindn H as ty. apply read_c_ok in H1 as (HO2 & ->); [|lia].
  inv_bindn H as of. apply check_data_type_ok in H1 as (HD & ->).
  inv_bindn H as dim. apply read_i_ok in H1 as (db & HO3 & HW3 & ->); auto; [|lia].
  inv_bind H. apply bytes_check_ok in H1 as [HC1 ->].
  inv_bind H. apply zn_check_ok in H1 as [HC2 ->].
  inv_bindn H as shp0.
  pose proof (occurs_bounds _ _ _ HO3) as HB3.
  pose proof (wire_int_len _ _ _ _ HW3) as HL3.
  apply read_shape_ok in H1 as (HLs & sb & HO4 & HW4 & ->); auto; [|lia].
  cbv zeta in H.
  set (shp := if 1 <? dim then rev shp0 else shp0) in *.
  assert (HR : rev shp = shp0).
  { unfold shp. destruct (1 <? dim) eqn:E; [apply rev_involutive|].
    destruct shp0 as [|x [|? ?]]; auto. cbn [length] in HLs. lia. }
  assert (HLshp : zlen shp = dim).
  { rewrite <- zlen_rev, HR. unfold zlen. lia. }
  clearbody shp.
  destruct (existsb (fun x => x <=? 0) shp && negb (str_eqb name s_slist)) eqn:EX1; [discriminate|].
  destruct (existsb (fun x => blk <=? x) shp) eqn:EX2; [discriminate|].
  inv_bind H. apply bytes_check_ok in H1 as [HC3 ->].
  inv_bind H. apply bytes_check_ok in H1 as [HC4 ->].
  destruct of as [f|]; [|discriminate].
  apply data_types_inv in HD. subst ty.
  assert (Hf : f <> Fs) by (intros ->; discriminate).
  assert (H' : (do array_value <- read_numerical_array buf shp f (prod shp);
     ret (mk_darray name array_value (wire_code f) f dim shp))
     (c + zlen nb + 1 + 4 + zlen sb) = (Ok a, c')).
  { destruct f; try exact H. congruence. }
  clear H. rename H' into H. inv_bindn H as arr. injection H as <- <-.
  cbn [ar_shape] in HNN.
  unfold read_numerical_array in H1. rewrite fmt_dtype_eq in H1 by auto.
  inv_bind H1. injection H as <- <-.
  inv_bindn H1 as raw. apply lift_ok in H as [HF ->].
  inv_bind H1. injection H as <- <-.
  inv_bindn H1 as shp'. apply lift_ok in H as [HRS ->].
  injection H1 as <- <-.
  apply reshape_nonneg in HRS as (-> & HL32 & HRN); auto.
  rewrite prod_product in *. pose proof (product_nonneg _ HNN) as HPN.
  apply frombuffer_ok in HF as (_ & HO5 & HFL & HFN); auto; [|apply fmt_size_pos].
  pose proof (zlen_concat_const _ _ HFL) as HCL.
  assert (HBR : Forall (Forall is_byte) raw).
  { eapply occurs_Forall in HO5; eauto. clear - HO5.
    induction raw as [|x raw IH]; constructor; cbn [concat] in HO5; apply Forall_app in HO5; tauto. }
  subst dim.
  eexists. split; [|split].
  2:{ apply wire_array_intro with (nb := nb) (db := db) (sb := sb) (eb := concat raw); auto.
      - lia.
      - rewrite Forall_forall. intros n Hn.
        assert (HE1 : (n <=? 0) && negb (str_eqb name s_slist) = false).
        { destruct (str_eqb name s_slist); [apply andb_false_r|].
          rewrite andb_true_r in *. apply not_true_is_false. intros HT.
          rewrite <- not_true_iff_false in EX1. apply EX1. apply existsb_exists. eauto. }
        assert (HE2 : n < blk).
        { destruct (Z_lt_le_dec n blk); auto. rewrite <- not_true_iff_false in EX2.
          exfalso. apply EX2. apply existsb_exists. exists n. split; auto. lia. }
        split; auto. rewrite Forall_forall in HNN. specialize (HNN n Hn).
        destruct (str_eqb name s_slist) eqn:ES.
        + apply str_eqb_eq in ES. destruct (Z.eq_dec n 0); [right; auto|left; lia].
        + left. lia.
      - now rewrite HR.
      - now apply wire_elems_of_raw.
      - rewrite zlen_map. lia. }
  - apply occurs_app. split; auto. apply occurs_app. split; auto.
    change (zlen [wire_code f]) with 1.
    apply occurs_app. split; auto. rewrite HL3. change (Z.of_nat 4) with 4.
    apply occurs_app. split; auto.
  - rewrite !zlen_app, HCL, HL3. change (zlen [wire_code f]) with 1. lia.
Qed.

Lemma wire_text_len s bs : wire_text s bs -> 1 <= zlen bs.
Proof.
  intros (e & _ & _ & ->). rewrite zlen_app. pose proof (zlen_nonneg e).
  change (zlen [0]) with 1. lia.
Qed.

Lemma wire_list_len_ge {A} (R : A -> bytes -> Prop) k xs bs :
  (forall x b, R x b -> k <= zlen b) -> wire_list R xs bs -> k * zlen xs <= zlen bs.
Proof using.
  clear buf.
  intros HR HW. induction HW as [|x xs b bs Hb HW IH]; [unfold zlen; cbn [length]; lia|].
  rewrite zlen_cons, zlen_app. specialize (HR _ _ Hb). lia.
Qed.

Lemma wire_list_int_len s n xs bs :
  wire_list (wire_int s n) xs bs -> zlen bs = Z.of_nat n * zlen xs.
Proof.
  intros HW. induction HW as [|x xs b bs Hb HW IH]; [unfold zlen; cbn [length]; lia|].
  rewrite zlen_cons, zlen_app, IH, (wire_int_len _ _ _ _ Hb). lia.
Qed.

Lemma read_array_occ blk c a bs :
  zlen buf <= ssize_max -> occurs buf c bs -> wire_array blk a bs -> zlen bs <= blk ->
  read_array buf blk c = (Ok a, c + zlen bs).
Proof.
  intros HM HO HW HL. destruct HW as [name f dims data nb db sb eb HT Hf HD HS HDB HSB HE HP].
  apply occurs_app in HO as [HO1 HO]. apply occurs_app in HO as [HO2 HO].
  apply occurs_app in HO as [HO3 HO]. apply occurs_app in HO as [HO4 HO5].
  pose proof (wire_int_len _ _ _ _ HDB) as HLd. change (Z.of_nat 4) with 4 in HLd.
  change (zlen [wire_code f]) with 1 in *.
  rewrite !zlen_app in HL. change (zlen [wire_code f]) with 1 in HL.
  pose proof (zlen_nonneg nb). pose proof (zlen_nonneg sb). pose proof (zlen_nonneg eb).
  pose proof (wire_list_int_len _ _ _ _ HSB) as HLs. change (Z.of_nat 4) with 4 in HLs.
  rewrite zlen_rev in HLs.
  pose proof (wire_list_int_len _ _ _ _ HE) as HLe. rewrite wire_size_eq in HLe.
  assert (HNN : Forall (fun n => 0 <= n) dims).
  { eapply Forall_impl; [|exact HS]. intros n. cbn. lia. }
  pose proof (product_nonneg _ HNN) as HPN.
  pose proof (fmt_size_pos f) as HFS.
  unfold read_array. erewrite bind_eq by (eapply read_s_occ; eauto).
  erewrite bind_eq by (apply read_c_occ; eauto).
  erewrite bind_eq by (unfold check_data_type; rewrite data_types_code; reflexivity).
  erewrite bind_eq by (eapply read_i_occ; eauto).
  erewrite bind_eq by (apply bytes_check_pass; lia).
  erewrite bind_eq by (apply zn_check_pass; lia).
  erewrite bind_eq.
  2:{ replace (Z.to_nat (zlen dims)) with (length (rev dims))
        by (rewrite rev_length; unfold zlen; lia).
      eapply read_shape_occ; eauto. rewrite HLd in HO4. exact HO4. }
  cbv zeta.
  replace (if 1 <? zlen dims then rev (rev dims) else rev dims) with dims.
  2:{ destruct (1 <? zlen dims) eqn:E; [symmetry; apply rev_involutive|].
      destruct dims as [|x [|? ?]]; auto. unfold zlen in E; cbn [length] in E. lia. }
  assert (EX1 : existsb (fun x => x <=? 0) dims && negb (str_eqb name s_slist) = false).
  { destruct (str_eqb name s_slist) eqn:ES; [apply andb_false_r|]. rewrite andb_true_r.
    apply not_true_is_false. intros HX. apply existsb_exists in HX as (n & Hn & Hn0).
    rewrite Forall_forall in HS. apply HS in Hn. apply str_eqb_neq in ES. 
    destruct Hn as [[Hn|[Hn _]] _]; [lia|tauto]. }
  rewrite EX1.
  assert (EX2 : existsb (fun x => blk <=? x) dims = false).
  { apply not_true_is_false. intros HX. apply existsb_exists in HX as (n & Hn & Hn0).
    rewrite Forall_forall in HS. apply HS in Hn. lia. }
  rewrite EX2, prod_product.
  assert (product dims <= zlen eb) by nia.
  erewrite bind_eq by (apply bytes_check_pass; lia).
  erewrite bind_eq by (apply bytes_check_pass; cbn [opt_size]; lia).
  cbv beta iota.
  assert (HRN : read_numerical_array buf dims f (product dims) (c + zlen nb + 1 + 4 + zlen sb)
    = (Ok (mk_ndarray (wire_dtype f) false dims data),
       c + zlen nb + 1 + 4 + zlen sb + zlen eb)).
  { unfold read_numerical_array. rewrite fmt_dtype_eq by auto.
    destruct (raw_of_wire_elems _ _ _ Hf HE) as (raw & -> & HR1 & ->).
    unfold bind at 1, get_cursor. rewrite zlen_map in *.
    erewrite bind_eq.
    2:{ unfold lift. rewrite <- HP. rewrite frombuffer_occurs; [reflexivity| | | |]; auto.
        rewrite HLd in HO5. exact HO5. }
    unfold bind at 1, advance.
    erewrite bind_eq.
    2:{ unfold lift. rewrite reshape_nonneg_ok; [reflexivity| | |]; auto; lia. }
    unfold ret. f_equal. lia. }
  replace (match f with Fs => fail DmapDataError | _ => _ end)
    with (do array_value <- read_numerical_array buf dims f (product dims);
          ret (mk_darray name array_value (wire_code f) f (zlen dims) dims))
    by (destruct f; auto; congruence).
  erewrite bind_eq by exact HRN.
  unfold ret. f_equal. rewrite !zlen_app, HLd. change (zlen [wire_code f]) with 1. lia.
Qed.

Lemma read_arrays_ok blk n : forall c xs c',
  0 <= c <= zlen buf -> Forall is_byte buf -> read_arrays buf blk n c = (Ok xs, c') ->
  Forall (fun a => Forall (fun n => 0 <= n) (ar_shape a)) xs ->
  length xs = n /\
  exists bs, occurs buf c bs /\ wire_list (wire_array blk) xs bs /\ c' = c + zlen bs.
Proof.
  induction n as [|n IH]; intros c xs c' H0 HB H HNN; cbn [read_arrays] in H.
  - injection H as <- <-. split; auto. exists []. rewrite zlen_nil.
    split; [now apply occurs_nil|]. split; [constructor|lia].
  - inv_bind H. inv_bind H. injection H as <- <-.
    inversion HNN as [|? ? HN1 HN2]; subst.
    apply read_array_ok in H1 as (b & HO1 & HW1 & ->); auto; [|lia].
    pose proof (occurs_bounds _ _ _ HO1). pose proof (zlen_nonneg b).
    apply IH in H2 as (HLn & bs & HO2 & HW2 & ->); auto; [|lia].
    split; [cbn [length]; lia|]. exists (b ++ bs). split; [|split].
    + apply occurs_app. split; auto.
    + now constructor.
    + rewrite zlen_app. lia.
Qed.

Lemma read_arrays_occ blk xs bs :
  zlen buf <= ssize_max -> wire_list (wire_array blk) xs bs -> zlen bs <= blk ->
  forall c, occurs buf c bs ->
  read_arrays buf blk (length xs) c = (Ok xs, c + zlen bs).
Proof.
  intros HM HW. induction HW as [|x xs b bs HR HW IH]; intros HL c HO;
    cbn [read_arrays length].
  - rewrite zlen_nil, Z.add_0_r. reflexivity.
  - apply occurs_app in HO as [HO1 HO2]. rewrite zlen_app in *.
    pose proof (zlen_nonneg b). pose proof (zlen_nonneg bs).
    erewrite bind_eq by (eapply read_array_occ; eauto; lia).
    erewrite bind_eq by (apply IH; [lia|exact HO2]).
    unfold ret. f_equal. lia.
Qed.

(** ** Blocks *)

Lemma wire_scalar_len s b : wire_scalar s b -> 2 <= zlen b.
Proof.
  intros [name f v nb vb HT HV]. rewrite !zlen_app. change (zlen [wire_code f]) with 1.
  pose proof (wire_text_len _ _ HT). pose proof (zlen_nonneg vb). lia.
Qed.

Lemma wire_array_len blk a b : wire_array blk a b -> 2 <= zlen b.
Proof.
  intros [name f dims data nb db sb eb HT]. rewrite !zlen_app. change (zlen [wire_code f]) with 1.
  pose proof (wire_text_len _ _ HT). pose proof (zlen_nonneg db). pose proof (zlen_nonneg sb).
  pose proof (zlen_nonneg eb). lia.
Qed.

Lemma wire_block_len id b bs : wire_block id b bs -> 16 < zlen bs < 2 ^ 31.
Proof using.
  clear buf.
  intros [ss aa szb nsb nab sb ab HI HIB HSS HAA HSZ HNS HNA HS HA].
  pose proof (wire_int_len _ _ _ _ HSZ). pose proof (wire_int_len _ _ _ _ HNS).
  pose proof (wire_int_len _ _ _ _ HNA).
  pose proof (wire_list_len_ge _ 2 _ _ wire_scalar_len HS).
  pose proof (zlen_nonneg ab).
  assert (zlen ss <> 0) by (rewrite zlen_0; auto). pose proof (zlen_nonneg ss).
  destruct HSZ as (_ & _ & HF & _). apply fits_iff in HF; [|lia].
  apply int32_range in HF.
  split; [|lia]. rewrite !zlen_app in *. unfold zlen in *. lia.
Qed.

Lemma read_block_ok c fs c' :
  0 <= c -> Forall is_byte buf -> read_record_fields buf c = (Ok fs, c') ->
  Forall (fun a => Forall (fun n => 0 <= n) (ar_shape a)) (snd fs) ->
  exists id bs, occurs buf c bs /\ wire_block id fs bs /\ c' = c + zlen bs.
Proof.
  intros H0 HB H HNN. unfold read_record_fields in H.
  inv_bind H. injection H1 as <- <-.
  inv_bind H. injection H1 as <- <-.
  inv_bindn H as size. apply read_i_ok in H1 as (szb & HO1 & HW1 & ->); auto; [|lia].
  inv_bind H. injection H1 as <- <-. cbv zeta in H.
  inv_bind H. apply bytes_check_ok in H1 as [HC1 ->].
  inv_bind H. apply zn_check_ok in H1 as [HC2 ->].
  inv_bindn H as ns. apply read_i_ok in H1 as (nsb & HO2 & HW2 & ->); auto; [|lia].
  inv_bindn H as na. apply read_i_ok in H1 as (nab & HO3 & HW3 & ->); auto; [|lia].
  inv_bind H. apply zn_check_ok in H1 as [HC3 ->].
  inv_bind H. apply zn_check_ok in H1 as [HC4 ->].
  inv_bind H. apply bytes_check_ok in H1 as [HC5 ->].
  pose proof (wire_int_len _ _ _ _ HW1) as HL1. pose proof (wire_int_len _ _ _ _ HW2) as HL2.
  pose proof (wire_int_len _ _ _ _ HW3) as HL3. change (Z.of_nat 4) with 4 in *.
  pose proof (occurs_bounds _ _ _ HO3) as HB3.
  inv_bindn H as ss. apply read_scalars_ok in H1 as (HLs & sb & HO4 & HW4 & ->); auto; [|lia].
  pose proof (occurs_bounds _ _ _ HO4) as HB4. pose proof (zlen_nonneg sb) as HZsb.
  inv_bindn H as aa. inv_bind H. injection H2 as <- <-.
  destruct (negb (c0 - c =? size)) eqn:ESZ; [discriminate|]. injection H as <- <-.
  cbn [snd] in HNN.
  apply read_arrays_ok in H1 as (HLa & ab & HO5 & HW5 & ->); auto; [|lia].
  destruct (occurs_slice buf c 4) as [HO0 HL0]; try lia.
  set (id := slice buf c 4) in *.
  assert (HZ : zlen (id ++ szb ++ nsb ++ nab ++ sb ++ ab) = size).
  { rewrite !zlen_app. lia. }
  assert (HCC : c + 4 + 4 + 4 + 4 + zlen sb + zlen ab = c + size) by lia.
  exists id, (id ++ szb ++ nsb ++ nab ++ sb ++ ab).
  split; [|split].
  - rewrite !occurs_app, HL0, HL1, HL2, HL3. auto 10.
  - constructor; auto.
    + unfold zlen in HL0. lia.
    + eapply occurs_Forall; eauto.
    + intros ->. cbn [length] in HLs. lia.
    + intros ->. cbn [length] in HLa. lia.
    + now rewrite HZ.
    + replace (zlen ss) with ns by (unfold zlen; lia). auto.
    + replace (zlen aa) with na by (unfold zlen; lia). auto.
    + now rewrite HZ.
  - lia.
Qed.

Lemma read_block_occ c id fs bs :
  zlen buf <= ssize_max -> occurs buf c bs -> wire_block id fs bs ->
  read_record_fields buf c = (Ok fs, c + zlen bs).
Proof.
  intros HM HO HW. pose proof (wire_block_len _ _ _ HW) as HBL.
  destruct HW as [ss aa szb nsb nab sb ab HI HIB HSS HAA HSZ HNS HNA HS HA].
  pose proof (occurs_bounds _ _ _ HO) as HBB.
  set (L := zlen (id ++ szb ++ nsb ++ nab ++ sb ++ ab)) in *.
  apply occurs_app in HO as [HO0 HO]. apply occurs_app in HO as [HO1 HO].
  apply occurs_app in HO as [HO2 HO]. apply occurs_app in HO as [HO3 HO].
  apply occurs_app in HO as [HO4 HO5].
  pose proof (wire_int_len _ _ _ _ HSZ) as HL1. pose proof (wire_int_len _ _ _ _ HNS) as HL2.
  pose proof (wire_int_len _ _ _ _ HNA) as HL3. change (Z.of_nat 4) with 4 in *.
  assert (HL0 : zlen id = 4) by (unfold zlen; lia).
  rewrite HL0, ?HL1, ?HL2, ?HL3 in *.
  assert (HLL : L = 16 + zlen sb + zlen ab).
  { unfold L. rewrite !zlen_app. lia. }
  clearbody L.
  pose proof (wire_list_len_ge _ 2 _ _ wire_scalar_len HS).
  pose proof (wire_list_len_ge _ 2 _ _ (wire_array_len L) HA).
  assert (zlen ss <> 0) by (rewrite zlen_0; auto). pose proof (zlen_nonneg ss).
  assert (zlen aa <> 0) by (rewrite zlen_0; auto). pose proof (zlen_nonneg aa).
  unfold read_record_fields. unfold bind at 1, get_cursor. unfold bind at 1, advance.
  erewrite bind_eq by (eapply read_i_occ; eauto).
  unfold bind at 1, get_cursor. cbv zeta.
  erewrite bind_eq by (apply bytes_check_pass; unfold end_bytes; lia).
  erewrite bind_eq by (apply zn_check_pass; lia).
  erewrite bind_eq by (eapply read_i_occ; eauto).
  erewrite bind_eq by (eapply read_i_occ; eauto).
  erewrite bind_eq by (apply zn_check_pass; lia).
  erewrite bind_eq by (apply zn_check_pass; lia).
  erewrite bind_eq by (apply bytes_check_pass; lia).
  erewrite bind_eq.
  2:{ replace (Z.to_nat (zlen ss)) with (length ss) by (unfold zlen; lia).
      eapply read_scalars_occ; eauto. }
  erewrite bind_eq.
  2:{ replace (Z.to_nat (zlen aa)) with (length aa) by (unfold zlen; lia).
      eapply read_arrays_occ; eauto. lia. }
  unfold bind, get_cursor.
  replace (c + 4 + 4 + 4 + 4 + zlen sb + zlen ab - c =? L) with true by lia.
  cbn [negb]. unfold ret. f_equal. lia.
Qed.

(** ** Files *)

Lemma read_blocks_ok fuel : forall c bl c',
  0 <= c <= zlen buf -> Forall is_byte buf -> read_blocks buf fuel c = (Ok bl, c') ->
  nonneg_sizes bl ->
  exists bs, occurs buf c bs /\ wire_file bl bs /\ c' = c + zlen bs /\ c' = zlen buf.
Proof.
  induction fuel as [|fuel IH]; intros c bl c' H0 HB H HNN; cbn [read_blocks] in H;
    unfold bind at 1, get_cursor, end_bytes in H; destruct (c <? zlen buf) eqn:EC; try discriminate.
  - injection H as <- <-. exists []. rewrite zlen_nil.
    split; [now apply occurs_nil|]. split; [constructor|lia].
  - inv_bind H. inv_bind H. injection H as <- <-.
    inversion HNN as [|? ? HN1 HN2]; subst.
    apply read_block_ok in H1 as (id & b & HO1 & HW1 & ->); auto; [|lia].
    pose proof (occurs_bounds _ _ _ HO1). pose proof (zlen_nonneg b).
    apply IH in H2 as (bs & HO2 & HW2 & -> & HE); auto; [|lia].
    exists (b ++ bs). split; [|split; [|split]].
    + apply occurs_app. split; auto.
    + constructor; eauto.
    + rewrite zlen_app. lia.
    + exact HE.
  - injection H as <- <-. exists []. rewrite zlen_nil.
    split; [now apply occurs_nil|]. split; [constructor|lia].
Qed.

Lemma read_blocks_occ bl bs :
  zlen buf <= ssize_max -> wire_file bl bs -> forall fuel c,
  occurs buf c bs -> c + zlen bs = zlen buf -> (length bl <= fuel)%nat ->
  read_blocks buf fuel c = (Ok bl, zlen buf).
Proof.
  intros HM HW. induction HW as [|x xs b bs [id HR] HW IH]; intros fuel c HO HE HF.
  - rewrite zlen_nil in HE.
    destruct fuel; cbn [read_blocks]; unfold bind at 1, get_cursor, end_bytes;
      replace (c <? zlen buf) with false by lia; unfold ret; f_equal; lia.
  - destruct fuel as [|fuel]; cbn [length] in HF; [lia|].
    apply occurs_app in HO as [HO1 HO2]. rewrite zlen_app in HE.
    pose proof (wire_block_len _ _ _ HR). pose proof (zlen_nonneg bs).
    cbn [read_blocks]. unfold bind at 1, get_cursor, end_bytes.
    replace (c <? zlen buf) with true by lia.
    erewrite bind_eq by (eapply read_block_occ; eauto).
    erewrite bind_eq by (apply IH; [exact HO2|lia|lia]). reflexivity.
Qed.

End Reader.
