(** Proofs for C102. *)
From Coq Require Import ZArith List Bool Lia ZifyBool ZifyNat.
From Verif Require Import Base Bytes BytesSpec BytesProofs Utf8 Utf8Proofs FloatBits DmapTypes DmapRead DmapSpec DmapReadProofs DmapFileProofs
  DmapStreamProofs DmapShapeProofs DmapBackProofs DmapFaultSpec DmapFaultProofs DmapAnySpec DmapAnyProofs DmapAnyFaultSpec.
Import ListNotations.
Open Scope Z_scope.

Lemma raising_bind_iff {A B} (m : rd A) (f : A -> rd B) c e :
  raising (bind m f) c e <-> raising m c e \/ exists a c', m c = (Ok a, c') /\ raising (f a) c' e.
Proof.
  split.
  - intros [c' H]. unfold bind in H. destruct (m c) as [[a|e'] c1] eqn:E.
    + right. exists a, c1. split; [reflexivity|]. now exists c'.
    + left. injection H as -> ->. exists c'. exact E.
  - intros [H|(a & c' & H1 & H)]; [now apply raising_bind|eapply raising_step; eauto].
Qed.

Lemma raising_ret {A} (a : A) c e : ~ raising (ret a) c e.
Proof. intros [c' H]. discriminate H. Qed.

Lemma raising_fail {A} x c e : raising (@fail A x) c e <-> e = x.
Proof. split; [intros [c' H]; now injection H|intros ->; now exists c]. Qed.

Lemma raising_ok {A} (m : rd A) c a q e : m c = (Ok a, q) -> ~ raising m c e.
Proof. intros H [c' H']. rewrite H in H'. discriminate H'. Qed.

Lemma raising_same {A} (m : rd A) c e e' : raising m c e -> raising m c e' -> e = e'.
Proof. intros [c1 H1] [c2 H2]. rewrite H1 in H2. now injection H2. Qed.

Lemma raising_total {A} (m : rd A) c (P : exn -> Prop) :
  (forall e, P e -> raising m c e) -> ((exists a q, m c = (Ok a, q)) \/ exists e, P e) ->
  forall e, raising m c e <-> P e.
Proof.
  intros HP HT e. split; [|apply HP]. intros H. destruct HT as [(a & q & HT)|[e' HT]]; [now apply (raising_ok _ _ _ _ _ HT) in H|].
  pose proof (HP _ HT) as HR. now rewrite (raising_same _ _ _ _ H HR).
Qed.

Lemma sign_iff n c e : raising (zero_negative_check n) c e <-> sign_fault n e.
Proof.
  split; [|apply sign_raises]. unfold zero_negative_check. destruct (n =? 0) eqn:E0; [|destruct (n <? 0) eqn:E1].
  - intros H. apply raising_fail in H as ->. replace n with 0 by lia. constructor.
  - intros H. apply raising_fail in H as ->. constructor. lia.
  - intros H. now apply raising_ret in H.
Qed.

Lemma large_iff a b c e : raising (bytes_check a b) c e <-> b < a /\ e = MismatchByteError.
Proof.
  split; [|intros [H ->]; now apply large_raises]. unfold bytes_check. destruct (b <? a) eqn:E; intros H.
  - apply raising_fail in H as ->. split; [lia|reflexivity].
  - now apply raising_ret in H.
Qed.

Lemma type_iff t c e : raising (check_data_type t) c e <-> (forall o, ~ type_code t o) /\ e = DmapDataTypeError.
Proof.
  unfold check_data_type. split.
  - destruct (dmap_data_types t) as [o|] eqn:E; intros H; [now apply raising_ret in H|]. apply raising_fail in H as ->.
    split; [|reflexivity]. intros o HT. apply type_code_iff in HT. congruence.
  - intros [HN ->]. destruct (dmap_data_types t) as [o|] eqn:E; [|now apply raising_fail].
    exfalso. apply (HN o). now apply type_code_iff.
Qed.

Section Bad.
Variable buf : bytes.
Hypothesis HB : Forall is_byte buf.
Hypothesis HM : zlen buf <= ssize_max.

Lemma i_iff p e : - zlen buf <= p -> raising (read_data_i buf) p e <-> number_bad buf p e.
Proof.
  intros HP. apply raising_total.
  - intros x [H|H1 H2]; [apply i_raises; lia|].
    destruct (last_bytes buf p ltac:(lia) ltac:(lia)) as (front & tail & E & T & F & NE). unfold ssize_max in HM.
    assert (ZB : zlen buf = zlen front + zlen tail) by (rewrite E; apply zlen_app). pose proof (zlen_nonneg front).
    destruct (raw_back front tail 4 NE ltac:(lia) ltac:(lia) ltac:(lia)) as [_ R]; [rewrite zlen_app; lia|].
    rewrite <- E, T in R. replace (- - p) with p in R by lia. apply raising_bind. exists p. apply R. lia.
  - destruct (Z_lt_le_dec (zlen buf) (p + 4)) as [C|C]; [right; exists CursorError; now apply nb_cut|].
    destruct (Z_lt_le_dec p 0) as [N|N].
    + destruct (Z_lt_le_dec 0 (p + 4)) as [O|O]; [right; exists StructError; apply nb_over; lia|]. left.
      destruct (occurs_slice buf (zlen buf + p) 4) as [HO HL]; try lia.
      exists (unpack_int true 4 (slice buf (zlen buf + p) 4)), (p + 4). apply int_iff; auto.
      exists (slice buf (zlen buf + p) 4). split; [|split; [apply st_back; [lia|lia|exact HO]|reflexivity]].
      apply wire_int_iff; [lia|]. split; [apply Nat2Z.inj; exact HL|]. split; [eapply occurs_Forall; eauto|reflexivity].
    + left. destruct (occurs_slice buf p 4) as [HO HL]; try lia.
      exists (unpack_int true 4 (slice buf p 4)), (p + 4). apply int_iff; auto.
      exists (slice buf p 4). split; [|split; [now apply st_front|reflexivity]].
      apply wire_int_iff; [lia|]. split; [apply Nat2Z.inj; exact HL|]. split; [eapply occurs_Forall; eauto|reflexivity].
Qed.

Lemma c_iff p e : - zlen buf <= p -> raising (read_data_c buf) p e <-> zlen buf <= p /\ e = CursorError.
Proof.
  intros HP. apply (raising_total _ _ (fun e => zlen buf <= p /\ e = CursorError)).
  - intros x [H ->]. apply raising_bind. exists p. apply checks_raise; lia.
  - destruct (Z_lt_le_dec p (zlen buf)) as [C|C]; [left|right; exists CursorError; auto].
    destruct (Z_lt_le_dec p 0) as [N|N].
    + destruct (last_bytes buf p N ltac:(lia)) as (front & [|x tail] & E & T & F & NE); [congruence|].
      exists x, (p + 1). apply char_iff; auto. split; [|reflexivity]. apply st_back; [lia|change (zlen [x]) with 1; lia|].
      rewrite <- F. rewrite E at 1. apply (occurs_tail front [x] tail).
    + destruct (occurs_slice buf p 1) as [HO HL]; try lia. destruct (slice buf p 1) as [|x [|y l]] eqn:ES.
      * change (zlen (@nil Z)) with 0 in HL. lia.
      * exists x, (p + 1). apply char_iff; auto. split; [now apply st_front|reflexivity].
      * rewrite !zlen_cons in HL. pose proof (zlen_nonneg l). lia.
Qed.

Lemma text_bad_raises p e : text_bad buf p e -> raising (read_data_s buf) p e.
Proof.
  assert (HV : forall x c, read_data buf Fs p = (Raise x, c) -> raising (read_data_s buf) p x).
  { intros x c H. cbn [read_data] in H. unfold bind in H. destruct (read_data_s buf p) as [[y|e'] d] eqn:E; [discriminate H|].
    exists d. injection H as -> _. exact E. }
  assert (HU : forall x s, (forall s, utf8_enc s <> Some x) -> utf8_dec x = Some s -> False).
  { intros x s N D. apply utf8_enc_dec in D. now apply (N s). }
  unfold ssize_max in HM.
  intros [H|H|front tail E F T N|H N|b r tail E N0 I0 NT NE P|x N U S|x N U P O Z O0].
  - apply raising_bind. exists p. apply checks_raise; lia.
  - eapply HV. apply text_beyond. lia.
  - eapply text_raises; [exact HM| |apply tf_open; [exact T|exact N]]. split; [|rewrite E, zlen_app; lia].
    rewrite <- F, E. exists front, []. rewrite app_nil_r. auto.
  - destruct (last_bytes buf p ltac:(lia) ltac:(lia)) as (front & tail & E & T & F & NE).
    pose proof (text_endless front tail NE) as R. rewrite <- E, T in R. replace (- - p) with p in R by lia.
    eapply HV. apply R. now apply not_in_zero.
  - destruct (DmapAnyProofs.first_zero (b :: r)) as [NZ|(x & r' & ER & NX)].
    { exfalso. apply not_in_zero in NZ. apply NZ. now right. }
    destruct x as [|b' x]; [cbn [app] in ER; injection ER as -> _; congruence|].
    pose proof (text_over (b' :: x) r' tail NE ltac:(now apply not_in_zero) ltac:(discriminate) NX) as R.
    assert (EB : buf = (b' :: x) ++ 0 :: r' ++ tail).
    { rewrite E. change (b :: r ++ tail) with ((b :: r) ++ tail). rewrite ER, <- app_assoc. reflexivity. }
    rewrite <- EB, <- P in R. eapply HV. apply R.
    rewrite E in HM. rewrite zlen_cons, zlen_app in HM. pose proof (zlen_nonneg r). lia.
  - destruct S as [O|P C O].
    + destruct O as (front & r & E & F). eapply text_raises; [exact HM| |apply (tf_utf8 x r); auto].
      replace ((x ++ [0]) ++ r) with (x ++ 0 :: r) in E by (now rewrite <- app_assoc).
      split; [|rewrite E, !zlen_app; lia]. exists front, []. rewrite app_nil_r. auto.
    + destruct (last_bytes buf p P) as (front & tail & E & T & F & NE); [apply occurs_bounds in O; lia|].
      rewrite <- F in O. rewrite E in O at 1. apply tail_occurs in O as [r O]. rewrite <- app_assoc in O. cbn [app] in O.
      assert (ZB : zlen buf = zlen front + zlen tail) by (rewrite E; apply zlen_app). pose proof (zlen_nonneg front).
      pose proof (text_back front x r ltac:(now apply not_in_zero)) as R. rewrite <- O in R. specialize (R ltac:(lia)).
      rewrite <- E, T in R. replace (- - p) with p in R by lia.
      destruct (utf8_dec x) as [s|] eqn:D; [exfalso; eapply HU; eauto|]. eapply HV. exact R.
  - destruct (last_bytes buf p P) as (front & tail & E & T & F & NE); [apply occurs_bounds in O; lia|].
    rewrite <- F in O. rewrite E in O at 1. apply tail_occurs in O as [r O].
    assert (r = []) as ->.
    { destruct r as [|c r]; [reflexivity|]. apply (f_equal zlen) in O. rewrite zlen_app, zlen_cons in O. pose proof (zlen_nonneg r). lia. }
    rewrite app_nil_r in O. subst x.
    assert (ZB : zlen buf = zlen front + zlen tail) by (rewrite E; apply zlen_app). pose proof (zlen_nonneg front).
    assert (EF : exists f', front = 0 :: f').
    { destruct O0 as (pre & post & EB & Z0). destruct pre as [|? pre]; [|rewrite zlen_cons in Z0; pose proof (zlen_nonneg pre); lia].
      cbn [app] in EB. rewrite E in EB. destruct front as [|c f']; [|cbn [app] in EB; injection EB as -> _; eauto].
      cbn [app] in EB. exfalso. apply N. rewrite EB. now left. }
    destruct EF as [f' ->]. pose proof (text_to_end f' tail NE ltac:(now apply not_in_zero) ltac:(lia)) as R.
    change (0 :: f' ++ tail) with ((0 :: f') ++ tail) in R. rewrite <- E, T in R. replace (- - p) with p in R by lia.
    destruct (utf8_dec tail) as [s|] eqn:D; [exfalso; eapply HU; eauto|]. eapply HV. exact R.
Qed.

Lemma text_all p : (exists s q, text_at buf p s q) \/ exists e, text_bad buf p e.
Proof.
  assert (HU : forall x, (exists s, utf8_enc s = Some x) \/ forall s, utf8_enc s <> Some x).
  { intros x. destruct (utf8_dec x) as [s|] eqn:D; [left; exists s; now apply utf8_enc_dec|].
    right. intros s C. apply utf8_dec_enc in C. congruence. }
  assert (HW : forall s x, utf8_enc s = Some x -> ~ In 0 x -> wire_text s (x ++ [0])).
  { intros s x U N. exists x. split; [exact U|]. split; [now rewrite <- (utf8_enc_nul _ _ U)|reflexivity]. }
  destruct (Z_lt_le_dec p (zlen buf)) as [C|C]; [|right; eexists; now apply tb_end].
  destruct (Z_lt_le_dec p (- zlen buf)) as [L|L]; [right; eexists; now apply tb_before|].
  destruct (Z_lt_le_dec p 0) as [P|P].
  - destruct (last_bytes buf p P ltac:(lia)) as (front & tail & E & T & F & NE).
    destruct (DmapFaultProofs.first_zero tail) as [NT|(x & r & ET & NX)].
    + destruct front as [|b front].
      * right. eexists. apply tb_endless; [lia|]. rewrite E. exact NT.
      * destruct (Z.eq_dec b 0) as [->|B0].
        -- destruct (HU tail) as [[s U]|U].
           ++ left. exists s, 1. apply (ta_round _ _ _ tail); auto; try lia.
              ** rewrite <- F. rewrite E at 1. rewrite <- (app_nil_r tail) at 1. apply occurs_tail.
              ** rewrite E. exists [], (front ++ tail). auto.
           ++ right. eexists. apply (tb_utf8_round _ _ tail); auto; try lia.
              ** rewrite <- F. rewrite E at 1. rewrite <- (app_nil_r tail) at 1. apply occurs_tail.
              ** rewrite E. exists [], (front ++ tail). auto.
        -- destruct (DmapFaultProofs.first_zero front) as [NF|(y & r & EF & _)].
           ++ right. eexists. apply tb_endless; [lia|]. rewrite E. intros I. apply in_app_or in I as [[I|I]|I]; auto.
           ++ right. eexists. apply (tb_over _ _ b front tail); auto; [|lia]. rewrite EF. apply in_or_app. right. now left.
    + assert (O : stands buf p (x ++ [0])).
      { apply st_back; [exact P| |].
        - apply (f_equal zlen) in ET. rewrite zlen_app, zlen_cons in ET. rewrite zlen_app. change (zlen [0]) with 1. pose proof (zlen_nonneg r). lia.
        - rewrite <- F. rewrite E at 1. rewrite ET. replace (x ++ 0 :: r) with ((x ++ [0]) ++ r) by (now rewrite <- app_assoc). apply occurs_tail. }
      destruct (HU x) as [[s U]|U].
      * left. exists s, (p + zlen (x ++ [0])). apply ta_plain; auto.
      * right. eexists. apply (tb_utf8 _ _ x); auto.
  - assert (E : buf = firstn (Z.to_nat p) buf ++ skipn (Z.to_nat p) buf) by (symmetry; apply firstn_skipn).
    assert (F : zlen (firstn (Z.to_nat p) buf) = p) by (unfold zlen in *; rewrite firstn_length; lia).
    assert (T : zlen (skipn (Z.to_nat p) buf) = zlen buf - p) by (unfold zlen in *; rewrite skipn_length; lia).
    set (front := firstn (Z.to_nat p) buf) in *. set (tail := skipn (Z.to_nat p) buf) in *. clearbody front tail.
    destruct (DmapFaultProofs.first_zero tail) as [NT|(x & r & ET & NX)].
    + right. eexists. apply (tb_open _ _ front tail); auto. intros ->. change (zlen (@nil Z)) with 0 in T. lia.
    + assert (O : stands buf p (x ++ [0])).
      { apply st_front. rewrite E, ET, <- F. replace (x ++ 0 :: r) with ((x ++ [0]) ++ r) by (now rewrite <- app_assoc). apply occurs_tail. }
      destruct (HU x) as [[s U]|U].
      * left. exists s, (p + zlen (x ++ [0])). apply ta_plain; auto.
      * right. eexists. apply (tb_utf8 _ _ x); auto.
Qed.

Lemma s_iff p e : raising (read_data_s buf) p e <-> text_bad buf p e.
Proof.
  apply raising_total; [apply text_bad_raises|]. destruct (text_all p) as [(s & q & H)|H]; [left|right; exact H].
  exists s, q. now apply text_iff.
Qed.

Lemma stands_span p x : stands buf p x -> - zlen buf <= p /\ p + zlen x <= zlen buf.
Proof. pose proof (zlen_nonneg x). intros [O|P C O]; apply occurs_bounds in O; lia. Qed.

Lemma text_span p s q : text_at buf p s q -> - zlen buf <= p < q /\ q <= zlen buf.
Proof.
  intros [bs W S|e P W O Z O0].
  - apply stands_span in S. destruct W as (e & _ & _ & ->). rewrite zlen_app in *. change (zlen [0]) with 1 in *. pose proof (zlen_nonneg e). lia.
  - apply occurs_bounds in O, O0. change (zlen [0]) with 1 in O0. pose proof (zlen_nonneg e). lia.
Qed.

Lemma sizes_span p l : sizes_at buf p l -> p <= zlen buf -> p + 4 * zlen l <= zlen buf.
Proof.
  intros H. induction H as [p|p n ns bs W S H IH]; intros C; [change (zlen (@nil Z)) with 0; lia|].
  apply stands_span in S. apply wire_int_len in W. rewrite zlen_cons. lia.
Qed.

Lemma sizes_raise n : forall p e, - zlen buf <= p -> raising (read_shape buf n) p e <->
  exists l, sizes_at buf p l /\ (length l < n)%nat /\ number_bad buf (p + 4 * zlen l) e.
Proof.
  induction n as [|n IH]; intros p e HP; cbn [read_shape].
  - split; [intros H; now apply raising_ret in H|]. intros (l & _ & L & _). lia.
  - rewrite raising_bind_iff. split.
    + intros [H|(x & q & H1 & H)].
      * exists []. split; [constructor|]. split; [cbn; lia|]. change (zlen (@nil Z)) with 0. rewrite Z.mul_0_r, Z.add_0_r. now apply i_iff.
      * apply int_iff in H1 as (bs & W & S & ->); auto.
        apply raising_bind_iff in H as [H|(y & q & H1 & H)]; [|now apply raising_ret in H].
        apply IH in H as (l & H1 & H2 & H3); [|lia]. exists (x :: l). split; [econstructor; eauto|]. split; [cbn [length]; lia|].
        rewrite zlen_cons. replace (p + 4 * (1 + zlen l)) with (p + 4 + 4 * zlen l) by lia. exact H3.
    + intros (l & H1 & H2 & H3). destruct H1 as [p|p x l bs W S H1].
      * left. apply i_iff; [lia|]. change (zlen (@nil Z)) with 0 in H3. now rewrite Z.mul_0_r, Z.add_0_r in H3.
      * right. exists x, (p + 4). split; [apply int_iff; auto; exists bs; auto|]. apply raising_bind. apply IH; [lia|].
        exists l. split; [exact H1|]. split; [cbn [length] in H2; lia|]. rewrite zlen_cons in H3.
        now replace (p + 4 + 4 * zlen l) with (p + 4 * (1 + zlen l)) by lia.
Qed.

Lemma reshape_raises n dims e : np_reshape n dims = Raise e -> e = ValueError.
Proof.
  unfold np_reshape. destruct (_ <? _); [congruence|]. cbv zeta. destruct (filter _ dims) as [|x [|y l]].
  - destruct (_ =? _); congruence.
  - destruct (_ =? _); [congruence|]. destruct (_ =? _); congruence.
  - congruence.
Qed.

Lemma cells_raise f p dims e : f <> Fs -> - zlen buf <= p <= zlen buf -> product dims < 2 ^ 63 ->
  raising (read_numerical_array buf dims f (product dims)) p e <-> cells_bad buf f p dims e.
Proof.
  intros Hf HP HD. unfold ssize_max in HM. pose proof (zlen_nonneg buf).
  assert (HV : - 2 ^ 63 <= product dims -> (exists a q, read_numerical_array buf dims f (product dims) p = (Ok a, q)) \/
                                             raising (read_numerical_array buf dims f (product dims)) p ValueError).
  { intros HC. unfold raising. unfold read_numerical_array. rewrite fmt_dtype_eq by auto.
    unfold bind, get_cursor, lift, advance, ret. destruct (frombuffer buf (fmt_size f) (product dims) p) as [raw|x] eqn:EF.
    - destruct (np_reshape (zlen raw) dims) as [s|x] eqn:ER; [left; eauto|]. apply reshape_raises in ER as ->. right. eauto.
    - right. exists p. assert (x = ValueError) as ->; [|reflexivity]. unfold frombuffer, ssize_min, ssize_max in EF.
      replace ((product dims <? - 2 ^ 63) || (2 ^ 63 - 1 <? product dims)) with false in EF by lia.
      replace ((p <? - 2 ^ 63) || (2 ^ 63 - 1 <? p)) with false in EF by lia.
      destruct ((p <? 0) || _); [congruence|]. cbv zeta in EF.
      destruct (product dims <? 0); [destruct (negb _)|destruct (_ <? _)]; congruence. }
  apply raising_total.
  - intros x [H1|H1 H2].
    + exists p. apply array_count; [exact Hf|lia].
    + destruct (HV H1) as [(a & q & H3)|H3]; [exfalso|exact H3].
      apply cells_iff in H3 as (H4 & shape & data & _ & H5); auto. now apply (H2 H4 shape data q).
  - destruct (Z_lt_le_dec (product dims) (- 2 ^ 63)) as [H1|H1]; [right; eexists; now apply eb_count|].
    destruct (HV H1) as [(a & q & H3)|H3]; [left; eauto|right]. exists ValueError. apply eb_none; [exact H1|].
    intros H4 shape data q H5. eapply raising_ok; [|exact H3]. apply cells_iff; auto. split; [exact H4|]. exists shape, data. eauto.
Qed.

Lemma fine_dec blk name dims :
  Forall (fun n => (1 <= n \/ name = s_slist) /\ n < blk) dims <->
  (existsb (fun x => x <=? 0) dims && negb (str_eqb name s_slist))%bool = false /\
  existsb (fun x => blk <=? x) dims = false.
Proof.
  split.
  - intros HS. rewrite Forall_forall in HS. split.
    + destruct (str_eqb name s_slist) eqn:ES; [apply andb_false_r|]. rewrite andb_true_r.
      apply not_true_is_false. intros HX. apply existsb_exists in HX as (n & Hn & Hn0).
      apply HS in Hn. apply str_eqb_neq in ES. destruct Hn as [[Hn|Hn] _]; [lia|tauto].
    + apply not_true_is_false. intros HX. apply existsb_exists in HX as (n & Hn & Hn0). apply HS in Hn. lia.
  - intros [EX1 EX2]. rewrite Forall_forall. intros n Hn. split.
    + destruct (str_eqb name s_slist) eqn:ES; [right; now apply str_eqb_eq|left].
      rewrite andb_true_r in EX1. destruct (Z_lt_le_dec 0 n); [lia|]. exfalso.
      rewrite <- not_true_iff_false in EX1. apply EX1. apply existsb_exists. exists n. split; auto. lia.
    + destruct (Z_lt_le_dec n blk); auto. exfalso.
      rewrite <- not_true_iff_false in EX2. apply EX2. apply existsb_exists. exists n. split; auto. lia.
Qed.

(** What [read_array] does after the sizes. *)
Definition after_sizes (blk : Z) (name : pystr) (t dim : Z) (o : option fmt) (dims : list Z) : rd darray :=
  if existsb (fun x => x <=? 0) dims && negb (str_eqb name s_slist) then fail DmapDataError else
  if existsb (fun x => blk <=? x) dims then fail DmapDataError else
  do_ bytes_check (prod dims) blk;
  do_ bytes_check (prod dims * opt_size o) blk;
  match o with
  | Some Fs => fail DmapDataError
  | None => fail DmapDataError
  | Some f => do v <- read_numerical_array buf dims f (prod dims); ret (mk_darray name v t f dim dims)
  end.

Lemma after_iff blk name t dim o dims p e : - zlen buf <= p <= zlen buf -> blk < 2 ^ 63 ->
  raising (after_sizes blk name t dim o dims) p e <-> sizes_bad buf blk p name o dims e.
Proof.
  intros HP HK. unfold after_sizes. rewrite prod_product.
  destruct (existsb (fun x => x <=? 0) dims && negb (str_eqb name s_slist)) eqn:EX1.
  { rewrite raising_fail. apply andb_true_iff in EX1 as [E1 E2]. apply existsb_exists in E1 as (n & I & N).
    apply negb_true_iff in E2. split.
    - intros ->. apply (zb_size _ _ _ _ _ _ n I). left. split; [lia|now apply str_eqb_neq].
    - intros [m I' D|F L|F L D|f x F L D Hf C]; try reflexivity; exfalso; rewrite Forall_forall in F; apply F in I;
        apply str_eqb_neq in E2; destruct I as [[I|I] _]; lia || congruence. }
  destruct (existsb (fun x => blk <=? x) dims) eqn:EX2.
  { rewrite raising_fail. apply existsb_exists in EX2 as (n & I & N). split.
    - intros ->. apply (zb_size _ _ _ _ _ _ n I). right. lia.
    - intros [m I' D|F L|F L D|f x F L D Hf C]; try reflexivity; exfalso; rewrite Forall_forall in F; apply F in I; lia. }
  assert (F := proj2 (fine_dec blk name dims) (conj EX1 EX2)).
  rewrite raising_bind_iff, large_iff. split.
  - intros [[L ->]|(u & q & H1 & H)]; [apply zb_large; [exact F|now left]|]. apply bytes_check_ok in H1 as [C1 ->].
    apply raising_bind_iff in H as [H|(u' & q & H1 & H)].
    { apply large_iff in H as [L ->]. apply zb_large; [exact F|]. right. now rewrite item_opt. }
    apply bytes_check_ok in H1 as [C2 ->].
    assert (L : ~ too_large blk o dims) by (unfold too_large; rewrite item_opt; lia).
    destruct o as [f|]; [|apply raising_fail in H as ->; apply zb_type; auto].
    assert (DF : f = Fs \/ f <> Fs) by (destruct f; auto; right; discriminate). destruct DF as [->|Hf]; [apply raising_fail in H as ->; apply zb_type; auto|].
    assert (H' : raising (do v <- read_numerical_array buf dims f (product dims); ret (mk_darray name v t f dim dims)) p e).
    { destruct f; try exact H. congruence. }
    apply raising_bind_iff in H' as [H'|(v & q & _ & H')]; [|now apply raising_ret in H'].
    apply cells_raise in H'; auto; [|lia]. eapply zb_cells; eauto.
  - intros HZ. destruct HZ as [m I' D|_ L|_ L D|f x _ L D Hf C].
    + exfalso. rewrite Forall_forall in F. apply F in I'. destruct D as [[D1 D2]|D]; [|lia]. destruct I' as [[I'|I'] _]; [lia|congruence].
    + unfold too_large in L. rewrite item_opt in L.
      destruct (Z_lt_le_dec blk (product dims)) as [L1|L1]; [left; auto|]. right. exists tt, p.
      split; [now apply bytes_check_pass|]. apply raising_bind, large_iff. split; [lia|reflexivity].
    + right. unfold too_large in L. rewrite item_opt in L. exists tt, p. split; [apply bytes_check_pass; lia|].
      eapply raising_step; [apply bytes_check_pass; lia|]. destruct D as [->| ->]; now apply raising_fail.
    + right. unfold too_large in L. rewrite item_opt in L. exists tt, p. split; [apply bytes_check_pass; lia|].
      eapply raising_step; [apply bytes_check_pass; lia|]. subst o.
      assert (H' : raising (do v <- read_numerical_array buf dims f (product dims); ret (mk_darray name v t f dim dims)) p x)
        by (apply raising_bind, cells_raise; auto; lia).
      destruct f; try exact H'. congruence.
Qed.

Lemma array_raise blk p e : blk < 2 ^ 63 -> raising (read_array buf blk) p e <-> array_bad buf blk p e.
Proof.
  intros HK. unfold read_array. split.
  - intros H. apply raising_bind_iff in H as [H|(name & p1 & H1 & H)]; [apply ab_name; now apply s_iff|].
    apply text_iff in H1; auto. apply text_span in H1 as SP.
    apply raising_bind_iff in H as [H|(t & q & H2 & H)].
    { apply c_iff in H as [H ->]; [|lia]. eapply ab_code; [exact H1|]. now apply cb_end. }
    apply char_iff in H2 as [H2 ->]; auto. apply stands_span in H2 as SP2. change (zlen [t]) with 1 in SP2.
    apply raising_bind_iff in H as [H|(o & q & H3 & H)].
    { apply type_iff in H as [H ->]. eapply ab_code; [exact H1|]. eapply cb_unknown; eauto. }
    apply check_data_type_ok in H3 as [H3 ->]. apply type_code_iff in H3.
    apply raising_bind_iff in H as [H|(n & q & H4 & H)].
    { apply i_iff in H; [|lia]. eapply ab_rank_cut; eauto. }
    apply int_iff in H4 as (db & W & S & ->); auto. apply stands_span in S as SP3. apply wire_int_len in W as WL. change (Z.of_nat 4) with 4 in WL.
    apply raising_bind_iff in H as [H|(u & q & H5 & H)].
    { apply large_iff in H as [H ->]. eapply ab_rank_large; eauto. }
    apply bytes_check_ok in H5 as [C1 ->].
    apply raising_bind_iff in H as [H|(u' & q & H5 & H)].
    { apply sign_iff in H. eapply ab_rank_sign; eauto. }
    apply zn_check_ok in H5 as [C2 ->].
    apply raising_bind_iff in H as [H|(shp0 & q & H5 & H)].
    { apply sizes_raise in H as (l & Z1 & Z2 & Z3); [|lia]. replace (p1 + 1 + 4) with (p1 + 5) in * by lia.
      eapply ab_sizes_cut; eauto; [lia|unfold zlen; lia]. }
    apply sizes_iff in H5 as (Z1 & HLs & ->); auto. replace (p1 + 1 + 4) with (p1 + 5) in * by lia.
    cbv zeta in H. set (shp := if 1 <? n then rev shp0 else shp0) in *.
    assert (HR : rev shp = shp0).
    { unfold shp. destruct (1 <? n) eqn:E; [apply rev_involutive|].
      destruct shp0 as [|x [|? ?]]; auto. cbn [length] in HLs. lia. }
    assert (HLshp : zlen shp = n).
    { rewrite <- zlen_rev, HR. unfold zlen. lia. }
    clearbody shp. apply sizes_span in Z1 as SP4; [|lia]. rewrite <- HR, zlen_rev in SP4.
    replace (p1 + 5 + 4 * Z.of_nat (Z.to_nat n)) with (p1 + 5 + 4 * zlen shp) in H by lia.
    apply (after_iff blk name t n o shp) in H; [|lia|exact HK].
    rewrite <- HLshp in W. eapply ab_sizes; eauto; [lia|]. now rewrite HR.
  - intros H.
    assert (HH : forall name q t o (k : pystr -> Z -> option fmt -> rd darray), text_at buf p name q -> stands buf q [t] -> type_code t o ->
       raising (k name t o) (q + 1) e ->
       raising (do a <- read_data_s buf; do b <- read_data_c buf; do c <- check_data_type b; k a b c) p e).
    { intros name q t o k HT HS HC HR. eapply raising_step; [apply text_iff; eauto|].
      eapply raising_step; [apply char_iff; eauto|]. eapply raising_step; [|exact HR].
      unfold check_data_type. apply type_code_iff in HC. rewrite HC. reflexivity. }
    assert (HI : forall (k : Z -> rd darray) q n db, wire_int32 n db -> stands buf (q + 1) db -> raising (k n) (q + 5) e ->
       raising (do n <- read_data_i buf; k n) (q + 1) e).
    { intros k q n db W S HR. eapply raising_step; [apply int_iff; auto; exists db; split; [exact W|split; [exact S|reflexivity]]|].
      now replace (q + 1 + 4) with (q + 5) by lia. }
    destruct H as [e H|name q e HT HC|name q t o e HT HS HC HN|name q t o n db HT HS HC W S L|name q t o n db e HT HS HC W S L HG|
      name q t o n db sizes e HT HS HC W S L HZ HL HN|name q t o dims db e HT HS HC W S L HZ HF].
    + apply raising_bind. now apply s_iff.
    + eapply raising_step; [apply text_iff; eauto|]. apply text_span in HT. destruct HC as [HC|t HS HC].
      * apply raising_bind, c_iff; [lia|auto].
      * eapply raising_step; [apply char_iff; eauto|]. apply raising_bind, type_iff. auto.
    + eapply HH; eauto. cbv beta. apply text_span in HT. apply raising_bind, i_iff; [lia|auto].
    + eapply HH; eauto. cbv beta. eapply HI; eauto. apply raising_bind, large_iff. auto.
    + eapply HH; eauto. cbv beta. eapply HI; eauto. cbv beta. eapply raising_step; [apply bytes_check_pass; lia|].
      apply raising_bind, sign_iff. auto.
    + eapply HH; eauto. cbv beta. eapply HI; eauto. cbv beta. eapply raising_step; [apply bytes_check_pass; lia|].
      eapply raising_step; [apply zn_check_pass; lia|]. apply text_span in HT. apply raising_bind, sizes_raise; [lia|].
      exists sizes. split; [exact HZ|]. split; [unfold zlen in *; lia|exact HN].
    + eapply HH; eauto. cbv beta. eapply HI; eauto. cbv beta. eapply raising_step; [apply bytes_check_pass; lia|].
      eapply raising_step; [apply zn_check_pass; lia|]. apply text_span in HT.
      eapply raising_step; [apply sizes_iff; auto; split; [exact HZ|split; [rewrite rev_length; unfold zlen; lia|reflexivity]]|].
      cbv zeta.
      replace (if 1 <? zlen dims then rev (rev dims) else rev dims) with dims.
      2:{ destruct (1 <? zlen dims) eqn:E; [symmetry; apply rev_involutive|].
          destruct dims as [|x [|? ?]]; auto. unfold zlen in E; cbn [length] in E. lia. }
      apply stands_span in S. apply wire_int_len in W. change (Z.of_nat 4) with 4 in W. apply sizes_span in HZ; [|lia]. rewrite zlen_rev in HZ.
      replace (q + 5 + 4 * Z.of_nat (Z.to_nat (zlen dims))) with (q + 5 + 4 * zlen dims) by lia.
      apply (after_iff blk name t (zlen dims) o dims); [lia|exact HK|exact HF].
Qed.

Lemma arrays_raise_iff blk n : blk < 2 ^ 63 -> forall p e, raising (read_arrays buf blk n) p e <->
  exists aa q, arrays_at buf blk p aa q /\ (length aa < n)%nat /\ array_bad buf blk q e.
Proof.
  intros HK. induction n as [|n IH]; intros p e; cbn [read_arrays].
  - split; [intros H; now apply raising_ret in H|]. intros (aa & q & _ & L & _). lia.
  - rewrite raising_bind_iff. split.
    + intros [H|(a & q & H1 & H)].
      * exists [], p. split; [constructor|]. split; [cbn; lia|]. now apply array_raise.
      * apply array_iff in H1; auto. apply raising_bind_iff in H as [H|(y & r & H2 & H)]; [|now apply raising_ret in H].
        apply IH in H as (aa & r & H2 & H3 & H4). exists (a :: aa), r. split; [econstructor; eauto|]. split; [cbn [length]; lia|exact H4].
    + intros (aa & r & H1 & H2 & H3). destruct H1 as [p|p a q aa r H1 H4].
      * left. now apply array_raise.
      * right. exists a, q. split; [now apply array_iff|]. apply raising_bind, IH. exists aa, r. split; [exact H4|]. split; [cbn [length] in H2; lia|exact H3].
Qed.

Lemma rest_at c : 0 <= c <= zlen buf -> exists A B, buf = A ++ B /\ zlen A = c /\ rest buf c B.
Proof.
  intros H. exists (firstn (Z.to_nat c) buf), (skipn (Z.to_nat c) buf).
  assert (E : buf = firstn (Z.to_nat c) buf ++ skipn (Z.to_nat c) buf) by (symmetry; apply firstn_skipn).
  assert (F : zlen (firstn (Z.to_nat c) buf) = c) by (unfold zlen in *; rewrite firstn_length; lia).
  split; [exact E|]. split; [exact F|]. split.
  - exists (firstn (Z.to_nat c) buf), []. rewrite app_nil_r. auto.
  - unfold zlen in *. rewrite skipn_length. lia.
Qed.

Lemma scalars_raise_iff n c e : 0 <= c <= zlen buf -> raising (read_scalars buf n) c e <->
  exists A ss sb R, buf = A ++ sb ++ R /\ zlen A = c /\ wire_list wire_scalar ss sb /\ (length ss < n)%nat /\ scalar_fault R e.
Proof.
  intros HC. apply (raising_total (read_scalars buf n) c (fun e =>
    exists A ss sb R, buf = A ++ sb ++ R /\ zlen A = c /\ wire_list wire_scalar ss sb /\ (length ss < n)%nat /\ scalar_fault R e)).
  - intros x (A & ss & sb & R & E & Z & W & L & F). eapply scalars_raise; eauto. split.
    + exists A, []. rewrite app_nil_r. auto.
    + rewrite E, !zlen_app. lia.
  - destruct (rest_at c HC) as (A & B & E & Z & R). assert (HB' : Forall is_byte B) by (rewrite E in HB; now apply Forall_app in HB).
    destruct (scalars_total n B HB') as [(ss & sb & R' & -> & W & <-)|(ss & sb & R' & x & -> & W & L & F)].
    + left. exists ss, (c + zlen sb). eapply read_scalars_occ; eauto. apply rest_app in R. tauto.
    + right. exists x, A, ss, sb, R'. auto.
Qed.

Lemma head_span p sz ns na : head_at buf p sz ns na -> 0 <= p + 4 /\ p + 16 <= zlen buf.
Proof.
  intros (szb & nsb & nab & O & W1 & W2 & W3 & _). apply occurs_bounds in O. apply wire_int_len in W1, W2, W3.
  rewrite !zlen_app, W1, W2, W3 in O. lia.
Qed.

Lemma head_run sz ns na p e (k : Z -> Z -> Z -> rd (list dscalar * list darray)) : head_at buf p sz ns na ->
  raising (k sz ns na) (p + 16) e ->
  raising (do size <- read_data_i buf; do c <- get_cursor; let remaining_bytes := zlen buf - c + 2 * 4 in
    do_ bytes_check size remaining_bytes; do_ zero_negative_check size;
    do n1 <- read_data_i buf; do n2 <- read_data_i buf; do_ zero_negative_check n1; do_ zero_negative_check n2;
    do_ bytes_check (n1 + n2) size; k size n1 n2) (p + 4) e.
Proof.
  intros (szb & nsb & nab & O & W1 & W2 & W3 & SZ & N1 & N2 & N3) H.
  apply occurs_app in O as [O1 O]. apply occurs_app in O as [O2 O3].
  pose proof (wire_int_len _ _ _ _ W1) as L1. pose proof (wire_int_len _ _ _ _ W2) as L2. change (Z.of_nat 4) with 4 in *.
  rewrite L1 in *. rewrite L2 in *.
  eapply raising_step; [eapply read_i_occ; eauto|]. eapply raising_step; [reflexivity|]. cbv zeta.
  eapply raising_step; [apply bytes_check_pass; lia|]. eapply raising_step; [apply zn_check_pass; lia|].
  eapply raising_step; [eapply read_i_occ; eauto|]. eapply raising_step; [eapply read_i_occ; eauto|].
  eapply raising_step; [apply zn_check_pass; lia|]. eapply raising_step; [apply zn_check_pass; lia|].
  eapply raising_step; [apply bytes_check_pass; lia|]. now replace (p + 4 + 4 + 4 + 4) with (p + 16) by lia.
Qed.

Lemma block_raise p e : 0 <= p < zlen buf -> raising (read_record_fields buf) p e <-> block_bad buf p e.
Proof.
  intros HP. unfold ssize_max in HM. unfold read_record_fields. split.
  - intros H.
    apply raising_bind_iff in H as [[? H]|(? & ? & H1 & H)]; [discriminate H|injection H1 as <- <-].
    apply raising_bind_iff in H as [[? H]|(? & ? & H1 & H)]; [discriminate H|injection H1 as <- <-].
    apply raising_bind_iff in H as [H|(sz & ? & H1 & H)].
    { apply i_iff in H; [|lia]. destruct H as [H|H1 H2]; [apply bb_cut|]; lia. }
    apply read_i_ok in H1 as (szb & O1 & W1 & ->); auto; [|lia]. pose proof (wire_int_len _ _ _ _ W1) as L1. change (Z.of_nat 4) with 4 in L1.
    pose proof (occurs_bounds _ _ _ O1) as B1.
    apply raising_bind_iff in H as [[? H]|(? & ? & H1 & H)]; [discriminate H|injection H1 as <- <-].
    cbv zeta in H. unfold end_bytes in H.
    apply raising_bind_iff in H as [H|(u & ? & H1 & H)].
    { apply large_iff in H as [H ->]. eapply bb_size; eauto. constructor. lia. }
    apply bytes_check_ok in H1 as [C1 ->].
    apply raising_bind_iff in H as [H|(u' & ? & H1 & H)].
    { apply sign_iff in H. eapply bb_size; eauto. now apply bz_sign. }
    apply zn_check_ok in H1 as [C2 ->].
    apply raising_bind_iff in H as [H|(ns & ? & H1 & H)].
    { apply i_iff in H; [|lia]. destruct H as [H|H1 H2]; [eapply bb_counts_cut; eauto|]; lia. }
    apply read_i_ok in H1 as (nsb & O2 & W2 & ->); auto; [|lia]. pose proof (wire_int_len _ _ _ _ W2) as L2. change (Z.of_nat 4) with 4 in L2.
    pose proof (occurs_bounds _ _ _ O2) as B2.
    apply raising_bind_iff in H as [H|(na & ? & H1 & H)].
    { apply i_iff in H; [|lia]. destruct H as [H|H1 H2]; [eapply bb_counts_cut; eauto|]; lia. }
    apply read_i_ok in H1 as (nab & O3 & W3 & ->); auto; [|lia]. pose proof (wire_int_len _ _ _ _ W3) as L3. change (Z.of_nat 4) with 4 in L3.
    pose proof (occurs_bounds _ _ _ O3) as B3.
    assert (O : occurs buf (p + 4) (szb ++ nsb ++ nab)) by (rewrite !occurs_app, L1, L2; auto).
    assert (SZ : 0 < sz <= zlen buf - p) by lia.
    apply raising_bind_iff in H as [H|(u'' & ? & H1 & H)].
    { apply sign_iff in H. eapply bb_counts; eauto. now constructor. }
    apply zn_check_ok in H1 as [C3 ->].
    apply raising_bind_iff in H as [H|(u3 & ? & H1 & H)].
    { apply sign_iff in H. eapply bb_counts; eauto. now apply bc_arrays. }
    apply zn_check_ok in H1 as [C4 ->].
    apply raising_bind_iff in H as [H|(u4 & ? & H1 & H)].
    { apply large_iff in H as [H ->]. eapply bb_counts; eauto. now apply bc_sum. }
    apply bytes_check_ok in H1 as [C5 ->].
    assert (HD : head_at buf p sz ns na) by (exists szb, nsb, nab; do 4 (split; [assumption|]); lia).
    replace (p + 4 + 4 + 4 + 4) with (p + 16) in H by lia.
    apply raising_bind_iff in H as [H|(ss & ? & H1 & H)].
    { apply scalars_raise_iff in H as (A & ss & sb & R & E & Z & W & L & F); [|lia]. eapply bb_scalar; eauto. unfold zlen. lia. }
    apply read_scalars_ok in H1 as (HLs & sb & O4 & W4 & ->); auto; [|lia].
    apply raising_bind_iff in H as [H|(aa & q & H1 & H)].
    { apply arrays_raise_iff in H as (aa & q & HA & HL & HE); [|lia]. eapply bb_array; eauto; unfold zlen; lia. }
    apply arrays_iff in H1 as (HA & HLa); auto.
    apply raising_bind_iff in H as [[? H]|(? & ? & H1 & H)]; [discriminate H|injection H1 as <- <-].
    destruct (negb (q - p =? sz)) eqn:ESZ; [|now apply raising_ret in H]. apply raising_fail in H as ->.
    eapply bb_length; eauto; unfold zlen; lia.
  - intros H. eapply raising_step; [reflexivity|]. eapply raising_step; [reflexivity|].
    destruct H as [H|sz szb e O W F|sz szb O W SZ L|sz szb ns nsb na nab e O W1 W2 W3 SZ F|
      sz ns na A ss sb R e HD E Z W L F|sz ns na ss sb aa q e HD O W L HA LA HE|sz ns na ss sb aa q HD O W L HA LA HE].
    + apply raising_bind, i_iff; [lia|]. apply nb_cut. lia.
    + eapply raising_step; [eapply read_i_occ; eauto|]. eapply raising_step; [reflexivity|]. cbv zeta. unfold end_bytes.
      apply wire_int_len in W. apply occurs_bounds in O. change (Z.of_nat 4) with 4 in W.
      destruct F as [F|x F]; [apply raising_bind, large_iff; split; [lia|reflexivity]|].
      eapply raising_step; [apply bytes_check_pass; destruct F; lia|]. apply raising_bind, sign_iff. exact F.
    + eapply raising_step; [eapply read_i_occ; eauto|]. eapply raising_step; [reflexivity|]. cbv zeta. unfold end_bytes.
      pose proof (wire_int_len _ _ _ _ W) as L1. pose proof (occurs_bounds _ _ _ O) as B1. change (Z.of_nat 4) with 4 in L1.
      eapply raising_step; [apply bytes_check_pass; lia|]. eapply raising_step; [apply zn_check_pass; lia|].
      destruct (Z_lt_le_dec (zlen buf) (p + 12)) as [C|C]; [apply raising_bind, i_iff; [lia|apply nb_cut; lia]|].
      destruct (occurs_slice buf (p + 8) 4) as [HO HL]; try lia.
      eapply raising_step.
      { replace (p + 4 + 4) with (p + 8) by lia. eapply read_i_occ; [exact HM|exact HO|].
        apply wire_int_iff; [lia|]. split; [apply Nat2Z.inj; exact HL|]. split; [eapply occurs_Forall; eauto|reflexivity]. }
      apply raising_bind, i_iff; [lia|apply nb_cut; lia].
    + apply occurs_app in O as [O1 O]. apply occurs_app in O as [O2 O3].
      pose proof (wire_int_len _ _ _ _ W1) as L1. pose proof (wire_int_len _ _ _ _ W2) as L2. change (Z.of_nat 4) with 4 in *.
      rewrite L1 in *. rewrite L2 in *.
      eapply raising_step; [eapply read_i_occ; eauto|]. eapply raising_step; [reflexivity|]. cbv zeta. unfold end_bytes.
      eapply raising_step; [apply bytes_check_pass; lia|]. eapply raising_step; [apply zn_check_pass; lia|].
      eapply raising_step; [eapply read_i_occ; eauto|]. eapply raising_step; [eapply read_i_occ; eauto|].
      destruct F as [x F|x F1 F|F1 F2 F].
      * apply raising_bind, sign_iff. exact F.
      * eapply raising_step; [apply zn_check_pass; lia|]. apply raising_bind, sign_iff. exact F.
      * eapply raising_step; [apply zn_check_pass; lia|]. eapply raising_step; [apply zn_check_pass; lia|].
        apply raising_bind, large_iff. split; [lia|reflexivity].
    + apply (head_run sz ns na); auto. apply raising_bind, scalars_raise_iff; [apply head_span in HD; lia|].
      exists A, ss, sb, R. splits; auto. unfold zlen in L. lia.
    + apply (head_run sz ns na); auto. eapply raising_step.
      { replace (Z.to_nat ns) with (length ss) by (unfold zlen in L; lia). eapply read_scalars_occ; eauto. }
      destruct HD as (szb & nsb & nab & HD). apply raising_bind, arrays_raise_iff; [lia|]. exists aa, q. splits; auto. unfold zlen in LA. lia.
    + apply (head_run sz ns na); auto. eapply raising_step.
      { replace (Z.to_nat ns) with (length ss) by (unfold zlen in L; lia). eapply read_scalars_occ; eauto. }
      eapply raising_step; [apply arrays_iff; auto; split; [exact HA|unfold zlen in LA; lia]|].
      eapply raising_step; [reflexivity|]. replace (q - p =? sz) with false by lia. cbn [negb]. now apply raising_fail.
Qed.

Lemma blocks_raise fuel : forall p e, 0 <= p -> zlen buf - p < Z.of_nat fuel -> raising (read_blocks buf fuel) p e <->
  exists bl q, chain_at buf p bl q /\ q < zlen buf /\ block_bad buf q e.
Proof.
  induction fuel as [|fuel IH]; intros p e HP HF.
  - split.
    + intros [c H]. cbn [read_blocks] in H. unfold bind, get_cursor, end_bytes in H. replace (p <? zlen buf) with false in H by lia. discriminate H.
    + intros (bl & q & H & Q & _). exfalso. assert (p <= q); [|lia]. clear - H HB HM.
      induction H as [|p sz b bl q H1 H IH]; [lia|]. apply block_span in H1. lia.
  - cbn [read_blocks]. rewrite raising_bind_iff. unfold end_bytes. split.
    + intros [[? H]|(x & c & H1 & H)]; [discriminate H|]. injection H1 as <- <-.
      destruct (p <? zlen buf) eqn:EC; [|now apply raising_ret in H].
      apply raising_bind_iff in H as [H|(b & c & H1 & H)].
      * apply block_raise in H; [|lia]. exists [], p. split; [constructor|]. split; [lia|exact H].
      * apply block_iff in H1 as (sz & H1 & ->); auto. apply block_span in H1 as SP.
        apply raising_bind_iff in H as [H|(y & c & H2 & H)]; [|now apply raising_ret in H].
        apply IH in H as (bl & q & H2 & H3 & H4); [|lia|lia]. exists (b :: bl), q. split; [econstructor; eauto|auto].
    + intros (bl & q & H1 & H2 & H3). right. exists p, p. split; [reflexivity|].
      destruct H1 as [p|p sz b bl q H1 H4].
      * replace (p <? zlen buf) with true by lia. apply raising_bind, block_raise; [lia|exact H3].
      * apply block_span in H1 as SP. replace (p <? zlen buf) with true by lia.
        eapply raising_step; [apply block_iff; [exact HB|exact HM|lia|eauto]|]. apply raising_bind, IH; [lia|lia|eauto].
Qed.

Lemma fields_raise e : dmap_read_fields buf = Raise e <-> file_bad buf e.
Proof.
  unfold dmap_read_fields. pose proof (zlen_nonneg buf). destruct (zlen buf =? 0) eqn:E0.
  - assert (E : buf = []) by (apply zlen_0; lia). split.
    + intros H1. injection H1 as <-. now apply fb_empty.
    + intros [_|bl q x C Q F]; [reflexivity|]. exfalso. 
      assert (0 <= q); [|lia]. clear - C HB HM. remember 0 as p eqn:P. assert (0 <= p) by lia. clear P.
      induction C as [|p sz b bl q H1 C IH]; [lia|]. apply block_span in H1. lia.
  - pose proof (blocks_raise (S (length buf)) 0 e ltac:(lia) ltac:(unfold zlen; lia)) as HR.
    assert (HF : file_bad buf e <-> exists bl q, chain_at buf 0 bl q /\ q < zlen buf /\ block_bad buf q e).
    { split; [intros [->|bl q x C Q F]; [exfalso; change (zlen (@nil Z)) with 0 in E0; lia|eauto]|].
      intros (bl & q & C & Q & F). eapply fb_block; eauto. }
    rewrite HF, <- HR. clear HF HR. unfold raising.
    destruct (read_blocks buf (S (length buf)) 0) as [[bl|x] c] eqn:EB.
    + apply blocks_ok in EB as [_ ->]; auto; [|lia]. unfold end_bytes. rewrite Z.ltb_irrefl.
      split; [discriminate|]. intros [c H1]. discriminate H1.
    + split; [intros H1; injection H1 as ->; eauto|intros [c' H1]; now injection H1 as ->].
Qed.
End Bad.

Lemma read_bad buf e : is_bytearray buf -> dmap_read buf = Raise e <-> file_bad buf e.
Proof.
  intros [HB HM]. rewrite dmap_read_trace, <- (fields_raise buf HB HM e).
  destruct (dmap_read_fields buf); split; intros H; try discriminate H; congruence.
Qed.

(** When there are no elements. *)
Lemma none_iff buf f p dims : Forall is_byte buf -> f <> Fs ->  - 2 ^ 63 <= product dims ->
  (zlen dims <= 32 -> forall shape data q, ~ cells_at buf f p dims shape data q) <->
  32 < zlen dims \/ p < 0 \/ zlen buf < p \/
  (Forall (fun n => 0 <= n) dims /\ zlen buf < p + product dims * Z.of_nat (wire_size f)) \/
  (exists n, In n dims /\ n < 0 /\ In 0 dims) \/
  (exists a n b m c, dims = a ++ n :: b ++ m :: c /\ n < 0 /\ m < 0) \/
  (exists before n after, dims = before ++ n :: after /\ n < 0 /\ Forall (fun k => 1 <= k) (before ++ after) /\
     ~ (product (before ++ after) * Z.of_nat (wire_size f) | zlen buf - p)).
Proof.
  intros HB Hf HPB. pose proof (fmt_size_pos f) as FS. rewrite <- wire_size_eq in FS. set (w := wire_size f) in *. split.
  - intros H. destruct (Z_lt_le_dec 32 (zlen dims)) as [H32|H32]; [now left|right]. specialize (H H32).
    destruct (Z_lt_le_dec p 0) as [P|P]; [now left|right]. destruct (Z_lt_le_dec (zlen buf) p) as [P2|P2]; [now left|right].
    destruct (rest_at buf p (conj P P2)) as (A & B & E & ZA & _).
    assert (HBB : Forall is_byte B) by (rewrite E in HB; now apply Forall_app in HB).
    assert (ZB : zlen buf = p + zlen B) by (rewrite E, zlen_app; lia).
    assert (D : Forall (fun n => 0 <= n) dims \/ exists b n a, dims = b ++ n :: a /\ n < 0).
    { clear. induction dims as [|x l IH]; [left; constructor|]. destruct (Z_lt_le_dec x 0); [right; exists [], x, l; auto|].
      destruct IH as [IH|(b & n & a & -> & N)]; [left; now constructor|right; exists (x :: b), n, a; auto]. }
    destruct D as [D|(b & n & a & -> & N)].
    + left. split; [exact D|]. destruct (Z_lt_le_dec (zlen buf) (p + product dims * Z.of_nat w)) as [C|C]; [exact C|exfalso].
      pose proof (product_nonneg _ D) as PN.
      destruct (elems_total (wire_signed f) w (Z.to_nat (product dims)) FS B HBB ltac:(lia)) as (data & eb & R & EB & W & L).
      apply (H dims data (p + product dims * Z.of_nat w)). apply (ca_plain _ _ _ _ data eb); auto; [|unfold zlen; lia].
      rewrite E, EB, <- ZA. apply occurs_tail.
    + right. destruct (in_dec Z.eq_dec 0 (b ++ n :: a)) as [I|I].
      { left. exists n. split; [apply in_or_app; right; now left|auto]. } right.
      assert (D2 : Forall (fun k => 1 <= k) (b ++ a) \/ exists a' n' b' m c, b ++ n :: a = a' ++ n' :: b' ++ m :: c /\ n' < 0 /\ m < 0).
      { assert (I' : ~ In 0 (b ++ a)) by (intros J; apply I; apply in_app_or in J as [J|J]; apply in_or_app; [left|right; right]; exact J).
        assert (D : forall l, ~ In 0 l -> Forall (fun k => 1 <= k) l \/ exists x m y, l = x ++ m :: y /\ m < 0).
        { clear. induction l as [|x l IH]; intros I; [left; constructor|]. destruct (Z_lt_le_dec x 0); [right; exists [], x, l; auto|].
          destruct IH as [IH|(b & n & a & -> & N)]; [intros J; apply I; now right| |right; exists (x :: b), n, a; auto].
          left. constructor; [|exact IH]. assert (x <> 0) by (intros ->; apply I; now left). lia. }
        destruct (D b) as [D1|(x & m & y & -> & M)]; [intros J; apply I'; apply in_or_app; now left| |].
        - destruct (D a) as [D2|(x & m & y & -> & M)]; [intros J; apply I'; apply in_or_app; now right| |].
          + left. apply Forall_app. auto.
          + right. exists b, n, x, m, y. auto.
        - right. exists x, m, y, n, a. rewrite <- app_assoc. auto. }
      destruct D2 as [D2|D2]; [right|left; exact D2]. exists b, n, a. split; [reflexivity|]. split; [exact N|]. split; [exact D2|].
      intros [k K]. pose proof (product_ge1 _ D2) as G1. rewrite ZB in K. replace (p + zlen B - p) with (zlen B) in K by lia.
      pose proof (zlen_nonneg B).
      assert (K0 : 0 <= k) by nia.
      destruct (elems_total (wire_signed f) w (Z.to_nat (k * product (b ++ a))) FS B HBB) as (data & eb & R & EB & W & L); [nia|].
      assert (R = []) as ->.
      { apply elems_length in W. fold w in W. apply (f_equal zlen) in EB. rewrite zlen_app in EB. apply zlen_0.
        pose proof (zlen_nonneg R). unfold zlen in W at 2. rewrite L in W. nia. }
      rewrite app_nil_r in EB. subst eb.
      apply (H (b ++ k :: a) data (p + product (b ++ n :: a) * Z.of_nat w)).
      apply (ca_rest _ _ _ _ b n k a data A B); auto. unfold zlen. rewrite L, !product_app, product_cons in *. nia.
  - intros H H32 shape data q HC. destruct HC as [data eb HN W O HZ|b n m a data front r HD N G PB W E ZF HL].
    + apply elems_length in W. pose proof (occurs_bounds _ _ _ O) as BD. pose proof (zlen_nonneg eb). fold w in W.
      destruct H as [H|[H|[H|[[_ H]|[(k & I & K & _)|[(x & k & y & l & z & -> & K & L)|(x & k & y & -> & K & _)]]]]]]; try lia.
      * rewrite Forall_forall in HN. apply HN in I. lia.
      * apply Forall_app in HN as [_ HN]. inversion HN. lia.
      * apply Forall_app in HN as [_ HN]. inversion HN. lia.
    + assert (ZB : zlen buf = p + zlen r) by (rewrite E, zlen_app; lia). pose proof (zlen_nonneg r). pose proof (zlen_nonneg front).
      assert (HX : forall x k y, dims = x ++ k :: y -> k < 0 -> x = b /\ y = a).
      { intros x k y EX K. rewrite HD in EX. apply Forall_app in G as [G1 G2]. clear - G1 G2 N K EX. revert x EX.
        induction G1 as [|z b Z G1 IH]; intros x EX.
        - destruct x as [|z x]; cbn [app] in EX; [now injection EX|]. injection EX as -> EX. subst a.
          apply Forall_app in G2 as [_ G2]. inversion G2. lia.
        - destruct x as [|z' x]; cbn [app] in EX; injection EX as -> EX; [lia|]. destruct (IH x EX) as [-> ->]. auto. }
      destruct H as [H|[H|[H|[[H _]|[(k & I & K & J)|[(x & k & y & l & z & EX & K & L)|(x & k & y & EX & K & _ & ND)]]]]]]; try lia.
      * rewrite Forall_forall in H. assert (0 <= n); [|lia]. apply H. rewrite HD. apply in_or_app. right. now left.
      * rewrite HD in J. rewrite Forall_forall in G. assert (1 <= 0); [|lia]. apply in_app_or in J as [J|[J|J]]; [|lia|];
          apply G; apply in_or_app; auto.
      * destruct (HX _ _ _ EX K) as [_ HY]. subst a. apply Forall_app in G as [_ G]. apply Forall_app in G as [_ G]. inversion G. lia.
      * destruct (HX _ _ _ EX K) as [-> ->]. apply ND. apply elems_length in W. fold w in W. exists m.
        rewrite ZB, W, HL, !product_app, product_cons. lia.
Qed.
