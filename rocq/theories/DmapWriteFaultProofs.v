(** Proofs about the failures of the DMAP writer (DmapWriteFaultSpec). *)
From Coq Require Import ZArith List Bool Lia.
From Verif Require Import Base Bytes BytesSpec BytesProofs Utf8 Utf8Proofs FloatBits DmapTypes DmapSpec DmapWriteSpec
  DmapWrite DmapConvProofs DmapFileProofs DmapWriterProofs DmapWriteProofs DmapWriteFacts DmapObjectProofs
  Conversions DmapReadProofs FloatInt FloatIntProofs NumeralSpec NumeralProofs DmapWriteFaultSpec.
Import ListNotations.
Open Scope Z_scope.

(** ** Sequences of steps *)

(** [r] fails exactly as [P] says. *)
Definition fails {A} (r : res A) (P : fault) : Prop := forall e, r = Raise e <-> P e.

Lemma fails_ok {A} (a : A) (P : fault) : (forall e, ~ P e) -> fails (Ok a) P.
Proof. intros H e. split; [discriminate|]. intros HP. now apply H in HP. Qed.

Lemma fails_raise {A} e0 (P : fault) : (forall e, P e <-> e = e0) -> fails (@Raise A e0) P.
Proof.
  intros H e. rewrite H. split; intros E; [|now subst]. injection E as E. now symmetry.
Qed.

Lemma fails_done {A} (r : res A) P a : fails r P -> r = Ok a -> forall e, ~ P e.
Proof. intros F -> e HP. apply F in HP. discriminate. Qed.

Lemma fails_nil {A} (a : A) : fails (Ok a) (first_fault []).
Proof. apply fails_ok. intros e H. inversion H. Qed.

Lemma fails_bind {A B} (r : res A) (k : A -> res B) P l :
  fails r P -> (forall a, r = Ok a -> fails (k a) (first_fault l)) -> fails (rbind r k) (first_fault (P :: l)).
Proof.
  intros F K e. destruct r as [a|e0]; cbn [rbind].
  - rewrite (K a eq_refl e). split; intros H.
    + apply ff_later; [exact (fails_done _ _ _ F eq_refl)|exact H].
    + inversion H; subst; auto. exfalso. eapply (fails_done _ _ _ F eq_refl); eauto.
  - split; intros H.
    + apply ff_here. apply F. injection H as ->. reflexivity.
    + inversion H as [P0 l0 e1 HP|P0 l0 e1 HN HL]; subst.
      * apply F in HP. injection HP as ->. reflexivity.
      * exfalso. apply (HN e0). apply F. reflexivity.
Qed.

Lemma fails_last {A B} (r : res A) (k : A -> B) P :
  fails r P -> fails (rlet a := r in Ok (k a)) (first_fault [P]).
Proof. intros F. apply fails_bind; auto. intros a _. apply fails_nil. Qed.

(** One more step at the end. *)
Lemma fault_snoc l P e : first_fault (l ++ [P]) e <->
  first_fault l e \/ ((forall x, ~ first_fault l x) /\ P e).
Proof.
  induction l as [|Q l IH]; cbn [app].
  - split; intros H.
    + inversion H as [P0 l0 e0 HP|P0 l0 e0 HN HL]; subst; [|inversion HL].
      right. split; auto. intros x C. inversion C.
    + destruct H as [C|[_ H]]; [inversion C|]. now apply ff_here.
  - split; intros H.
    + inversion H as [P0 l0 e0 HP|P0 l0 e0 HN HL]; subst; [left; now apply ff_here|].
      apply IH in HL as [HL|[HL HP]]; [left; now apply ff_later|]. right. split; auto.
      intros x C. inversion C as [P0 l0 e0 CP|P0 l0 e0 CN CL]; subst; [now apply HN in CP|now apply HL in CL].
    + destruct H as [H|[H HP]].
      * inversion H as [P0 l0 e0 HP|P0 l0 e0 HN HL]; subst; [now apply ff_here|].
        apply ff_later; auto. apply IH. auto.
      * apply ff_later; [intros x C; apply (H x); now apply ff_here|]. apply IH.
        right. split; auto. intros x C. apply (H x). apply ff_later; auto.
        intros y CY. apply (H y). now apply ff_here.
Qed.

(** ** Texts and codes *)

Lemma enc1_surrogate c : 0 <= c <= 1114111 -> (utf8_enc1 c = None <-> surrogate c).
Proof.
  intros H. unfold surrogate, utf8_enc1.
  replace (c <? 0) with false by lia.
  destruct (c <? 128) eqn:E1; [split; [discriminate|lia]|].
  destruct (c <? 2048) eqn:E2; [split; [discriminate|lia]|].
  destruct (c <? 65536) eqn:E3.
  - destruct ((55296 <=? c) && (c <? 57344)) eqn:E4; [split; auto; lia|split; [discriminate|lia]].
  - replace (c <? 1114112) with true by lia. split; [discriminate|lia].
Qed.

Lemma enc_surrogate s : text s -> (utf8_enc s = None <-> Exists surrogate s).
Proof.
  induction 1 as [|c s H HS IH]; cbn [utf8_enc].
  - split; [discriminate|inversion 1].
  - rewrite Exists_cons, <- IH, <- (enc1_surrogate c H).
    destruct (utf8_enc1 c); [|tauto]. destruct (utf8_enc s); [|tauto].
    split; [discriminate|intros [|]; discriminate].
Qed.

Lemma pack_text_fails s : text s -> fails (pack_text s) (text_fault s).
Proof.
  intros H. assert (H1 : text (s ++ [0])).
  { apply Forall_app. split; auto. constructor; [lia|constructor]. }
  pose proof (enc_surrogate _ H1) as E. unfold pack_text, text_fault.
  assert (X : Exists surrogate (s ++ [0]) <-> Exists surrogate s).
  { rewrite Exists_app. split; auto. intros [|C]; auto. inversion C as [x l S|x l S]; subst;
      [unfold surrogate in S; lia|inversion S]. }
  rewrite X in E. destruct (utf8_enc (s ++ [0])).
  - apply fails_ok. intros e [_ C]. apply E in C. discriminate.
  - apply fails_raise. intros e. split; [tauto|]. intros ->. split; auto. now apply E.
Qed.

Lemma chr_fails z : fails (chr_encode z) (code_fault z).
Proof.
  destruct (chr_encode_cases z) as (C1 & C2 & C3 & C4 & C5 & C6).
  assert (D : 0 <= z < 128 \/ (128 <= z <= 1114111 /\ (z < 55296 \/ 57344 <= z)) \/ 55296 <= z < 57344
     \/ 1114112 <= z < 2 ^ 31 \/ - 2 ^ 31 <= z < 0 \/ (z < - 2 ^ 31 \/ 2 ^ 31 <= z)) by lia.
  destruct D as [D|[[D D1]|[D|[D|[D|D]]]]].
  - rewrite (C1 D). apply fails_ok. intros e H. destruct H; unfold surrogate in *; lia.
  - destruct (C2 D D1) as (bs & -> & _). apply fails_ok. intros e H. destruct H; unfold surrogate in *; lia.
  - rewrite (C3 D). apply fails_raise. intros e. split; [|intros ->; now constructor].
    intros H. destruct H; auto; unfold surrogate in *; lia.
  - rewrite (C4 D). apply fails_raise. intros e. split; [|intros ->; constructor; lia].
    intros H. destruct H; auto; unfold surrogate in *; lia.
  - rewrite (C5 D). apply fails_raise. intros e. split; [|intros ->; constructor; lia].
    intros H. destruct H; auto; unfold surrogate in *; lia.
  - rewrite (C6 D). apply fails_raise. intros e. split; [|intros ->; constructor; lia].
    intros H. destruct H; auto; unfold surrogate in *; lia.
Qed.

Lemma chr_length z bs : chr_encode z = Ok bs -> zlen bs = char_length z /\ 0 <= z <= 1114111 /\ ~ surrogate z.
Proof.
  intros H. pose proof (fails_done _ _ _ (chr_fails z) H) as F.
  assert (R : 0 <= z <= 1114111 /\ ~ surrogate z).
  { split; [|intros C; apply (F UnicodeEncodeError); now constructor].
    destruct (Z_lt_dec z (- 2 ^ 31)); [exfalso; apply (F OverflowError); constructor; lia|].
    destruct (Z_le_dec (2 ^ 31) z); [exfalso; apply (F OverflowError); constructor; lia|].
    destruct (Z_lt_dec z 0); [exfalso; apply (F ValueError); constructor; lia|].
    destruct (Z_lt_dec 1114111 z); [exfalso; apply (F ValueError); constructor; lia|]. lia. }
  split; auto. destruct R as [R _]. unfold chr_encode in H.
  replace ((z <? - 2 ^ 31) || (2 ^ 31 <=? z)) with false in H by lia.
  replace ((z <? 0) || (1114111 <? z)) with false in H by lia.
  revert H. unfold utf8_enc1, char_length. replace (z <? 0) with false by lia.
  destruct (z <? 128); [intros [= <-]; reflexivity|]. destruct (z <? 2048); [intros [= <-]; reflexivity|].
  destruct (z <? 65536).
  - destruct (_ && _); [discriminate|]. intros [= <-]. reflexivity.
  - destruct (z <? 1114112); [|discriminate]. intros [= <-]. reflexivity.
Qed.

Lemma pack_type_fails z : fails (pack_type z) (type_fault z).
Proof.
  unfold pack_type. pose proof (chr_fails z) as F. destruct (chr_encode z) as [bs|e0] eqn:E; cbn [rbind].
  - destruct (chr_length z bs E) as (HL & R & S). pose proof (fails_done _ _ _ F eq_refl) as N.
    destruct (Z_lt_dec z 128) as [L|L].
    + unfold char_length in HL. replace (z <? 128) with true in HL by lia.
      destruct bs as [|b [|b2 l]]; try (unfold zlen in HL; cbn [length] in HL; lia).
      apply fails_ok. intros e H. destruct H as [e H|H]; [now apply N in H|lia].
    + assert (HL2 : 2 <= zlen bs).
      { rewrite HL. unfold char_length. replace (z <? 128) with false by lia.
        destruct (z <? 2048); [lia|]. destruct (z <? 65536); lia. }
      assert (G : fails (@Raise bytes StructError) (type_fault z)).
      { apply fails_raise. intros e. split; [|intros ->; apply tf_wide; auto; lia].
        intros H. destruct H as [e H|H]; auto. now apply N in H. }
      destruct bs as [|b [|b2 l]]; try exact G. unfold zlen in HL2; cbn [length] in HL2. lia.
  - apply fails_raise. intros e. split.
    + intros H. destruct H as [e H|H HS].
      * apply F in H. injection H as ->. reflexivity.
      * exfalso. assert (C : code_fault z e0) by (now apply F). destruct C; unfold surrogate in *; lia.
    + intros ->. apply tf_code. now apply F.
Qed.

(** ** Scalars *)

Lemma int_fails s n z : (0 < n)%nat ->
  fails (pack_int s n z) (fun e => e = StructError /\ ~ fits s n z).
Proof.
  intros H. destruct (pack_int_cases s n z H) as [C1 C2].
  assert (D : fits s n z \/ ~ fits s n z) by (unfold fits; destruct s; lia).
  destruct D as [D|D].
  - rewrite (pack_int_ok s n z) by (now apply fits_iff). apply fails_ok. tauto.
  - rewrite (C2 D). apply fails_raise. tauto.
Qed.

Lemma fmt_tables f : fmt_signed f = wire_signed f /\ fmt_size f = wire_size f.
Proof. destruct f; split; reflexivity. Qed.

Ltac vf_inv H := inversion H; subst; clear H;
  repeat match goal with
  | X : integer_format _ |- _ => cbn in X; decompose [or] X; clear X
  | X : float_or_list _ |- _ => cbn in X
  | X : int_of _ = Some _ |- _ => cbn in X
  end; try contradiction; try discriminate; try congruence; auto.

Lemma decimal_fails z : Z.abs z < 10 ^ 4300 -> exists bs, pack_decimal z = Ok bs.
Proof.
  intros H. unfold pack_decimal.
  assert (L : zlen (decimal (Z.abs z)) <= 4300).
  { change (zlen (decimal (Z.abs z)) <= Z.of_nat 4300). unfold zlen. apply Nat2Z.inj_le.
    apply (natural_length (Z.abs z)); [apply decimal_natural; lia|lia|exact H]. }
  replace (4300 <? zlen (decimal (Z.abs z))) with false by lia.
  pose proof (numeral_chars z _ (decimal_numeral z)) as C.
  assert (T : text (decimal z)) by (eapply Forall_impl; [|exact C]; cbn; intros; lia).
  pose proof (pack_text_fails _ T) as F. destruct (pack_text (decimal z)) as [bs|e]; [eauto|exfalso].
  destruct (proj1 (F e) eq_refl) as [_ X]. apply Exists_exists in X as (c & I & S).
  rewrite Forall_forall in C. specialize (C c I). unfold surrogate in S. lia.
Qed.

Lemma double_fails {A} (g : Z -> A) e0 z :
  fails (match double_of_int z with Some b => Ok (g b) | None => Raise e0 end) (fun e => e = e0 /\ no_double z).
Proof.
  pose proof (double_huge z) as H. unfold no_double. destruct (double_of_int z) as [b|].
  - apply fails_ok. intros e [_ C]. now apply H in C.
  - apply fails_raise. intros e. split; [intros [-> _]; reflexivity|]. intros ->. split; [reflexivity|]. now apply H.
Qed.

Lemma value_fails f v : value_known f v -> fails (scalar_data_bytes f v) (value_fault f v).
Proof.
  intros K.
  assert (I : forall z, integer_format f -> int_of v = Some z ->
     fails (pack_int (fmt_signed f) (fmt_size f) z) (value_fault f v)).
  { intros z HF HV e. destruct (fmt_tables f) as [-> ->].
    assert (N : (0 < wire_size f)%nat) by (destruct f; cbn; lia).
    rewrite (int_fails (wire_signed f) (wire_size f) z N e). split.
    - intros [-> C]. eapply vf_int_range; eauto.
    - intros H. destruct H; unfold integer_format in *; cbn [In float_or_list int_of] in *;
        try (now intuition discriminate); try discriminate; try tauto.
      + destruct v; cbn [float_or_list int_of] in *; try tauto; discriminate.
      + rewrite H0 in HV. injection HV as ->. tauto. }
  assert (R : forall e0, (forall e, value_fault f v e -> e = e0) -> value_fault f v e0 ->
     fails (@Raise bytes e0) (value_fault f v)).
  { intros e0 H1 H2. apply fails_raise. intros e. split; [apply H1|]. intros ->. exact H2. }
  assert (S : forall z, f = Ff -> int_of v = Some z -> fails (pack_single z) (value_fault f v)).
  { intros z -> HV e. unfold pack_single. rewrite (double_fails (fun b => le_enc 4 (narrow (widen (narrow b)))) OverflowError z e). split.
    - intros [-> C]. eapply vf_float_huge; eauto.
    - intros H. inversion H; subst; cbn [int_of] in *; try discriminate; vf_inv H. split; congruence. }
  assert (D : forall z, f = Fd -> int_of v = Some z -> fails (pack_double z) (value_fault f v)).
  { intros z -> HV e. unfold pack_double. rewrite (double_fails (le_enc 8) StructError z e). split.
    - intros [-> C]. eapply vf_double_huge; eauto.
    - intros H. inversion H; subst; cbn [int_of] in *; try discriminate; vf_inv H. split; congruence. }
  destruct f; cbn [scalar_data_bytes].
  all: destruct v as [z|t z|b|b|b|s|a|l|]; cbn [value_known] in K; try contradiction.
  all: try (apply I; [cbn; tauto|reflexivity]).
  all: try (apply S; reflexivity).
  all: try (apply D; reflexivity).
  all: try (destruct (nd_shape a); [contradiction|]).
  all: try (apply R; [intros e H; vf_inv H|]).
  all: try (constructor; cbn; tauto).
  all: try (apply fails_ok; intros e H; vf_inv H).
  - intros e. rewrite (chr_fails z e). split; [intros H; eapply vf_char_int; [reflexivity|exact H]|].
    intros H. vf_inv H.
  - intros e. rewrite (chr_fails z e). split; [intros H; eapply vf_char_int; [reflexivity|exact H]|].
    intros H. vf_inv H.
  - replace (Z.abs z <=? 2 ^ 53) with true by lia. apply S; reflexivity.
  - destruct K as (K1 & K2 & K3). destruct (nd_shape a) as [|m sh]; [contradiction|].
    assert (X : fails (@Raise bytes StructError) (value_fault Ff (VArr a))) by (apply R; [intros e H; vf_inv H|constructor]).
    destruct (nd_dtype a); try contradiction; (destruct (nd_data a) as [|x [|y d]]; [exact X|contradiction|exact X]).
  - destruct K as (K1 & K2).
    assert (X : fails (@Raise bytes StructError) (value_fault Ff (VIntList l))) by (apply R; [intros e H; vf_inv H|constructor]).
    assert (E : forallb (fun z => Z.abs z <? 2 ^ 63) l = true).
    { apply forallb_forall. rewrite Forall_forall in K2. intros z HI. specialize (K2 z HI). lia. }
    rewrite E. destruct l as [|x [|y d]]; [exact X|contradiction|exact X].
  - destruct K as (K1 & K2). destruct (nd_shape a) as [|m sh]; [contradiction|].
    assert (X : fails (@Raise bytes StructError) (value_fault Fd (VArr a))) by (apply R; [intros e H; vf_inv H|constructor]).
    destruct (nd_data a) as [|x [|y d]]; [exact X|contradiction|exact X].
  - destruct (decimal_fails z K) as (bs & ->). apply fails_ok. intros e H. vf_inv H.
  - destruct (decimal_fails z K) as (bs & ->). apply fails_ok. intros e H. vf_inv H.
  - intros e. rewrite (pack_text_fails s K e). split; [now constructor|]. intros H. vf_inv H.
Qed.

Lemma scalar_fails s : text (sc_name s) -> value_known (sc_fmt s) (sc_value s) ->
  fails (dmap_scalar_to_bytes s) (scalar_fault s).
Proof.
  intros H1 H2. unfold dmap_scalar_to_bytes, scalar_fault.
  apply fails_bind; [now apply pack_text_fails|]. intros n _.
  apply fails_bind; [apply pack_type_fails|]. intros t _.
  apply fails_last. now apply value_fails.
Qed.

Lemma value_len f v bs : scalar_data_bytes f v = Ok bs -> zlen bs = value_length f v.
Proof.
  assert (I : forall s n z, pack_int s n z = Ok bs -> zlen bs = Z.of_nat n).
  { intros s n z H. apply pack_int_inv in H as [-> _]. unfold zlen. now rewrite le_enc_length. }
  assert (T : forall z, pack_decimal z = Ok bs -> zlen bs = value_length Fs (VInt z)).
  { intros z H. unfold pack_decimal in H. destruct (_ <? _); [discriminate|]. apply pack_text_len in H. rewrite H.
    cbn [value_length]. f_equal. unfold decimal, zlen. f_equal.
    induction (DecimalString.NilZero.string_of_int (Z.to_int z)) as [|x s IH]; cbn [SDarnFormats.str length String.length]; congruence. }
  assert (S : forall z, pack_single z = Ok bs -> zlen bs = 4).
  { intros z H. unfold pack_single in H. destruct (double_of_int z); [|discriminate]. apply ok_inj in H. rewrite <- H. unfold zlen. now rewrite le_enc_length. }
  assert (D : forall z, pack_double z = Ok bs -> zlen bs = 8).
  { intros z H. unfold pack_double in H. destruct (double_of_int z); [|discriminate]. apply ok_inj in H. rewrite <- H. unfold zlen. now rewrite le_enc_length. }
  destruct f, v as [z|t z|b|b|b|s|a|l|]; cbn [scalar_data_bytes]; intros H; try discriminate;
    try (apply I in H; exact H); try (apply chr_length in H; tauto); try (apply pack_text_len in H; exact H);
    try (exact (S _ H)); try (exact (D _ H)); try (exact (T _ H));
    try (destruct (nd_shape a); discriminate);
    try (destruct (_ <=? _); [exact (S _ H)|discriminate]);
    try (destruct (nd_shape a); [discriminate|]; destruct (nd_dtype a), (nd_data a) as [|? [|]]; discriminate);
    try (destruct (forallb _ l), l as [|? [|]]; discriminate);
    apply ok_inj in H; rewrite <- H; unfold zlen; rewrite le_enc_length; reflexivity.
Qed.

Lemma scalar_len s bs : dmap_scalar_to_bytes s = Ok bs -> zlen bs = field_length (IScalar s).
Proof.
  unfold dmap_scalar_to_bytes. intros H. inv_rbind H n. inv_rbind H t. inv_rbind H d. injection H as <-.
  apply pack_text_len in H0. apply pack_type_len in H1. apply value_len in H2.
  rewrite !zlen_app. cbn [field_length]. lia.
Qed.

(** ** Arrays *)

Lemma flat_length {A B} (f : A -> list B) m l : (forall x, length (f x) = m) ->
  Z.of_nat (length (flat_map f l)) = Z.of_nat m * zlen l.
Proof.
  intros H. unfold zlen. induction l as [|x l IH]; cbn [flat_map length]; [lia|].
  rewrite app_length, H. lia.
Qed.

Lemma sizes_len l bs : wire_list wire_int32 l bs -> zlen bs = 4 * zlen l.
Proof.
  induction 1 as [|x xs b bs H HL IH]; [reflexivity|]. rewrite zlen_app, zlen_cons, IH.
  destruct H as [H _]. unfold zlen. rewrite H. lia.
Qed.


Lemma sizes_fails l : fails (pack_sizes l) (sizes_fault l).
Proof.
  unfold sizes_fault. induction l as [|z l IH]; cbn [pack_sizes].
  - apply fails_ok. intros e [_ C]. inversion C.
  - pose proof (int_fails true 4 z ltac:(lia)) as F. intros e. rewrite Exists_cons.
    destruct (pack_int true 4 z) as [b|e0]; cbn [rbind].
    + pose proof (fails_done _ _ _ F eq_refl StructError) as N.
      destruct (pack_sizes l) as [bs|e1]; cbn [rbind].
      * split; [discriminate|]. intros [-> [C|C]]; [exfalso; apply N; auto|].
        exfalso. apply (fails_done _ _ _ IH eq_refl StructError). auto.
      * rewrite (IH e). split; [tauto|]. intros [-> [C|C]]; [exfalso; apply N; auto|]. auto.
    + assert (X : e0 = StructError /\ ~ fits true 4 z) by (now apply F). destruct X as [-> X].
      split; [intros [= <-]; auto|]. intros [-> _]. reflexivity.
Qed.

Lemma exists_rev {A} (P : A -> Prop) l : Exists P (rev l) <-> Exists P l.
Proof.
  rewrite !Exists_exists. split; intros (x & H & HP); exists x; split; auto.
  - now apply in_rev.
  - now apply -> in_rev.
Qed.

Lemma format_fails a :
  fails (match ar_fmt a with
         | Fc => rlet isstr := first_is_str (ar_value a) in if isstr then Raise DmapCharError else Ok tt
         | Fs => Raise DmapDataError
         | _ => Ok tt
         end) (format_fault a).
Proof.
  assert (N : ar_fmt a <> Fc -> ar_fmt a <> Fs -> forall e, ~ format_fault a e).
  { intros H1 H2 e H. destruct H; contradiction. }
  destruct (ar_fmt a) eqn:EF; try (apply fails_ok; apply N; discriminate).
  - unfold first_is_str. destruct (nd_shape (ar_value a)) as [|n l] eqn:ES; cbn [rbind].
    + apply fails_raise. intros e. split.
      * intros H. destruct H; congruence.
      * intros ->. apply af_empty; auto. intros n l. rewrite ES. discriminate.
    + destruct (n <=? 0) eqn:E; cbn [rbind].
      * apply fails_raise. intros e. split.
        -- intros H. destruct H as [H|H HE|m H HS HP HD]; try congruence. rewrite ES in HS. injection HS as <- _. lia.
        -- intros ->. apply af_empty; auto. intros m l'. rewrite ES. intros [= <- _]. lia.
      * assert (X : nd_dtype (ar_value a) <> DStr \/ l <> [] -> forall e, ~ format_fault a e).
        { intros HX e H. destruct H as [H|H HE|m H HS HP HD]; try congruence.
          - specialize (HE n l ES). lia.
          - rewrite ES in HS. injection HS as _ ->. destruct HX; contradiction. }
        destruct l as [|n2 l]; [|cbn [rbind]; apply fails_ok; apply X; right; discriminate].
        destruct (nd_dtype (ar_value a)) eqn:ED; try (apply fails_ok; apply X; left; discriminate).
        apply fails_raise. intros e. split.
        -- intros H. destruct H as [H|H HE|m H HS HP HD]; try congruence. specialize (HE n [] ES). lia.
        -- intros ->. apply (af_char _ n); auto. lia.
  - apply fails_raise. intros e. split; [|intros ->; now constructor]. intros H. destruct H; congruence.
Qed.

(** The array fails as said, has the length said and is left as said. *)
Lemma array_fails a : text (ar_name a) ->
  fails (fst (dmap_array_to_bytes a)) (array_fault a) /\
  (forall bs, fst (dmap_array_to_bytes a) = Ok bs -> zlen bs = field_length (IArray a)) /\
  field_left (IArray a) (IArray (snd (dmap_array_to_bytes a))).
Proof.
  intros HT. unfold dmap_array_to_bytes. cbv zeta. set (shape' := if 1 <? ar_dim a then _ else _).
  match goal with |- context [match ?p with Ok _ => _ | Raise _ => _ end] =>
    match p with rbind _ (fun _ => rbind _ _) => set (pre := p) end end.
  assert (F : fails pre (first_fault [format_fault a; text_fault (ar_name a); type_fault (ar_type a); word_fault (ar_dim a)])).
  { unfold pre. apply fails_bind; [apply format_fails|]. intros _ _.
    apply fails_bind; [now apply pack_text_fails|]. intros n _.
    apply fails_bind; [apply pack_type_fails|]. intros t _.
    apply fails_last. apply int_fails. lia. }
  assert (L : forall h, pre = Ok h -> zlen h = zlen (ar_name a) + 6).
  { intros h. unfold pre. intros H. inv_rbind H u. inv_rbind H n. inv_rbind H t. inv_rbind H d. injection H as <-.
    apply pack_text_len in H1. apply pack_type_len in H2. apply pack_int_inv in H3 as [-> _].
    rewrite !zlen_app. unfold zlen at 3. rewrite le_enc_length. lia. }
  assert (S : forall e, sizes_fault shape' e <-> sizes_fault (ar_shape a) e).
  { intros e. unfold sizes_fault, shape'. destruct (1 <? ar_dim a); [|tauto]. now rewrite exists_rev. }
  assert (A : forall e, array_fault a e <->
     first_fault [format_fault a; text_fault (ar_name a); type_fault (ar_type a); word_fault (ar_dim a)] e \/
     ((forall x, ~ first_fault [format_fault a; text_fault (ar_name a); type_fault (ar_type a); word_fault (ar_dim a)] x)
      /\ sizes_fault (ar_shape a) e)) by (intros e; apply (fault_snoc [_; _; _; _])).
  destruct pre as [h|e0]; cbn [fst snd].
  - pose proof (fails_done _ _ _ F eq_refl) as N. splits.
    + intros e. rewrite (A e). pose proof (sizes_fails shape') as G.
      destruct (pack_sizes shape') as [sb|e1]; cbn [rbind].
      * split; [discriminate|]. intros [C|[_ C]]; [now apply N in C|]. apply S in C.
        now apply (fails_done _ _ _ G eq_refl) in C.
      * rewrite <- (S e), <- (G e). split; [intros H|intros [C|[_ C]]; [now apply N in C|]].
        -- right. split; auto.
        -- exact C.
    + intros bs H. inv_rbind H sb. injection H as <-. specialize (L h eq_refl).
      apply pack_sizes_inv in H0. apply sizes_len in H0.
      rewrite !zlen_app, L, H0. cbn [field_length].
      assert (T : zlen (tostring (ar_value a)) = Z.of_nat (dtype_size (nd_dtype (ar_value a))) * zlen (nd_data (ar_value a)))
        by (apply flat_length; intros; apply elem_enc_len).
      rewrite T.
      unfold shape', zlen. destruct (1 <? ar_dim a); [rewrite rev_length|]; lia.
    + left. split; [exact N|]. unfold turned, shape'. destruct (1 <? ar_dim a); [reflexivity|]. now destruct a.
  - splits; [|discriminate|right; split; [exists e0; now apply F|reflexivity]].
    intros e. rewrite (A e), <- (F e). split; [auto|]. intros [|[C _]]; auto.
    exfalso. apply (C e0). now apply F.
Qed.

(** ** Records *)

Lemma first_none l : no_fault (first_fault l) <-> Forall no_fault l.
Proof.
  induction l as [|P l IH].
  - split; [constructor|]. intros _ e H. inversion H.
  - split; intros H.
    + constructor.
      * intros e C. apply (H e). now apply ff_here.
      * apply IH. intros e C. destruct (H e). apply ff_later; auto. intros x CX. apply (H x). now apply ff_here.
    + inversion H as [|P0 l0 H1 H2]; subst. intros e C. inversion C; subst; [now apply (H1 e)|].
      apply IH in H2. now apply (H2 e).
Qed.

Lemma array_no_fault a : no_fault (array_fault a) ->
  no_fault (first_fault [format_fault a; text_fault (ar_name a); type_fault (ar_type a); word_fault (ar_dim a)]).
Proof. intros H e C. apply (H e). apply (fault_snoc [_; _; _; _]). auto. Qed.

Definition counts (r : record) : Z * Z :=
  (zlen (filter (fun p => match snd p with IScalar _ => true | _ => false end) r),
   zlen (filter (fun p => match snd p with IArray _ => true | _ => false end) r)).

Lemma fields_fails r : record_known r ->
  fails (fst (fields_to_bytes r)) (first_fault (map (fun p => field_fault (snd p)) r)) /\
  (forall bs ns na, fst (fields_to_bytes r) = Ok (bs, ns, na) ->
     zlen bs = total (map (fun p => field_length (snd p)) r) /\ 0 <= ns /\ 0 <= na /\ ns + na <= zlen bs /\
     snd (fields_to_bytes r) = turned_record r) /\
  (forall e, fst (fields_to_bytes r) = Raise e ->
     exists pre k it it' post, r = pre ++ (k, it) :: post /\
       Forall (fun p => no_fault (field_fault (snd p))) pre /\ field_fault it e /\ field_left it it' /\
       snd (fields_to_bytes r) = turned_record pre ++ (k, it') :: post).
Proof.
  induction 1 as [|[k it] r HK HR (F & L & X)].
  - cbn [fields_to_bytes map fst snd]. splits; [apply fails_nil| |discriminate].
    intros bs ns na [= <- <- <-]. splits; try reflexivity; unfold zlen; cbn [length]; lia.
  - cbn [snd] in HK. cbn [map snd].
    assert (G : forall (rb : res bytes) it',
      fails rb (field_fault it) -> (forall b, rb = Ok b -> zlen b = field_length it /\ 1 <= zlen b /\ it' = turned it) ->
      (forall e, rb = Raise e -> field_left it it') ->
      forall ds da, 0 <= ds -> 0 <= da -> ds + da = 1 ->
      forall q, q = (match rb with
         | Raise e => (Raise e, (k, it') :: r)
         | Ok b => match fields_to_bytes r with
                   | (Raise e, r'') => (Raise e, (k, it') :: r'')
                   | (Ok (bs, ns, na), r'') => (Ok (b ++ bs, ns + ds, na + da), (k, it') :: r'')
                   end
         end) ->
      fails (fst q) (first_fault (field_fault it :: map (fun p => field_fault (snd p)) r)) /\
      (forall bs ns na, fst q = Ok (bs, ns, na) ->
         zlen bs = total (field_length it :: map (fun p => field_length (snd p)) r) /\ 0 <= ns /\ 0 <= na /\
         ns + na <= zlen bs /\ snd q = turned_record ((k, it) :: r)) /\
      (forall e, fst q = Raise e ->
         exists pre k0 it0 it' post, (k, it) :: r = pre ++ (k0, it0) :: post /\
           Forall (fun p => no_fault (field_fault (snd p))) pre /\ field_fault it0 e /\ field_left it0 it' /\
           snd q = turned_record pre ++ (k0, it') :: post)).
    { intros rb it' FB LB XB ds da D1 D2 D3 q ->.
      assert (B : fails (rlet b := rb in fst (fields_to_bytes r)) (first_fault (field_fault it :: map (fun p => field_fault (snd p)) r))).
      { apply fails_bind; auto. }
      destruct rb as [b|e0]; cbn [rbind] in B.
      - destruct (LB b eq_refl) as (LB1 & LB2 & ->). pose proof (fails_done _ _ _ FB eq_refl) as NB.
        destruct (fields_to_bytes r) as [[[[bs ns] na]|e1] r'']; cbn [fst snd] in *.
        + splits; [|intros bs' ns' na' [= <- <- <-]|discriminate].
          * intros e. rewrite <- (B e). split; discriminate.
          * destruct (L bs ns na eq_refl) as (L1 & L2 & L3 & L4 & ->).
            rewrite zlen_app. unfold total in *. cbn [fold_right]. splits; try lia. reflexivity.
        + splits; [exact B|discriminate|].
          intros e H. assert (e1 = e) as -> by congruence.
          destruct (X e eq_refl) as (pre & k0 & it0 & it' & post & -> & P1 & P2 & P3 & ->).
          exists ((k, it) :: pre), k0, it0, it', post. splits; auto.
      - splits; [|discriminate|].
        + intros e. rewrite <- (B e). cbn [fst]. split; congruence.
        + intros e H. cbn [fst] in H. assert (e0 = e) as -> by congruence.
          exists [], k, it, it', r. splits; auto; [now apply FB|now apply (XB e)]. }
    destruct it as [s|a|v]; cbn [fields_to_bytes].
    + destruct HK as [K1 K2]. specialize (G (dmap_scalar_to_bytes s) (IScalar s)).
      refine (G (scalar_fails s K1 K2) _ _ 1 0 ltac:(lia) ltac:(lia) ltac:(lia) _ _).
      * intros b H. pose proof (scalar_len s b H) as HL. splits; auto.
        unfold dmap_scalar_to_bytes in H. inv_rbind H n. inv_rbind H t. inv_rbind H d. injection H as <-.
        apply pack_text_len in H0. rewrite !zlen_app. unfold zlen in *. lia.
      * intros e _. reflexivity.
      * destruct (dmap_scalar_to_bytes s) as [b|]; [|reflexivity].
        destruct (fields_to_bytes r) as [[[[bs ns] na]|e1] r'']; [|reflexivity]. now rewrite Z.add_0_r.
    + destruct (array_fails a HK) as (A1 & A2 & A3).
      refine (G (fst (dmap_array_to_bytes a)) (IArray (snd (dmap_array_to_bytes a))) A1 _ _ 0 1 ltac:(lia) ltac:(lia) ltac:(lia) _ _).
      * intros b H. pose proof (A2 b H) as HL. splits; auto.
        -- rewrite HL. cbn [field_length]. pose proof (Nat2Z.is_nonneg (dtype_size (nd_dtype (ar_value a)))).
           unfold zlen. nia.
        -- destruct A3 as [[_ A3]|[[e C] _]]; auto. exfalso.
           apply (array_no_fault a (fails_done _ _ _ A1 H) e C).
      * intros e _. exact A3.
      * destruct (dmap_array_to_bytes a) as [[b|] a']; [|reflexivity]. cbn [fst snd].
        destruct (fields_to_bytes r) as [[[[bs ns] na]|e1] r'']; [|reflexivity]. now rewrite Z.add_0_r.
    + refine (G (Raise DmapTypeError) (IPlain v) _ _ _ 1 0 ltac:(lia) ltac:(lia) ltac:(lia) _ eq_refl).
      * apply fails_raise. cbn [field_fault]. tauto.
      * discriminate.
      * intros e _. reflexivity.
Qed.

Lemma header_fails n ns na : 0 <= ns -> 0 <= na -> ns + na <= n -> 0 <= n ->
  fails (header_bytes (n + 16) ns na) (word_fault (16 + n)) /\
  (forall h, header_bytes (n + 16) ns na = Ok h -> zlen h = 16).
Proof.
  intros H1 H2 H3 H4. unfold header_bytes.
  assert (W : forall z, 0 <= z < 2 ^ 31 -> pack_int true 4 z = Ok (le_enc 4 z)).
  { intros z H. apply pack_int_ok. apply fits_iff; [lia|]. unfold fits. change (8 * Z.of_nat 4 - 1) with 31. lia. }
  rewrite (W 65537) by lia. cbn [rbind]. rewrite (Z.add_comm n 16).
  pose proof (int_fails true 4 (16 + n) ltac:(lia)) as F. fold (word_fault (16 + n)) in F.
  destruct (pack_int true 4 (16 + n)) as [b|e0] eqn:E; cbn [rbind].
  - apply pack_int_inv in E as [-> R]. apply fits_iff in R; [|lia]. unfold fits in R.
    change (8 * Z.of_nat 4 - 1) with 31 in R.
    rewrite (W ns), (W na) by lia. cbn [rbind]. split.
    + apply fails_ok. exact (fails_done _ _ _ F eq_refl).
    + intros h H. apply ok_inj in H. rewrite <- H, !zlen_app. unfold zlen. now rewrite !le_enc_length.
  - split; [exact F|discriminate].
Qed.

Lemma total_nonneg r : record_known r -> no_fault (first_fault (map (fun p => field_fault (snd p)) r)) ->
  0 <= total (map (fun p => field_length (snd p)) r).
Proof.
  intros K N. destruct (fields_fails r K) as (F & L & _).
  destruct (fst (fields_to_bytes r)) as [[[bs ns] na]|e] eqn:E.
  - destruct (L _ _ _ eq_refl) as (<- & _). unfold zlen. lia.
  - exfalso. apply (N e). now apply F.
Qed.

Lemma record_fails r : record_known r ->
  fails (fst (dmap_record_to_bytes r)) (record_fault r) /\
  (forall bs, fst (dmap_record_to_bytes r) = Ok bs ->
     zlen bs = record_length r /\ snd (dmap_record_to_bytes r) = turned_record r) /\
  (forall e, fst (dmap_record_to_bytes r) = Raise e -> record_left r (snd (dmap_record_to_bytes r)) (record_rest r)).
Proof.
  intros K. destruct (fields_fails r K) as (F & L & X). pose proof (rest_cases r) as RC.
  unfold dmap_record_to_bytes, record_fault in *.
  assert (A := fault_snoc (map (fun p => field_fault (snd p)) r) (word_fault (record_length r))).
  destruct (fields_to_bytes r) as [[[[data ns] na]|e0] r'] eqn:E; cbn [fst snd] in *.
  - destruct (L _ _ _ eq_refl) as (L1 & L2 & L3 & L4 & ->).
    pose proof (fails_done _ _ _ F eq_refl) as N.
    destruct (header_fails (zlen data) ns na L2 L3 L4 ltac:(unfold zlen; lia)) as [HF HL].
    assert (HR : record_length r = 16 + zlen data) by (unfold record_length; now rewrite L1). rewrite <- HR in HF.
    destruct (header_bytes (zlen data + 16) ns na) as [h|e1]; cbn [rbind].
    + splits; [|intros bs [= <-]|discriminate].
      * apply fails_ok. intros e C. apply A in C as [C|[_ C]]; [now apply N in C|].
        now apply (fails_done _ _ _ HF eq_refl) in C.
      * rewrite zlen_app, (HL h eq_refl), HR. split; reflexivity.
    + splits; [|discriminate|].
      * intros e. rewrite (A e), <- (HF e). split; [intros H; right; split; [exact N|congruence]|].
        intros [C|[_ C]]; [now apply N in C|exact C].
      * intros e _. destruct (RC e1 _ eq_refl) as [[_ C]|[-> _]]; [discriminate|]. apply rl_long.
        -- apply first_none in N. rewrite Forall_map in N. exact N.
        -- assert (C : word_fault (record_length r) e1) by (now apply HF). apply C.
  - splits; [|discriminate|].
    + intros e. rewrite (A e), <- (F e). split; [intros H; left; congruence|].
      intros [C|[C _]]; [congruence|]. exfalso. apply (C e0). now apply F.
    + intros e H. destruct (X e ltac:(congruence)) as (pre & k & it & it' & post & -> & P1 & P2 & P3 & ->).
      destruct (RC e0 _ eq_refl) as [[-> _]|(_ & _ & bl & C & _)]; [now apply (rl_field pre k it it' post e)|].
      exfalso. pose proof (proj2 (fields_to_bytes_iff _ _ _ _ _) (ex_intro _ bl (conj C (conj eq_refl (conj eq_refl (conj eq_refl eq_refl)))))) as C2.
      rewrite C2 in E. discriminate E.
Qed.

(** ** Lists of records *)

Lemma records_fails rs acc : Forall record_known rs ->
  match dmap_records_to_bytes acc rs with
  | (q, acc', rs') =>
      fails q (records_fault rs) /\
      (q = Ok tt -> exists bl, Forall2 (fun r b => fst (dmap_record_to_bytes r) = Ok b /\ zlen b = record_length r) rs bl /\
         acc' = acc ++ concat bl /\ rs' = map turned_record rs) /\
      (forall e, q = Raise e -> exists pre r r' post bl rest,
         rs = pre ++ r :: post /\ record_fault r e /\ record_left r r' rest /\
         Forall2 (fun r b => fst (dmap_record_to_bytes r) = Ok b /\ zlen b = record_length r) pre bl /\
         acc' = acc ++ concat bl ++ rest /\ rs' = map turned_record pre ++ r' :: post)
  end.
Proof.
  intros K. revert acc. induction K as [|r rs HK K IH]; intros acc; cbn [dmap_records_to_bytes].
  - splits; [apply fails_nil| |discriminate]. intros _. exists []. splits; [constructor|now rewrite app_nil_r|reflexivity].
  - destruct (record_fails r HK) as (F & L & X). unfold records_fault. cbn [map].
    destruct (dmap_record_to_bytes r) as [[b|e0] r'] eqn:E; cbn [fst snd] in *.
    + destruct (L b eq_refl) as [L1 ->]. specialize (IH (acc ++ b)).
      destruct (dmap_records_to_bytes (acc ++ b) rs) as [[q acc'] rs'']. destruct IH as (I1 & I2 & I3).
      splits.
      * apply (fails_bind (Ok b) (fun _ => q) (record_fault r)); auto.
      * intros H. destruct (I2 H) as (bl & B1 & -> & ->). exists (b :: bl). cbn [concat map].
        rewrite app_assoc. splits; auto. constructor; auto. rewrite E. split; auto.
      * intros e H. destruct (I3 e H) as (pre & r0 & r' & post & bl & rest & -> & P1 & P2 & P3 & -> & ->).
        exists (r :: pre), r0, r', post, (b :: bl), rest. cbn [concat map app]. rewrite <- !app_assoc. splits; auto.
        constructor; auto. rewrite E. split; auto.
    + splits; [|discriminate|].
      * intros e. split; intros H.
        -- apply ff_here. apply F. congruence.
        -- inversion H as [P0 l0 e1 HP|P0 l0 e1 HN HL]; subst.
           ++ apply F in HP. congruence.
           ++ exfalso. apply (HN e0). now apply F.
      * intros e H. exists [], r, r', rs, [], (record_rest r). cbn [concat map app]. splits; auto.
        -- apply F. congruence.
        -- now apply (X e0).
Qed.

(** ** Writer objects *)

Lemma stream_fails w ds : wr_records w <> [] -> Forall record_known (wr_records w) ->
  match write_dmap_stream w ds with
  | (q, w') =>
      fails q (records_fault (wr_records w)) /\ wr_filename w' = wr_filename w /\
      (forall bs, q = Ok bs -> wr_bytearr w' = bs /\ wr_records w' = map turned_record (wr_records w) /\
         zlen bs = zlen (wr_bytearr w) + total (map record_length (wr_records w))) /\
      (forall e, q = Raise e -> exists pre r r' post bl rest,
         wr_records w = pre ++ r :: post /\ record_fault r e /\ record_left r r' rest /\
         Forall2 (fun r b => fst (dmap_record_to_bytes r) = Ok b /\ zlen b = record_length r) pre bl /\
         wr_bytearr w' = wr_bytearr w ++ concat bl ++ rest /\ wr_records w' = map turned_record pre ++ r' :: post)
  end.
Proof.
  intros HN K. unfold write_dmap_stream, empty_record_check.
  pose proof (records_fails (wr_records w) (wr_bytearr w) K) as R.
  destruct (wr_records w) as [|r0 rs0] eqn:EW; [contradiction|]. rewrite EW.
  destruct (dmap_records_to_bytes (wr_bytearr w) (r0 :: rs0)) as [[q acc] rs'] eqn:ER.
  destruct R as (R1 & R2 & R3). splits; cbn [wr_filename wr_bytearr wr_records]; auto.
  - intros e. rewrite <- (R1 e). destruct q; cbn [rbind]; split; congruence.
  - intros bs H. destruct q as [[]|]; cbn [rbind] in H; [|discriminate]. apply ok_inj in H. subst bs.
    destruct (R2 eq_refl) as (bl & B1 & -> & ->). splits; auto. rewrite zlen_app. f_equal.
    clear - B1. induction B1 as [|r b rs bl [_ HL] B IH]; [reflexivity|].
    cbn [concat map]. rewrite zlen_app, IH, HL. reflexivity.
  - intros e H. apply R3. destruct q; cbn [rbind] in H; congruence.
Qed.

Lemma file_fails fs w fn : wr_records w <> [] -> Forall record_known (wr_records w) ->
  (wr_filename w <> [] \/ fn <> []) ->
  match write_dmap fs w fn with
  | (q, w', fs') =>
      fails q (records_fault (wr_records w)) /\
      (forall e, q = Raise e -> fs' = fs) /\
      (q = Ok tt -> fs' = fs_write fs (if str_eqb fn [] then wr_filename w else fn) (wr_bytearr w') /\
         zlen (wr_bytearr w') = zlen (wr_bytearr w) + total (map record_length (wr_records w)))
  end.
Proof.
  intros HN K HF. unfold write_dmap.
  assert (C : exists w1, filename_check w fn = Ok w1 /\ wr_records w1 = wr_records w /\ wr_bytearr w1 = wr_bytearr w /\
     wr_filename w1 = if str_eqb fn [] then wr_filename w else fn).
  { unfold filename_check. destruct fn as [|c fn].
    - destruct (wr_filename w) eqn:E; [destruct HF; contradiction|]. exists w. cbn [str_eqb]. auto.
    - destruct (wr_filename w) eqn:E; eexists; splits; reflexivity. }
  destruct C as (w1 & -> & C1 & CB & C2).
  pose proof (stream_fails w1 [] ltac:(now rewrite C1) ltac:(now rewrite C1)) as S. rewrite C1 in S.
  destruct (write_dmap_stream w1 []) as [[bs|e0] w2]; destruct S as (S1 & S2 & S3 & S4).
  - splits; [|discriminate|].
    + apply fails_ok. exact (fails_done _ _ _ S1 eq_refl).
    + intros _. rewrite S2, C2. split; [reflexivity|]. destruct (S3 bs eq_refl) as (-> & _ & ->). now rewrite CB.
  - splits; [|reflexivity|discriminate]. intros e. rewrite <- (S1 e). split; congruence.
Qed.

Lemma file_outcome fs w fn :
  wr_records w <> [] -> Forall record_known (wr_records w) -> wr_filename w <> [] \/ fn <> [] ->
  let q := fst (fst (write_dmap fs w fn)) in
  let fs' := snd (write_dmap fs w fn) in
  (forall e, q = Raise e <-> records_fault (wr_records w) e) /\
  (forall e, q = Raise e -> fs' = fs) /\
  (q = Ok tt -> exists bs, fs' (if str_eqb fn [] then wr_filename w else fn) = Some bs /\
     zlen bs = zlen (wr_bytearr w) + total (map record_length (wr_records w))).
Proof.
  intros HN K HF. pose proof (file_fails fs w fn HN K HF) as S.
  destruct (write_dmap fs w fn) as [[q w'] fs']. destruct S as (S1 & S2 & S3).
  cbv zeta. cbn [fst snd]. splits; [exact S1|exact S2|].
  intros HQ. destruct (S3 HQ) as [-> HL]. exists (wr_bytearr w'). split; auto.
  unfold fs_write. now rewrite str_eqb_refl.
Qed.

Lemma refused_write fs w fn :
  (wr_filename w = [] -> fn = [] -> write_dmap fs w fn = (Raise FilenameRequiredError, w, fs)) /\
  (wr_records w = [] -> fst (write_dmap_stream w []) = Raise DmapDataError /\
   (wr_filename w <> [] \/ fn <> [] ->
    fst (fst (write_dmap fs w fn)) = Raise DmapDataError /\ snd (write_dmap fs w fn) = fs)).
Proof.
  assert (S : forall v, wr_records v = [] -> fst (write_dmap_stream v []) = Raise DmapDataError).
  { intros v H. unfold write_dmap_stream. rewrite H. reflexivity. }
  split.
  - intros H ->. unfold write_dmap, filename_check. now rewrite H.
  - intros H. split; [now apply S|]. intros HF. unfold write_dmap.
    assert (C : exists w1, filename_check w fn = Ok w1 /\ wr_records w1 = []).
    { unfold filename_check. destruct fn as [|c fn].
      - destruct (wr_filename w) eqn:E; [destruct HF; contradiction|]. eauto.
      - destruct (wr_filename w) eqn:E; eexists; split; try reflexivity; exact H. }
    destruct C as (w1 & -> & C1). specialize (S w1 C1).
    destruct (write_dmap_stream w1 []) as [q w2]. cbn [fst] in S. subst q. split; reflexivity.
Qed.
