(** Proofs for C99: plain dictionaries through dict2dmap and dmap2dict. *)
From Coq Require Import ZArith List Bool Lia ZifyBool.
From Verif Require Import Base Bytes BytesSpec BytesProofs FloatBits FloatSpec FloatInt FloatBitsProofs FloatRoundProofs DmapTypes DmapRead DmapWrite
  Conversions DmapSpec DmapWriteSpec DmapReadProofs DmapFileProofs DmapStreamProofs DmapWriteProofs DmapWriteFacts DmapConvProofs DmapNormalProofs DmapPlainSpec.
Import ListNotations.
Open Scope Z_scope.

Lemma widen_same b : 0 <= b < 2 ^ 32 -> same_float b (widen b).
Proof.
  intros H. destruct (Z.eq_dec (f32_exp b) 255) as [E|E].
  - destruct (widen_fields b H) as (E' & M & HW & HE & HM & HC).
    destruct (f32_split b H) as (Hs & He & Hm & Hb). destruct (f64_fields _ E' M Hs HE HM) as (F1 & F2 & F3).
    rewrite <- HW in F1, F2, F3. unfold same_float. rewrite F1, F2, F3. split; [reflexivity|]. split; [contradiction|]. intros _.
    destruct HC as [(C1 & C2 & C3 & C4)|[(C1 & C2 & C3 & C4)|[(C1 & C2 & C3 & C4)|
      [(C1 & C2 & k & C3 & C4 & C5 & C6)|(C1 & C2 & C3)]]]]; try lia.
  - destruct (widen_exact b H E) as (V & X & S). unfold same_float. split; [exact S|]. split; [auto|contradiction].
Qed.

Lemma wrap_same t z : of_type t z -> np_wrap t z = z.
Proof.
  intros H. destruct t; cbn [of_type np_wrap] in *; unfold fits in H; cbn in H; try (apply Z.mod_small; cbn; lia);
    unfold to_signed, wrap_mod; cbn [Z.of_nat Pos.of_succ_nat Pos.succ Z.mul Pos.mul];
    match goal with |- (if ?c then _ else _) = _ => destruct c eqn:E end;
    match goal with |- context [z mod ?m] => pose proof (Z.mod_pos_bound z m ltac:(reflexivity)) as B;
      pose proof (Z.div_mod z m ltac:(discriminate)) as D end; cbn in *; lia.
Qed.

(** ** One field *)

(** What dict2dmap makes of a plain value, and what dmap2dict makes of that. *)
Lemma field_there k v it : proper v -> field2dmap k (IPlain v) = Ok it ->
  exists w, field2dict it = Ok (IPlain w) /\ comes_back v w.
Proof.
  intros P H.
  assert (A : forall a, array_item k a = Ok it -> field2dict it = Ok (IPlain (VArr a))).
  { intros a E. unfold array_item in E. destruct (dtype_format _); [|discriminate]. apply ok_inj in E as <-. reflexivity. }
  destruct v; cbn [field2dmap value_format] in H; try discriminate H.
  - apply ok_inj in H as <-. eexists. split; [reflexivity|constructor].
  - apply ok_inj in H as <-. destruct t; cbn [npint_format]; eexists;
      (split; [cbn [field2dict sc_value sc_fmt cast_value np_int rbind]; try rewrite wrap_same by exact P; reflexivity
              |apply cb_int32 || (apply cb_np; discriminate)]).
  - apply ok_inj in H as <-. eexists. split; [reflexivity|constructor].
  - apply ok_inj in H as <-. eexists. split; [reflexivity|]. constructor. now apply widen_same.
  - apply ok_inj in H as <-. eexists. split; [reflexivity|constructor].
  - apply ok_inj in H as <-. eexists. split; [reflexivity|constructor].
  - eexists. split; [apply A; exact H|constructor].
  - destruct (zlen l =? 0) eqn:Z0.
    + destruct l as [|z l]; [|rewrite zlen_cons in Z0; pose proof (zlen_nonneg l); lia].
      eexists. split; [apply A; exact H|apply cb_empty].
    + destruct (forallb _ _); [|destruct (forallb _ _); discriminate H].
      eexists. split; [apply A; exact H|]. apply cb_list. intros ->. discriminate Z0.
Qed.

(** Items that are written alike. *)
Definition written_alike (p q : pystr * item) : Prop :=
  fst q = fst p /\
  match snd p, snd q with
  | IScalar s, IScalar s' => dmap_scalar_to_bytes s' = dmap_scalar_to_bytes s
  | IArray a, IArray a' => a' = a
  | _, _ => False
  end.

Lemma single_alike b : 0 <= b < 2 ^ 32 -> narrow (widen (narrow (widen b))) = narrow (widen b).
Proof. intros H. apply narrow_narrow. now apply widen_range. Qed.

Lemma alike_refl k it : (forall v, it <> IPlain v) -> written_alike (k, it) (k, it).
Proof. intros H. split; [reflexivity|]. destruct it as [s|a|v]; cbn; auto. now apply (H v). Qed.
Lemma layout_refl k it : (forall v, it <> IPlain v) -> same_layout (k, it) (k, it).
Proof. intros H. split; [reflexivity|]. destruct it as [s|a|v]; cbn; auto. now apply (H v). Qed.

Lemma field_again k v it w : proper v -> field2dmap k (IPlain v) = Ok it -> field2dict it = Ok (IPlain w) ->
  exists it', field2dmap k (IPlain w) = Ok it' /\ field2dict it' = Ok (IPlain w) /\
    same_layout (k, it) (k, it') /\ written_alike (k, it) (k, it').
Proof.
  intros P H D.
  assert (N : forall u, it <> IPlain u).
  { intros u ->. discriminate D. }
  assert (A : forall a, array_item k a = Ok it ->
    exists it', field2dmap k (IPlain w) = Ok it' /\ field2dict it' = Ok (IPlain w) /\
      same_layout (k, it) (k, it') /\ written_alike (k, it) (k, it')).
  { intros a E. assert (E' := E). unfold array_item in E'. destruct (dtype_format _); [|discriminate]. apply ok_inj in E' as <-.
    cbn [field2dict ar_value] in D. apply ok_inj in D. injection D as <-.
    eexists. split; [exact E|]. split; [reflexivity|]. split; [apply layout_refl|apply alike_refl]; exact N. }
  assert (S : field2dmap k (IPlain w) = Ok it -> exists it', field2dmap k (IPlain w) = Ok it' /\ field2dict it' = Ok (IPlain w) /\
      same_layout (k, it) (k, it') /\ written_alike (k, it) (k, it')).
  { intros E. exists it. split; [exact E|]. split; [exact D|]. split; [apply layout_refl|apply alike_refl]; exact N. }
  destruct v; cbn [field2dmap value_format] in H; try discriminate H.
  - apply ok_inj in H as <-. cbn in D. apply ok_inj in D. injection D as <-. apply S. reflexivity.
  - apply ok_inj in H as <-.
    destruct t; cbn [npint_format field2dict sc_value sc_fmt cast_value np_int rbind] in D;
      try rewrite wrap_same in D by exact P; apply ok_inj in D; injection D as <-; try (apply S; reflexivity).
    eexists. split; [reflexivity|]. split; [reflexivity|]. split; [split; [reflexivity|cbn; auto]|split; reflexivity].
  - apply ok_inj in H as <-. cbn in D. apply ok_inj in D. injection D as <-. apply S. reflexivity.
  - apply ok_inj in H as <-. cbn [field2dict sc_value sc_fmt cast_value np_double rbind] in D. apply ok_inj in D. injection D as <-.
    eexists. split; [reflexivity|]. split; [reflexivity|]. split; [split; [reflexivity|cbn; auto]|]. split; [reflexivity|].
    cbn [snd]. unfold dmap_scalar_to_bytes. cbn [sc_name sc_type sc_value sc_fmt scalar_data_bytes].
    now rewrite single_alike by exact P.
  - apply ok_inj in H as <-. cbn in D. apply ok_inj in D. injection D as <-. apply S. reflexivity.
  - apply ok_inj in H as <-. cbn in D. apply ok_inj in D. injection D as <-. apply S. reflexivity.
  - apply (A a). exact H.
  - destruct (zlen l =? 0); [apply (A _ H)|]. destruct (forallb _ _); [apply (A _ H)|]. destruct (forallb _ _); discriminate H.
Qed.

(** ** Records and files *)

Lemma record_there r d : Forall (fun p : pystr * item => forall v, snd p = IPlain v -> proper v) r -> record2dmap r = Ok d ->
  exists r', record2dict d = Ok r' /\ Forall2 field_back r r' /\
  exists d', record2dmap r' = Ok d' /\ record2dict d' = Ok r' /\ Forall2 same_layout d d' /\ Forall2 written_alike d d'.
Proof.
  revert d. induction r as [|[k it] r IH]; intros d P H; cbn [record2dmap] in H.
  - apply ok_inj in H as <-. exists []. split; [reflexivity|]. split; [constructor|].
    exists []. repeat split; constructor.
  - inversion P as [|? ? P1 P2]; subst. cbn [snd] in P1.
    apply rbind_ok in H as (x & E1 & H). apply rbind_ok in H as (y & E2 & H). apply ok_inj in H as <-.
    destruct (IH y P2 E2) as (r' & R1 & R2 & d' & R3 & R4 & R5 & R6).
    destruct it as [s|a|v]; [discriminate E1|discriminate E1|]. specialize (P1 v eq_refl).
    destruct (field_there k v x P1 E1) as (w & F1 & F2).
    destruct (field_again k v x w P1 E1 F1) as (x' & G1 & G2 & G3 & G4).
    exists ((k, IPlain w) :: r'). cbn [record2dict record2dmap]. rewrite F1, R1. cbn [rbind].
    split; [reflexivity|]. split.
    { apply Forall2_cons; [|exact R2]. split; [reflexivity|]. cbn [snd]. eauto 6. }
    exists ((k, x') :: d'). rewrite G1, R3. cbn [rbind record2dict]. rewrite G2, R4. cbn [rbind]. repeat split; constructor; auto.
Qed.

Lemma dicts_there rs ds : proper_dicts rs -> dict2dmap rs = Ok ds ->
  exists rs', dmap2dict ds = Ok rs' /\ Forall2 (Forall2 field_back) rs rs' /\
  exists ds', dict2dmap rs' = Ok ds' /\ dmap2dict ds' = Ok rs' /\ Forall2 (Forall2 same_layout) ds ds' /\ Forall2 (Forall2 written_alike) ds ds'.
Proof.
  unfold proper_dicts. revert ds. induction rs as [|r rs IH]; intros ds P H; cbn [dict2dmap] in H.
  - apply ok_inj in H as <-. exists []. split; [reflexivity|]. split; [constructor|].
    exists []. repeat split; constructor.
  - inversion P as [|? ? P1 P2]; subst.
    apply rbind_ok in H as (x & E1 & H). apply rbind_ok in H as (y & E2 & H). apply ok_inj in H as <-.
    destruct (IH y P2 E2) as (r' & R1 & R2 & d' & R3 & R4 & R5 & R6).
    destruct (record_there r x P1 E1) as (q & F1 & F2 & x' & G1 & G2 & G3 & G4).
    exists (q :: r'). cbn [dmap2dict dict2dmap]. rewrite F1, R1. cbn [rbind].
    split; [reflexivity|]. split; [constructor; auto|].
    exists (x' :: d'). rewrite G1, R3. cbn [rbind dmap2dict]. rewrite G2, R4. cbn [rbind]. repeat split; constructor; auto.
Qed.

Lemma alike_fields r r' : Forall2 written_alike r r' -> fst (fields_to_bytes r') = fst (fields_to_bytes r).
Proof.
  intros H. induction H as [|[k it] [k' it'] r r' [HK HI] H IH]; auto. cbn [fst snd] in *. subst k'.
  cbn [fields_to_bytes].
  destruct it as [s|a|v], it' as [s'|a'|v']; try contradiction.
  - rewrite HI. destruct (dmap_scalar_to_bytes s); [|reflexivity].
    destruct (fields_to_bytes r') as [[[[? ?] ?]|] ?], (fields_to_bytes r) as [[[[? ?] ?]|] ?]; cbn [fst] in IH;
      try discriminate IH; injection IH; intros; subst; reflexivity.
  - subst a'. destruct (dmap_array_to_bytes a) as [[b|e] x]; [|reflexivity].
    destruct (fields_to_bytes r') as [[[[? ?] ?]|] ?], (fields_to_bytes r) as [[[[? ?] ?]|] ?]; cbn [fst] in IH;
      try discriminate IH; injection IH; intros; subst; reflexivity.
Qed.

Lemma alike_record r r' : Forall2 written_alike r r' ->
  fst (dmap_record_to_bytes r') = fst (dmap_record_to_bytes r).
Proof.
  intros H. apply alike_fields in H. unfold dmap_record_to_bytes.
  destruct (fields_to_bytes r') as [[[[? ?] ?]|] ?], (fields_to_bytes r) as [[[[? ?] ?]|] ?]; cbn [fst] in H;
    try discriminate H; injection H; intros; subst; reflexivity.
Qed.

Lemma alike_records rs rs' : Forall2 (Forall2 written_alike) rs rs' -> forall acc,
  fst (dmap_records_to_bytes acc rs') = fst (dmap_records_to_bytes acc rs).
Proof.
  intros H. induction H as [|r r' rs rs' Hr H IH]; intros acc; auto. cbn [dmap_records_to_bytes].
  assert (HX : record_rest r' = record_rest r) by (unfold record_rest; now rewrite (alike_fields _ _ Hr)).
  apply alike_record in Hr. rewrite HX.
  destruct (dmap_record_to_bytes r') as [[b'|e'] x'], (dmap_record_to_bytes r) as [[b|e] x]; cbn [fst] in *;
    try discriminate Hr; injection Hr; intros; subst; try reflexivity.
  specialize (IH (acc ++ b)).
  destruct (dmap_records_to_bytes (acc ++ b) rs') as [[? ?] ?], (dmap_records_to_bytes (acc ++ b) rs) as [[? ?] ?].
  cbn [fst] in *. congruence.
Qed.

Lemma alike_write rs rs' : Forall2 (Forall2 written_alike) rs rs' -> dmap_write rs' = dmap_write rs.
Proof.
  intros H.
  assert (C : check_dmap_dict rs = Ok rs /\ check_dmap_dict rs' = Ok rs').
  { destruct H as [|r r' rs rs' Hr H]; [split; reflexivity|]. destruct Hr as [|[k it] [k' it'] r r' [HK HI] Hr]; [split; reflexivity|].
    cbn [snd] in HI. destruct it, it'; try contradiction; split; reflexivity. }
  destruct C as [C1 C2]. unfold dmap_write, writer_new. rewrite C1, C2. cbn [rbind].
  pose proof (alike_records _ _ H []) as HR.
  destruct H as [|r r' x x' Hr H]; [reflexivity|].
  cbv beta iota zeta delta [write_dmap_stream empty_record_check wr_records wr_filename wr_bytearr].
  destruct (dmap_records_to_bytes [] (r :: x)) as [[? ?] ?], (dmap_records_to_bytes [] (r' :: x')) as [[? ?] ?].
  cbn [fst] in *. injection HR; intros; subst. reflexivity.
Qed.

(** ** Values without a DMAP type *)

Lemma field_verdict k it : ~ left_out it ->
  (supported it /\ exists x, field2dmap k it = Ok x) \/ (~ supported it /\ field2dmap k it = Raise KeyError).
Proof.
  intros L. destruct it as [s|a|v]; cbn [supported field2dmap].
  - right. split; [tauto|reflexivity].
  - right. split; [tauto|reflexivity].
  - assert (A : forall a, plain_dtype (nd_dtype a) = None /\ array_item k a = Raise KeyError \/
                  plain_dtype (nd_dtype a) <> None /\ exists x, array_item k a = Ok x).
    { intros a. unfold array_item. replace (dtype_format (nd_dtype a)) with (plain_dtype (nd_dtype a)) by (symmetry; apply plain_dtype_eq). destruct (plain_dtype (nd_dtype a)) as [f|]; [right|left]; split; eauto; discriminate. }
    destruct v; cbn [value_format]; try (left; split; [exact I|eauto]; fail).
    + destruct (A a) as [[A1 A2]|[A1 A2]]; [right|left]; split; auto; congruence.
    + assert (F : forall z, (int_min true 8 <=? z) && (z <=? int_max true 8) = true <-> fits true 8 z).
      { intros z. unfold fits. cbn. lia. }
      destruct (zlen l =? 0) eqn:Z0.
      { left. destruct l as [|z l]; [|rewrite zlen_cons in Z0; pose proof (zlen_nonneg l); lia]. split; [constructor|eexists; reflexivity]. }
      destruct (forallb (fun z => (int_min true 8 <=? z) && (z <=? int_max true 8)) l) eqn:E.
      { left. split; [|eexists; reflexivity]. apply Forall_forall. rewrite forallb_forall in E. intros z Hz. apply F. now apply E. }
      assert (NS : ~ Forall (fits true 8) l).
      { intros C. rewrite Forall_forall in C. enough (forallb (fun z => (int_min true 8 <=? z) && (z <=? int_max true 8)) l = true) by congruence.
        apply forallb_forall. intros z Hz. apply F. now apply C. }
      right. split; [exact NS|].
      destruct (forallb (fun z => (int_min true 8 <=? z) && (z <=? int_max false 8)) l) eqn:E2; [|reflexivity].
      exfalso. apply L. exists l. split; [reflexivity|]. rewrite forallb_forall in E2.
      assert (B : Forall (fun z => - 2 ^ 63 <= z < 2 ^ 64) l).
      { apply Forall_forall. intros z Hz. apply E2 in Hz. cbn in Hz. lia. }
      split; [exact B|]. destruct (Exists_dec (fun z => 2 ^ 63 <= z) l) as [X|X]; [intros z; destruct (Z_le_dec (2 ^ 63) z); auto|exact X|].
      exfalso. apply NS. apply Forall_forall. intros z Hz. rewrite Forall_forall in B. specialize (B z Hz).
      assert (~ 2 ^ 63 <= z) by (intros C; apply X; apply Exists_exists; eauto). unfold fits. cbn. lia.
    + right. split; [tauto|reflexivity].
Qed.

Lemma record_verdict r : Forall (fun p : pystr * item => ~ left_out (snd p)) r ->
  (Forall (fun p : pystr * item => supported (snd p)) r /\ exists d, record2dmap r = Ok d) \/
  (Exists (fun p : pystr * item => ~ supported (snd p)) r /\ record2dmap r = Raise KeyError).
Proof.
  intros H. induction H as [|[k it] r P H IH]; cbn [record2dmap].
  - left. split; [constructor|eauto].
  - cbn [snd] in P. destruct (field_verdict k it P) as [(S & x & E)|(S & E)]; rewrite E; cbn [rbind].
    + destruct IH as [(I1 & d & I2)|(I1 & I2)]; rewrite I2; cbn [rbind].
      * left. split; [constructor; auto|eauto].
      * right. split; [now apply Exists_cons_tl|reflexivity].
    + right. split; [now apply Exists_cons_hd|reflexivity].
Qed.

Lemma dicts_verdict rs : Forall (Forall (fun p : pystr * item => ~ left_out (snd p))) rs ->
  (Forall (Forall (fun p : pystr * item => supported (snd p))) rs /\ exists ds, dict2dmap rs = Ok ds) \/
  (Exists (Exists (fun p : pystr * item => ~ supported (snd p))) rs /\ dict2dmap rs = Raise KeyError).
Proof.
  intros H. induction H as [|r rs P H IH]; cbn [dict2dmap].
  - left. split; [constructor|eauto].
  - destruct (record_verdict r P) as [(S & x & E)|(S & E)]; rewrite E; cbn [rbind].
    + destruct IH as [(I1 & d & I2)|(I1 & I2)]; rewrite I2; cbn [rbind].
      * left. split; [constructor; auto|eauto].
      * right. split; [now apply Exists_cons_tl|reflexivity].
    + right. split; [now apply Exists_cons_hd|reflexivity].
Qed.

Lemma plain_given rs1 r1 k v r2 rs2 ds : dmap2dict (rs1 ++ [r1]) = Ok ds ->
  dmap2dict (rs1 ++ (r1 ++ (k, IPlain v) :: r2) :: rs2) = Raise AttributeError.
Proof.
  revert ds. induction rs1 as [|r rs1 IH]; intros ds H; cbn [app dmap2dict] in *.
  - apply rbind_ok in H as (x & E & _).
    assert (R : record2dict (r1 ++ (k, IPlain v) :: r2) = Raise AttributeError).
    { clear - E. revert x E. induction r1 as [|[k' it] r1 IH]; intros x E; cbn [app record2dict] in *; [reflexivity|].
      apply rbind_ok in E as (y & E1 & E). apply rbind_ok in E as (w & E2 & E). rewrite E1. cbn [rbind]. now rewrite (IH _ E2). }
    now rewrite R.
  - apply rbind_ok in H as (x & E1 & H). apply rbind_ok in H as (y & E2 & H). rewrite E1. cbn [rbind]. now rewrite (IH _ E2).
Qed.

Lemma dicts_again rs ds rs' : proper_dicts rs -> dict2dmap rs = Ok ds -> dmap2dict ds = Ok rs' ->
  exists ds', dict2dmap rs' = Ok ds' /\ Forall2 (Forall2 same_layout) ds ds' /\
    dmap2dict ds' = Ok rs' /\ dmap_write ds' = dmap_write ds.
Proof.
  intros P H D. destruct (dicts_there rs ds P H) as (q & H1 & _ & ds' & H2 & H3 & H4 & H5).
  rewrite H1 in D. apply ok_inj in D as <-. exists ds'. split; [exact H2|]. split; [exact H4|]. split; [exact H3|]. now apply alike_write.
Qed.

Lemma dicts_refused rs : Forall (Forall (fun p : pystr * item => ~ left_out (snd p))) rs ->
  (dict2dmap rs = Raise KeyError <-> Exists (Exists (fun p : pystr * item => ~ supported (snd p))) rs) /\
  (forall e, dict2dmap rs = Raise e -> e = KeyError).
Proof.
  intros H. destruct (dicts_verdict rs H) as [(S & ds & E)|(S & E)]; rewrite E.
  - split; [|discriminate]. split; [discriminate|]. intros X. exfalso. apply Exists_exists in X as (r & Hr & X).
    apply Exists_exists in X as (p & Hp & X). rewrite Forall_forall in S. specialize (S r Hr). rewrite Forall_forall in S.
    apply X. now apply S.
  - split; [tauto|]. intros e X. injection X as X. now rewrite <- X.
Qed.
