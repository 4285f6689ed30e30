(** Integer and float scalars, and the conversions between DMAP records and
    plain dictionaries. *)
From Coq Require Import ZArith List Bool Lia ZifyBool ZifyNat.
From Verif Require Import Base Bytes BytesSpec BytesProofs Utf8 Utf8Proofs FloatBits FloatBitsProofs
  DmapTypes DmapRead DmapWrite Conversions DmapSpec DmapReadProofs DmapFileProofs DmapStreamProofs
  DmapWriteSpec DmapWriteProofs DmapWriterProofs DmapRewriteProofs DmapWriteFacts DmapObjectProofs.
Import ListNotations.
Open Scope Z_scope.
Ltac Zify.zify_post_hook ::= Z.div_mod_to_equations.

(** ** Integer scalars *)

Lemma pack_int_cases s n z : (0 < n)%nat ->
  (forall bs, pack_int s n z = Ok bs <-> wire_int s n z bs) /\
  (~ fits s n z -> pack_int s n z = Raise StructError).
Proof.
  intros Hn. split.
  - intros bs. split; [|now apply wire_int_pack].
    intros H. apply pack_int_inv in H as [-> HR]. apply wire_int_enc; auto. now apply fits_iff.
  - intros HF. unfold pack_int. destruct (_ && _) eqn:E; auto. exfalso. apply HF.
    apply fits_iff; auto. lia.
Qed.

Lemma int_scalar_bytes f v z :
  In f [Fh; Fi; Fq; FB; FH; FI; FQ] -> int_of v = Some z ->
  scalar_data_bytes f v = pack_int (wire_signed f) (wire_size f) z.
Proof.
  intros HI HV. destruct v; cbn in HV; try discriminate; injection HV as ->;
    cbn [In] in HI; decompose [or] HI; subst; try reflexivity; tauto.
Qed.

(** ** Float scalars *)

Lemma le_dec32 bs : length bs = 4%nat -> Forall is_byte bs -> 0 <= le_dec bs < 2 ^ 32.
Proof. intros HL HB. pose proof (le_dec_range bs HB) as H. rewrite HL in H. exact H. Qed.

Lemma float_rewrite bs :
  length bs = 4%nat -> Forall is_byte bs ->
  exists bs', scalar_data_bytes Ff (VFloat (widen (le_num bs))) = Ok bs' /\
    length bs' = 4%nat /\ Forall is_byte bs' /\
    le_num bs' = if f32_snan (le_num bs) then le_num bs + 2 ^ 22 else le_num bs.
Proof.
  intros HL HB. rewrite le_num_dec. pose proof (le_dec32 bs HL HB) as HR.
  cbn [scalar_data_bytes]. eexists. split; [reflexivity|]. split; [apply le_enc_length|].
  split; [apply le_enc_bytes|]. rewrite !le_num_dec, le_dec_enc.
  rewrite (narrow_widen_gen (le_dec bs)) by auto.
  destruct (f32_snan (le_dec bs)) eqn:E.
  - assert (HQ : 0 <= le_dec bs + 2 ^ 22 < 2 ^ 32 /\ f32_snan (le_dec bs + 2 ^ 22) = false).
    { pose proof (narrow_range (widen (le_dec bs)) (widen_range _ HR)) as HN.
      rewrite narrow_widen_gen, E in HN by auto. exact HN. }
    rewrite narrow_widen_gen by apply HQ. destruct HQ as [HQ1 ->].
    apply Z.mod_small. exact HQ1.
  - rewrite narrow_widen_gen, E by auto. apply Z.mod_small. exact HR.
Qed.

(** ** What a reader can return *)

Definition wire_item (p : pystr * item) : Prop :=
  (exists s bs, p = (sc_name s, IScalar s) /\ wire_scalar s bs) \/
  (exists blk a bs, p = (ar_name a, IArray a) /\ wire_array blk a bs).

Lemma wire_list_in {A} (R : A -> bytes -> Prop) l bs x :
  wire_list R l bs -> In x l -> exists b, R x b.
Proof. intros H. induction H; cbn; [tauto|]. intros [->|HI]; eauto. Qed.

Lemma dict_of_block_in b r k it : dict_of_block b r -> In (k, it) r -> In (k, it) (block_fields b).
Proof.
  intros [HK HV] Ha.
  assert (HND : NoDup (map fst r)) by (rewrite HK; apply first_occurrences_NoDup).
  assert (HG : dict_get r k = Some it).
  { clear - HND Ha. induction r as [|[k' v] r IH]; [destruct Ha|]. cbn [dict_get].
    cbn [map fst] in HND. inversion HND as [|? ? HNI HND2]; subst.
    destruct Ha as [[= -> ->]|Ha]; [now rewrite str_eqb_refl|].
    destruct (str_eqb k' k) eqn:E; [|auto]. apply str_eqb_eq in E. subst.
    exfalso. apply HNI. apply in_map_iff. exists (k, it). auto. }
  rewrite HV in HG. clear - HG. unfold last_value in HG.
  assert (HGen : forall l acc, fold_left (fun acc p => if str_eqb (fst p) k then Some (snd p) else acc) l acc
    = Some it -> In (k, it) l \/ acc = Some it).
  { induction l as [|[k' v] l IH]; intros acc H; cbn [fold_left fst snd] in H; auto.
    apply IH in H as [H|H]; [left; cbn; auto|]. destruct (str_eqb k' k) eqn:E; auto.
    apply str_eqb_eq in E. subst. left. left. congruence. }
  apply HGen in HG as [HG|HG]; [auto|discriminate].
Qed.

Lemma read_wire_items buf rs :
  is_bytearray buf -> ~ negative_slist buf -> dmap_read buf = Ok rs ->
  Forall (Forall wire_item) rs.
Proof.
  intros HB HN HR. destruct (read_sound _ _ HB HN HR) as (bl & HW & HD).
  assert (HX : Forall2 (fun b r => (exists id x, wire_block id b x) /\ dict_of_block b r) bl rs).
  { clear - HW HD. revert rs HD. induction HW as [|b bl x xs [id Hb] HW IH]; intros rs HD;
      inversion HD; subst; constructor; eauto. }
  clear - HX. induction HX as [|b r bl rs [(id & x & HB) HD] HX IH]; constructor; auto.
  apply Forall_forall. intros [k it] HI. apply (dict_of_block_in b) in HI; auto.
  destruct HB as [ss aa szb nsb nab sb ab Hid HB' HS0 HA0 W1 W2 W3 HSw HAw].
  unfold block_fields in HI. cbn [fst snd] in HI.
  apply in_app_iff in HI as [HI|HI]; apply in_map_iff in HI as (y & HE & HI).
  - left. apply (wire_list_in _ _ _ _ HSw) in HI as [bs HI]. eauto.
  - right. apply (wire_list_in _ _ _ _ HAw) in HI as [bs HI]. eauto.
Qed.

(** ** dmap2dict and back *)

Lemma code_type f : dmap_format_types f = wire_code f.
Proof. destruct f; reflexivity. Qed.

Lemma cast_int f t z : cast_value f (VInt z) = np_int t (VInt z) -> - 2 ^ 63 <= z < np_limit t ->
  cast_value f (VInt z) = Ok (VNpInt t (np_wrap t z)).
Proof.
  intros -> H. cbn [np_int]. now replace ((z <? - 2 ^ 63) || (np_limit t <=? z)) with false by lia.
Qed.

Lemma scalar_there_back s bs : wire_scalar s bs ->
  exists v, field2dict (IScalar s) = Ok (IPlain v) /\
  exists s', field2dmap (sc_name s) (IPlain v) = Ok (IScalar s') /\ item_kept (IScalar s) (IScalar s').
Proof.
  intros [name f v nb vb _ HV]. cbn [field2dict sc_fmt sc_value sc_name].
  destruct HV as [b Hb|t bs' HT|bs' HL HB|bs' HL HB|f z bs' HI HW].
  - unfold is_byte in Hb. rewrite (cast_int Fc NI8) by (try reflexivity; cbn; lia). cbn [rbind].
    eexists. split; [reflexivity|]. eexists. split; [reflexivity|].
    cbn. splits; auto. unfold to_signed, wrap_mod. cbn. rewrite Z.mod_small by lia.
    destruct (b <? 128) eqn:E; auto.
  - eexists. split; [reflexivity|]. eexists. split; [reflexivity|]. cbn. auto.
  - eexists. split; [reflexivity|]. eexists. split; [reflexivity|]. cbn. auto.
  - eexists. split; [reflexivity|]. eexists. split; [reflexivity|]. cbn. auto.
  - destruct HW as (_ & _ & HF & _).
    cbn [In] in HI. decompose [or] HI; subst; try tauto; clear HI; cbn in HF;
      try match goal with |- context [cast_value ?f _] =>
        let t := match f with Fh => constr:(NI16) | Fq => constr:(NI64) | FB => constr:(NU8) | FH => constr:(NU16)
                 | FI => constr:(NU32) | FQ => constr:(NU64) end in
        rewrite (cast_int f t) by (try reflexivity; cbn; lia) end;
      cbn [rbind];
      (eexists; split; [reflexivity|]; eexists; split; [reflexivity|]; cbn [item_kept sc_name sc_type sc_fmt sc_value value_kept];
       splits; auto); cbn [np_wrap]; try (apply Z.mod_small; lia);
      unfold to_signed, wrap_mod; cbn [Z.of_nat];
      match goal with |- (if ?x then _ else _) = _ => destruct x eqn:E end; cbn in E; lia.
Qed.

Lemma array_there_back blk a bs : wire_array blk a bs ->
  field2dict (IArray a) = Ok (IPlain (VArr (ar_value a))) /\
  field2dmap (ar_name a) (IPlain (VArr (ar_value a))) =
    if long_array (IArray a) then Raise KeyError else Ok (IArray a).
Proof.
  intros [name f dims data nb db sb eb HT Hf _ _ _ _ _ _]. split; [reflexivity|].
  destruct f; try reflexivity. congruence.
Qed.

Definition has_long (rs : list record) : bool :=
  existsb (fun r => existsb (fun p => long_array (snd p)) r) rs.

Lemma record_there_back r : Forall wire_item r ->
  exists d, record2dict r = Ok d /\
    if existsb (fun p => long_array (snd p)) r then record2dmap d = Raise KeyError
    else exists r', record2dmap d = Ok r' /\ record_kept r r'.
Proof.
  induction r as [|p r IH]; intros H.
  - exists []. split; [reflexivity|]. cbn. exists []. split; auto. constructor.
  - inversion H as [|? ? Hp Hr]; subst. destruct (IH Hr) as (d & Hd & HX).
    destruct Hp as [(s & bs & -> & Hs)|(blk & a & bs & -> & Ha)].
    + destruct (scalar_there_back _ _ Hs) as (v & Hv & s' & Hs' & HK).
      exists ((sc_name s, IPlain v) :: d). cbn [record2dict]. rewrite Hv, Hd. cbn [rbind].
      split; auto. cbn [existsb snd long_array orb record2dmap]. rewrite Hs'. cbn [rbind].
      destruct (existsb _ r).
      * now rewrite HX.
      * destruct HX as (r' & -> & HR). cbn [rbind]. eexists. split; [reflexivity|].
        constructor; auto.
    + destruct (array_there_back _ _ _ Ha) as [Hv Hb].
      exists ((ar_name a, IPlain (VArr (ar_value a))) :: d). cbn [record2dict]. rewrite Hv, Hd. cbn [rbind].
      split; auto. cbn [existsb snd record2dmap]. rewrite Hb.
      destruct (long_array (IArray a)); [reflexivity|]. cbn [orb rbind].
      destruct (existsb _ r).
      * now rewrite HX.
      * destruct HX as (r' & -> & HR). cbn [rbind]. eexists. split; [reflexivity|].
        constructor; auto. cbn. auto.
Qed.

Lemma there_and_back rs : Forall (Forall wire_item) rs ->
  exists ds, dmap2dict rs = Ok ds /\
    if has_long rs then dict2dmap ds = Raise KeyError
    else exists rs', dict2dmap ds = Ok rs' /\ Forall2 record_kept rs rs'.
Proof.
  induction rs as [|r rs IH]; intros H.
  - exists []. split; [reflexivity|]. cbn. exists []. split; auto.
  - inversion H as [|? ? Hr Hrs]; subst. destruct (IH Hrs) as (ds & Hd & HX).
    destruct (record_there_back r Hr) as (d & Hd1 & HX1).
    exists (d :: ds). cbn [dmap2dict]. rewrite Hd1, Hd. cbn [rbind]. split; auto.
    cbn [has_long existsb dict2dmap] in *. fold (has_long rs).
    destruct (existsb _ r); [now rewrite HX1|]. destruct HX1 as (r' & -> & HR). cbn [orb rbind].
    destruct (has_long rs); [now rewrite HX|]. destruct HX as (rs' & -> & HRs). cbn [rbind].
    eexists. split; [reflexivity|]. constructor; auto.
Qed.

Lemma has_long_iff rs : has_long rs = true <-> exists r p, In r rs /\ In p r /\ long_array (snd p) = true.
Proof.
  unfold has_long. rewrite existsb_exists. split.
  - intros (r & Hr & H). apply existsb_exists in H as (p & Hp & H). eauto.
  - intros (r & p & Hr & Hp & H). exists r. split; auto. apply existsb_exists. eauto.
Qed.

(** ** Detection of plain dictionaries *)

Lemma check_cases rs :
  ((forall v, first_value rs <> Some (IPlain v)) -> check_dmap_dict rs = Ok rs) /\
  (forall v, first_value rs = Some (IPlain v) -> check_dmap_dict rs = dict2dmap rs).
Proof.
  destruct rs as [|[|[k [s|a|v]] r] rs]; cbn [first_value check_dmap_dict];
    (split; [intros H|intros w H]); auto; try discriminate H. now destruct (H v).
Qed.

Definition all_dmap (rs : list record) : Prop :=
  Forall (Forall (fun p : pystr * item => forall v, snd p <> IPlain v)) rs.

Lemma dict2dmap_dmap rs rs' : dict2dmap rs = Ok rs' -> all_dmap rs' /\ map (map fst) rs' = map (map fst) rs /\
  Forall (Forall (fun p : pystr * item => exists v, snd p = IPlain v)) rs.
Proof.
  assert (HR : forall r r', record2dmap r = Ok r' ->
    Forall (fun p : pystr * item => forall v, snd p <> IPlain v) r' /\ map fst r' = map fst r /\
    Forall (fun p : pystr * item => exists v, snd p = IPlain v) r).
  { induction r as [|[k it] r IH]; intros r' H; cbn [record2dmap] in H.
    - injection H as <-. splits; constructor.
    - inv_rbind H it'. inv_rbind H rest. injection H as <-.
      match goal with HF : record2dmap _ = Ok _ |- _ => destruct (IH _ HF) as (G1 & G2 & G3) end.
      match goal with HF : field2dmap _ _ = Ok _ |- _ => rename HF into HF0 end.
      splits.
      + constructor; auto. cbn [snd]. intros v ->. clear - HF0.
        destruct it as [s|a|v0]; try discriminate. cbn [field2dmap] in HF0.
        assert (HA : forall x, array_item k x <> Ok (IPlain v)).
        { intros x. unfold array_item. destruct (dtype_format _); discriminate. }
        destruct v0; cbn [value_format] in HF0; try discriminate; try (eapply HA; eassumption).
        destruct (_ =? _); [eapply HA; eassumption|]. destruct (forallb _ _); [eapply HA; eassumption|].
        destruct (forallb _ _); discriminate.
      + cbn [map fst]. congruence.
      + constructor; auto. cbn [snd]. destruct it as [s|a|v0]; try discriminate. eauto. }
  revert rs'. induction rs as [|r rs IH]; intros rs' H; cbn [dict2dmap] in H.
  - injection H as <-. splits; constructor.
  - inv_rbind H r'. inv_rbind H rest. injection H as <-.
    match goal with HF : record2dmap _ = Ok _ |- _ => apply HR in HF as (G1 & G2 & G3) end.
    match goal with HF : dict2dmap _ = Ok _ |- _ => apply IH in HF as (G4 & G5 & G6) end.
    splits; [constructor; auto| |constructor; auto]. cbn [map]. congruence.
Qed.

Lemma plain_in_dmap_record r1 k v r2 bl :
  Forall2 (fun p b => item_bytes (snd p) = Ok b) r1 bl ->
  fst (dmap_record_to_bytes (r1 ++ (k, IPlain v) :: r2)) = Raise DmapTypeError.
Proof.
  intros H. unfold dmap_record_to_bytes.
  assert (HF : fst (fields_to_bytes (r1 ++ (k, IPlain v) :: r2)) = Raise DmapTypeError).
  { induction H as [|[k' it] b r1 bl Hb H IH]; [reflexivity|]. cbn [app fields_to_bytes].
    destruct it as [s|a|w]; cbn [snd item_bytes] in Hb; [| |discriminate].
    - rewrite Hb. destruct (fields_to_bytes (r1 ++ (k, IPlain v) :: r2)) as [x y]. cbn [fst] in IH.
      rewrite IH. reflexivity.
    - destruct (dmap_array_to_bytes a) as [x y]. cbn [fst] in Hb. rewrite Hb.
      destruct (fields_to_bytes (r1 ++ (k, IPlain v) :: r2)) as [x' y']. cbn [fst] in IH.
      rewrite IH. reflexivity. }
  destruct (fields_to_bytes _) as [x y]. cbn [fst] in HF. rewrite HF. reflexivity.
Qed.

Lemma plain_in_dmap rs1 r1 k v r2 rs2 xs bl :
  Forall2 (fun r b => dmap_record_to_bytes r = (Ok b, record_after r)) rs1 xs ->
  Forall2 (fun p b => item_bytes (snd p) = Ok b) r1 bl ->
  (forall w, first_value (rs1 ++ (r1 ++ (k, IPlain v) :: r2) :: rs2) <> Some (IPlain w)) ->
  dmap_write (rs1 ++ (r1 ++ (k, IPlain v) :: r2) :: rs2) = Raise DmapTypeError.
Proof.
  intros HA HB HF. unfold dmap_write, writer_new.
  rewrite (proj1 (check_cases _)) by exact HF. cbn [rbind].
  set (R := r1 ++ (k, IPlain v) :: r2) in *.
  assert (HD : forall acc, fst (fst (dmap_records_to_bytes acc (rs1 ++ R :: rs2))) = Raise DmapTypeError).
  { clear HF. induction HA as [|r b rs1 xs Hb HA IH]; intros acc; cbn [app dmap_records_to_bytes].
    - pose proof (plain_in_dmap_record r1 k v r2 bl HB) as HR. fold R in HR.
      destruct (dmap_record_to_bytes R) as [x y]. cbn [fst] in HR. rewrite HR. reflexivity.
    - rewrite Hb. specialize (IH (acc ++ b)).
      destruct (dmap_records_to_bytes (acc ++ b) (rs1 ++ R :: rs2)) as [[x y] z]. exact IH. }
  specialize (HD []). destruct (rs1 ++ R :: rs2) as [|r0 rs0] eqn:E; [destruct rs1; discriminate|].
  cbv beta iota zeta delta [write_dmap_stream empty_record_check wr_records wr_filename wr_bytearr].
  destruct (dmap_records_to_bytes [] (r0 :: rs0)) as [[x y] z]. cbn [fst] in *. now rewrite HD.
Qed.

Lemma dmap_in_plain_record r1 k it r2 d1 :
  record2dmap r1 = Ok d1 -> (forall v, it <> IPlain v) -> record2dmap (r1 ++ (k, it) :: r2) = Raise KeyError.
Proof.
  intros H HI. revert d1 H; induction r1 as [|[k' it'] r1 IH]; intros d1 H; cbn [app record2dmap] in *.
  - destruct it as [s|a|v]; try reflexivity. now destruct (HI v).
  - inv_rbind H x. inv_rbind H y. match goal with HF : field2dmap _ _ = Ok _ |- _ => rewrite HF end.
    cbn [rbind]. now erewrite IH by eauto.
Qed.

Lemma dmap_in_plain rs1 r1 k it r2 rs2 ds1 d1 v :
  dict2dmap rs1 = Ok ds1 -> record2dmap r1 = Ok d1 -> (forall w, it <> IPlain w) ->
  first_value (rs1 ++ (r1 ++ (k, it) :: r2) :: rs2) = Some (IPlain v) ->
  dmap_write (rs1 ++ (r1 ++ (k, it) :: r2) :: rs2) = Raise KeyError.
Proof.
  intros H1 H2 HI HF. unfold dmap_write, writer_new. rewrite (proj2 (check_cases _) _ HF).
  assert (HD : dict2dmap (rs1 ++ (r1 ++ (k, it) :: r2) :: rs2) = Raise KeyError).
  { clear HF. revert ds1 H1. induction rs1 as [|r rs1 IH]; intros ds1 H1; cbn [app dict2dmap] in *.
    - now rewrite (dmap_in_plain_record _ _ _ _ _ H2 HI).
    - inv_rbind H1 x. inv_rbind H1 y.
      match goal with HF : record2dmap _ = Ok _ |- _ => rewrite HF end. cbn [rbind].
      now erewrite IH by eauto. }
  now rewrite HD.
Qed.

(** ** Representable plain dictionaries *)

Lemma plain_fmt_eq v : value_format v = plain_fmt v.
Proof. destruct v as [|[]| | | | | | |]; reflexivity. Qed.
Lemma plain_dtype_eq d : dtype_format d = plain_dtype d.
Proof. destruct d; reflexivity. Qed.

Lemma dict_scalars_back rs ss : Forall2 dict_scalar_back rs ss ->
  exists ss0, record2dmap rs = Ok (map (fun s => (sc_name s, IScalar s)) ss0) /\
    Forall2 scalar_back ss0 ss /\ map scalar_bytes ss0 = map scalar_bytes ss /\
    map sc_name ss0 = map fst rs.
Proof.
  intros H. induction H as [|p s rs ss Hp H (ss0 & IH1 & IH2 & IH3 & IH4)].
  - exists []. splits; auto.
  - destruct Hp as [k v f w HK HF HR].
    exists (mk_dscalar k v (wire_code f) f :: ss0). cbn [record2dmap].
    assert (HX : field2dmap k (IPlain v) = Ok (IScalar (mk_dscalar k v (wire_code f) f))).
    { rewrite <- plain_fmt_eq in HF. rewrite <- (code_type f).
      destruct v; try discriminate HF; cbn [field2dmap]; rewrite HF; reflexivity. }
    rewrite HX, IH1. cbn [rbind map sc_name fst]. splits; auto.
    + constructor; auto. now constructor.
    + rewrite IH3. f_equal. unfold scalar_bytes. cbn [sc_name sc_value sc_fmt].
      clear - HR. destruct HR as [v z HI HZ|f v z HIn HI HF|s HP|b v Hb HS HV|b v Hb HV|b Hb]; auto.
      * destruct v; cbn in HI; try discriminate; reflexivity.
      * destruct v; cbn in HI; try discriminate; reflexivity.
      * cbn [In] in HV. decompose [or] HV; subst; try tauto; reflexivity.
      * cbn [In] in HV. decompose [or] HV; subst; try tauto; reflexivity.
    + now rewrite IH4.
Qed.

Lemma dict_arrays_back blk rs aa : Forall2 (dict_array_back blk) rs aa ->
  exists aa0, record2dmap rs = Ok (map (fun a => (ar_name a, IArray a)) aa0) /\
    Forall2 (array_back blk) aa0 aa /\ map array_bytes aa0 = map array_bytes aa /\
    map ar_name aa0 = map fst rs.
Proof.
  intros H. induction H as [|p a rs aa Hp H (aa0 & IH1 & IH2 & IH3 & IH4)].
  - exists []. splits; auto.
  - destruct Hp as [k d f shape data HK HD HR HS HP HF|k l HK HN HF].
    + exists (mk_darray k (mk_ndarray d false shape data) (wire_code f) f (zlen shape) shape :: aa0).
      cbn [record2dmap field2dmap]. unfold array_item. cbn [nd_dtype nd_shape].
      rewrite plain_dtype_eq, HD, IH1, code_type. cbn [rbind map ar_name fst]. splits; auto.
      * constructor; auto. constructor; auto. destruct d; try discriminate HD; injection HD as <-; cbn; auto.
      * rewrite IH3. reflexivity.
      * now rewrite IH4.
    + exists (mk_darray k (mk_ndarray DI64 false [zlen l] l) 10 Fq 1 [zlen l] :: aa0).
      cbn [record2dmap field2dmap].
      assert (HQ : forallb (fun z => (int_min true 8 <=? z) && (z <=? int_max true 8)) l = true).
      { apply forallb_forall. intros z Hz. rewrite Forall_forall in HF. apply HF in Hz.
        apply fits_iff in Hz; lia. }
      assert (HQ0 : zlen l =? 0 = false) by (destruct l; [congruence|]; rewrite zlen_cons; pose proof (zlen_nonneg l); lia).
      rewrite HQ0, HQ. unfold array_item. cbn [nd_dtype nd_shape dtype_format]. rewrite IH1.
      cbn [rbind map ar_name fst]. splits; auto.
      * constructor; auto.
        apply (array_back_intro blk k Fq DI64 [zlen l] l); auto.
        -- cbn. auto.
        -- cbv. split; congruence.
        -- left. constructor; auto. destruct l; [congruence|]. rewrite zlen_cons. pose proof (zlen_nonneg l). lia.
        -- cbn. lia.
      * rewrite IH3. reflexivity.
      * now rewrite IH4.
Qed.

Lemma record2dmap_app a b a' b' :
  record2dmap a = Ok a' -> record2dmap b = Ok b' -> record2dmap (a ++ b) = Ok (a' ++ b').
Proof.
  revert a'; induction a as [|[k it] a IH]; intros a' Ha Hb; cbn [app record2dmap] in *.
  - injection Ha as <-. exact Hb.
  - inv_rbind Ha x. inv_rbind Ha y. injection Ha as <-.
    match goal with HF : field2dmap _ _ = Ok _ |- _ => rewrite HF end. cbn [rbind].
    rewrite (IH y); auto.
Qed.

Lemma dict_back_block r b : dict_back r b ->
  exists b0, record2dmap r = Ok (block_fields b0) /\ block_back b0 b /\ block_bytes b0 = block_bytes b.
Proof.
  intros (rs & ra & -> & HS0 & HA0 & HND & HL & HS & HA).
  destruct (dict_scalars_back _ _ HS) as (ss0 & S1 & S2 & S3 & S4).
  destruct (dict_arrays_back _ _ _ HA) as (aa0 & A1 & A2 & A3 & A4).
  exists (ss0, aa0).
  assert (HE : block_bytes (ss0, aa0) = block_bytes b).
  { unfold block_bytes. cbn [fst snd]. now rewrite S3, A3. }
  splits; auto.
  - unfold block_fields. cbn [fst snd]. now apply record2dmap_app.
  - unfold block_back. rewrite HE. cbn [fst snd]. splits; auto.
    + intros ->. inversion S2. congruence.
    + intros ->. inversion A2. congruence.
    + unfold block_fields. cbn [fst snd]. rewrite map_app, !map_map. cbn [fst].
      change (map (fun x => sc_name x) ss0) with (map sc_name ss0).
      change (map (fun x => ar_name x) aa0) with (map ar_name aa0).
      rewrite S4, A4, <- map_app. exact HND.
Qed.

Lemma dict_round_trip rs bl :
  bl <> [] -> Forall2 dict_back rs bl -> file_bytes bl <= 2 ^ 63 - 1 ->
  exists bs, dmap_write rs = Ok bs /\ zlen bs = file_bytes bl /\ dmap_read bs = Ok (map block_fields bl).
Proof.
  intros HN HB HL.
  assert (HX : exists bl0, dict2dmap rs = Ok (map block_fields bl0) /\ Forall2 block_back bl0 bl /\
    file_bytes bl0 = file_bytes bl).
  { clear HN HL. induction HB as [|r b rs bl Hb HB (bl0 & IH1 & IH2 & IH3)].
    - exists []. splits; auto.
    - destruct (dict_back_block _ _ Hb) as (b0 & H1 & H2 & H3). exists (b0 :: bl0).
      cbn [dict2dmap]. rewrite H1, IH1. splits; auto.
      unfold file_bytes in *. cbn [map total fold_right]. unfold total in *. lia. }
  destruct HX as (bl0 & HD & HBB & HFB).
  assert (HN0 : bl0 <> []). { intros ->. inversion HBB; congruence. }
  destruct (round_trip bl0 bl HN0 HBB) as (bs & HW & _ & HLb & HR); [lia|].
  exists bs. splits; auto; [|lia].
  rewrite <- HW. unfold dmap_write, writer_new.
  assert (HF : exists v, first_value rs = Some (IPlain v)).
  { destruct HB as [|r b rs bl Hb HB]; [congruence|].
    destruct Hb as (r1 & r2 & -> & HS0 & _ & _ & _ & HS & _).
    destruct HS as [|p s r1 ss Hp HS]; [congruence|]. destruct Hp. cbn. eauto. }
  destruct HF as [v HF]. rewrite (proj2 (check_cases _) _ HF), HD.
  assert (HC : check_dmap_dict (map block_fields bl0) = Ok (map block_fields bl0)).
  { destruct bl0 as [|b0 bl0]; [congruence|]. apply check_dmap_dict_block.
    inversion HBB as [|? ? ? ? (H1 & _)]; auto. }
  now rewrite HC.
Qed.

(** ** Big-endian arrays *)

Lemma swapped_exists s n z : (0 < n)%nat -> fits s n z -> exists z', byte_swapped s n z z'.
Proof.
  intros Hn HF. pose proof (wire_int_enc s n z Hn HF) as HW.
  exists (unpack_int s n (rev (le_enc n z))), (le_enc n z). split; auto.
  apply wire_int_iff; auto. splits; auto.
  - now rewrite rev_length, le_enc_length.
  - apply Forall_rev. apply le_enc_bytes.
Qed.

Lemma swapped_enc d z z' :
  byte_swapped (dtype_signed d) (dtype_size d) z z' -> elem_enc d true z = elem_enc d false z'.
Proof.
  assert (Hn : (0 < dtype_size d)%nat) by (destruct d; cbn; lia).
  intros (bs & H1 & H2). unfold elem_enc.
  pose proof (wire_int_enc _ _ _ Hn (proj1 (proj2 (proj2 H1)))) as E1.
  pose proof (wire_int_enc _ _ _ Hn (proj1 (proj2 (proj2 H2)))) as E2.
  rewrite <- (wire_int_fun _ _ _ _ _ Hn H1 E1). now rewrite <- (wire_int_fun _ _ _ _ _ Hn H2 E2).
Qed.

Lemma swapped_tostring a a' : swapped_array a a' -> tostring a' = tostring a.
Proof.
  intros [->|(HD & _ & HB & HB' & HF)]; auto. unfold tostring. rewrite HD, HB, HB'. clear HD HB HB'.
  induction HF as [|z z' l l' Hz HF IH]; cbn [flat_map]; auto. f_equal; auto. symmetry. now apply swapped_enc.
Qed.

Lemma swapped_shape a a' : swapped_array a a' -> nd_dtype a' = nd_dtype a /\ nd_shape a' = nd_shape a.
Proof. intros [->|(HD & HS & _)]; auto. Qed.

Lemma swapped_array_bytes a a' : swapped_item (IArray a) (IArray a') ->
  fst (dmap_array_to_bytes a') = fst (dmap_array_to_bytes a).
Proof.
  intros (H1 & H2 & H3 & H4 & H5 & H6). pose proof (swapped_tostring _ _ H6) as HT.
  destruct (swapped_shape _ _ H6) as [HD HS].
  unfold dmap_array_to_bytes, first_is_str. rewrite H1, H2, H3, H4, H5, HS, HD, HT.
  destruct (rbind _ _); reflexivity.
Qed.

Lemma swapped_fields r r' : swapped_record r r' -> fst (fields_to_bytes r') = fst (fields_to_bytes r).
Proof.
  intros H. induction H as [|[k it] [k' it'] r r' [HK HI] H IH]; auto. cbn [fst snd] in *. subst k'.
  cbn [fields_to_bytes].
  destruct it as [s|a|v], it' as [s'|a'|v']; cbn [swapped_item] in HI; try discriminate HI;
    try (injection HI as ->).
  - destruct (dmap_scalar_to_bytes s); [|reflexivity].
    destruct (fields_to_bytes r') as [[[[? ?] ?]|] ?], (fields_to_bytes r) as [[[[? ?] ?]|] ?]; cbn [fst] in IH;
      try discriminate IH; injection IH; intros; subst; reflexivity.
  - pose proof (swapped_array_bytes a a' HI) as HA.
    destruct (dmap_array_to_bytes a') as [[b'|e'] x'], (dmap_array_to_bytes a) as [[b|e] x]; cbn [fst] in *;
      try discriminate HA; injection HA; intros; subst; try reflexivity.
    destruct (fields_to_bytes r') as [[[[? ?] ?]|] ?], (fields_to_bytes r) as [[[[? ?] ?]|] ?]; cbn [fst] in IH;
      try discriminate IH; injection IH; intros; subst; reflexivity.
  - destruct v; discriminate.
  - destruct v; discriminate.
  - reflexivity.
Qed.

Lemma swapped_record_bytes r r' : swapped_record r r' ->
  fst (dmap_record_to_bytes r') = fst (dmap_record_to_bytes r).
Proof.
  intros H. apply swapped_fields in H. unfold dmap_record_to_bytes.
  destruct (fields_to_bytes r') as [[[[? ?] ?]|] ?], (fields_to_bytes r) as [[[[? ?] ?]|] ?]; cbn [fst] in H;
    try discriminate H; injection H; intros; subst; reflexivity.
Qed.

Lemma swapped_records rs rs' : Forall2 swapped_record rs rs' -> forall acc,
  fst (dmap_records_to_bytes acc rs') = fst (dmap_records_to_bytes acc rs).
Proof.
  intros H. induction H as [|r r' rs rs' Hr H IH]; intros acc; auto. cbn [dmap_records_to_bytes].
  assert (HX : record_rest r' = record_rest r) by (unfold record_rest; now rewrite (swapped_fields _ _ Hr)).
  apply swapped_record_bytes in Hr. rewrite HX.
  destruct (dmap_record_to_bytes r') as [[b'|e'] x'], (dmap_record_to_bytes r) as [[b|e] x]; cbn [fst] in *;
    try discriminate Hr; injection Hr; intros; subst; try reflexivity.
  specialize (IH (acc ++ b)).
  destruct (dmap_records_to_bytes (acc ++ b) rs') as [[? ?] ?], (dmap_records_to_bytes (acc ++ b) rs) as [[? ?] ?].
  cbn [fst] in *. congruence.
Qed.

Definition same_res {A} (R : A -> A -> Prop) (x y : res A) : Prop :=
  match x, y with Ok a, Ok b => R a b | Raise e, Raise e' => e' = e | _, _ => False end.

Lemma swapped_refl it : swapped_item it it.
Proof.
  destruct it as [s|a|v]; cbn; auto; [splits; auto; now left|]. destruct v; auto. now left.
Qed.

Lemma swapped_field2dmap k it it' : swapped_item it it' ->
  same_res swapped_item (field2dmap k it) (field2dmap k it').
Proof.
  intros H. destruct it as [s|a|v], it' as [s'|a'|v']; cbn [swapped_item] in H; try discriminate H;
    try reflexivity; try (destruct v; discriminate).
  assert (HE : (exists a a', v = VArr a /\ v' = VArr a' /\ swapped_array a a') \/ v' = v).
  { destruct v, v'; try (left; now eauto 6); try (right; congruence). }
  destruct HE as [(a & a' & -> & -> & HS)| ->].
  - cbn [field2dmap]. unfold array_item. destruct (swapped_shape _ _ HS) as [-> HSh].
    destruct (dtype_format (nd_dtype a)); [|reflexivity]. cbn. rewrite HSh. splits; auto.
  - destruct (field2dmap k (IPlain v)); [apply swapped_refl|reflexivity].
Qed.

Lemma swapped_record2dmap r r' : swapped_record r r' ->
  same_res swapped_record (record2dmap r) (record2dmap r').
Proof.
  intros H. induction H as [|[k it] [k' it'] r r' [HK HI] H IH]; [constructor|]. cbn [fst snd] in *. subst k'.
  cbn [record2dmap]. apply (swapped_field2dmap k) in HI.
  destruct (field2dmap k it), (field2dmap k it'); cbn [rbind same_res] in *; try tauto.
  destruct (record2dmap r), (record2dmap r'); cbn [rbind same_res] in *; try tauto.
  constructor; auto.
Qed.

Lemma swapped_dict2dmap rs rs' : Forall2 swapped_record rs rs' ->
  same_res (Forall2 swapped_record) (dict2dmap rs) (dict2dmap rs').
Proof.
  intros H. induction H as [|r r' rs rs' Hr H IH]; [constructor|]. cbn [dict2dmap].
  apply swapped_record2dmap in Hr.
  destruct (record2dmap r), (record2dmap r'); cbn [rbind same_res] in *; try tauto.
  destruct (dict2dmap rs), (dict2dmap rs'); cbn [rbind same_res] in *; try tauto.
  constructor; auto.
Qed.

Lemma swapped_check rs rs' : Forall2 swapped_record rs rs' ->
  same_res (Forall2 swapped_record) (check_dmap_dict rs) (check_dmap_dict rs').
Proof.
  intros H. pose proof (swapped_dict2dmap _ _ H) as HD. destruct H as [|r r' rs rs' Hr H]; [constructor|].
  destruct Hr as [|[k it] [k' it'] r r' [HK HI] Hr]; [repeat constructor; auto|].
  cbn [fst snd] in *. subst k'.
  destruct it as [s|a|v], it' as [s'|a'|v']; cbn [swapped_item] in HI; try discriminate HI;
    try (destruct v; discriminate HI).
  - cbn [check_dmap_dict same_res]. constructor; auto. constructor; auto.
  - cbn [check_dmap_dict same_res]. constructor; auto. constructor; auto.
  - exact HD.
Qed.

Lemma swapped_write rs rs' : Forall2 swapped_record rs rs' -> dmap_write rs' = dmap_write rs.
Proof.
  intros H. apply swapped_check in H. unfold dmap_write, writer_new.
  destruct (check_dmap_dict rs) as [x|e], (check_dmap_dict rs') as [x'|e']; cbn [rbind same_res] in *;
    try tauto; [|congruence].
  pose proof (swapped_records _ _ H []) as HR.
  destruct H as [|r r' x x' Hr H]; [reflexivity|].
  cbv beta iota zeta delta [write_dmap_stream empty_record_check wr_records wr_filename wr_bytearr].
  destruct (dmap_records_to_bytes [] (r :: x)) as [[? ?] ?], (dmap_records_to_bytes [] (r' :: x')) as [[? ?] ?].
  cbn [fst] in *. injection HR; intros; subst. reflexivity.
Qed.

Lemma swapped_same s n z z' bs : (0 < n)%nat -> wire_int s n z bs -> byte_swapped s n z z' -> (z' = z <-> rev bs = bs).
Proof.
  intros Hn HW (bs' & H1 & H2). rewrite (wire_int_fun _ _ _ _ _ Hn H1 HW) in *. split.
  - intros ->. eapply wire_int_fun; eauto.
  - intros HE. rewrite HE in H2. apply wire_int_iff in H2 as (_ & _ & ->), HW as (_ & _ & ->); auto.
Qed.

(** ** Records with wide chars or non-ASCII text *)

Lemma total_zero_all l : (forall x, In x l -> x = 0) -> total l = 0.
Proof.
  induction l as [|x l IH]; intros H; cbn; auto. unfold total in IH. rewrite IH; [|intros; apply H; cbn; auto].
  rewrite (H x); cbn; auto.
Qed.
Lemma total_pos l x : (forall y, In y l -> 0 <= y) -> In x l -> 0 < x -> 0 < total l.
Proof.
  intros H. induction l as [|y l IH]; intros HI Hx; [destruct HI|]. cbn. fold (total l).
  assert (HT : 0 <= total l).
  { clear - H. induction l as [|z l IH]; cbn; [lia|]. fold (total l).
    assert (0 <= z) by (apply H; cbn; auto). assert (0 <= total l); [|lia]. apply IH.
    intros w Hw. apply H. cbn in *. tauto. }
  destruct HI as [->|HI]; [lia|]. assert (0 <= y) by (apply H; cbn; auto).
  assert (0 < total l); [|lia]. apply IH; auto. intros z Hz. apply H. cbn. auto.
Qed.

Lemma block_text_balance rs bs r :
  is_bytearray bs -> ~ negative_slist bs -> dmap_write rs = Ok bs -> dmap_read bs = Ok rs -> In r rs ->
  (Exists (fun p => wide_char (snd p)) r <-> Exists (fun p => ~ ascii_item (snd p)) r).
Proof.
  intros HB HN HW HR HI. destruct (written_and_read _ _ HB HN HW HR) as (bl & xs & -> & _ & HF).
  apply in_map_iff in HI as (b & <- & HI).
  assert (HX : exists x, wire_block ident65537 b x /\
     dmap_record_to_bytes (block_fields b) = (Ok x, record_after (block_fields b))).
  { clear - HF HI. induction HF as [|b0 x bl xs Hb HF IH]; [destruct HI|]. destruct HI as [->|HI]; eauto. }
  destruct HX as (x & HWB & HRB). pose proof (written_read_balance _ _ _ _ HWB HRB) as HBal.
  destruct HWB as [ss aa szb nsb nab sb ab Hid HB' HS0 HA0 W1 W2 W3 HSw HAw]. clear HRB.
  cbn [fst snd] in HBal. unfold block_fields. cbn [fst snd].
  assert (HSC : forall s, In s ss -> exists w, wire_scalar s w) by (intros; eapply wire_list_in; eauto).
  assert (HAC : forall a, In a aa -> exists w, wire_array (zlen (ident65537 ++ szb ++ nsb ++ nab ++ sb ++ ab)) a w)
    by (intros; eapply wire_list_in; eauto).
  clear HSw HAw.
  assert (HL : forall t e, utf8_enc t = Some e -> (text_loss t = 0 <-> ascii_text t)).
  { intros t e He. exact (text_loss_ascii t e He). }
  assert (HG0 : forall y, In y (map wide_gain ss) -> 0 <= y).
  { intros y Hy. apply in_map_iff in Hy as (s & <- & _). unfold wide_gain.
    destruct (sc_fmt s), (sc_value s); try lia. destruct (z <? 128); lia. }
  assert (HG1 : forall y, In y (map (fun s => text_loss (sc_name s)) ss) -> 0 <= y).
  { intros y Hy. apply in_map_iff in Hy as (s & <- & _). apply text_loss_nonneg. }
  assert (HG2 : forall y, In y (map value_loss ss) -> 0 <= y).
  { intros y Hy. apply in_map_iff in Hy as (s & <- & _). unfold value_loss.
    destruct (sc_value s); try lia. apply text_loss_nonneg. }
  assert (HG3 : forall y, In y (map (fun a => text_loss (ar_name a)) aa) -> 0 <= y).
  { intros y Hy. apply in_map_iff in Hy as (s & <- & _). apply text_loss_nonneg. }
  assert (HNN : forall l, (forall y, In y l -> 0 <= y) -> 0 <= total l).
  { intros l H. induction l as [|z l IH]; cbn; [lia|]. fold (total l).
    assert (0 <= z) by (apply H; cbn; auto). assert (0 <= total l); [|lia]. apply IH.
    intros w Hw. apply H. cbn in *. tauto. }
  pose proof (HNN _ HG0). pose proof (HNN _ HG1). pose proof (HNN _ HG2). pose proof (HNN _ HG3).
  assert (HWide : (exists s, In s ss /\ wide_char (IScalar s)) <-> 0 < total (map wide_gain ss)).
  { split.
    - intros (s & Hs & Hf & z & Hz & Hz128). apply (total_pos _ 1); auto; [|lia].
      apply in_map_iff. exists s. split; auto. unfold wide_gain. rewrite Hf.
      destruct (HSC s Hs) as [w HW']. revert Hf Hz. destruct HW' as [name f v nb vb _ HV].
      cbn [sc_fmt sc_value]. intros -> Hz. inversion HV; subst; cbn in *; try discriminate.
      + injection Hz as ->. destruct (z <? 128) eqn:E; lia.
      + decompose [or] H3; subst; try tauto; discriminate.
    - intros HP. destruct (Exists_dec (fun s => wide_gain s <> 0) ss) as [HE|HE].
      + intros s. destruct (Z.eq_dec (wide_gain s) 0); auto.
      + apply Exists_exists in HE as (s & Hs & Hg). exists s. split; auto. unfold wide_gain in Hg.
        destruct (sc_fmt s) eqn:Ef, (sc_value s) eqn:Ev; try congruence. cbn. rewrite Ef, Ev. split; auto.
        exists z. split; auto. destruct (z <? 128) eqn:E; [congruence|lia].
      + exfalso. rewrite total_zero_all in HP; [lia|]. intros y Hy. apply in_map_iff in Hy as (s & <- & Hs).
        destruct (Z.eq_dec (wide_gain s) 0); auto. exfalso. apply HE. apply Exists_exists. eauto. }
  assert (HText : ((exists s, In s ss /\ ~ ascii_item (IScalar s)) \/ (exists a, In a aa /\ ~ ascii_item (IArray a))) <->
    0 < total (map (fun s => text_loss (sc_name s)) ss) + total (map value_loss ss) +
        total (map (fun a => text_loss (ar_name a)) aa)).
  { assert (HNm : forall s, In s ss -> exists e, utf8_enc (sc_name s) = Some e).
    { intros s Hs. destruct (HSC s Hs) as [w [name f v nb vb (e & He & _) _]]. eauto. }
    assert (HVl : forall s t, In s ss -> sc_value s = VStr t -> exists e, utf8_enc t = Some e).
    { intros s t Hs Ht. destruct (HSC s Hs) as [w HW']. revert Ht.
      destruct HW' as [name f v nb vb _ HV]. cbn. intros ->.
      inversion HV as [|? ? (e & He & _)| | |]; subst; eauto. }
    assert (HNa : forall a, In a aa -> exists e, utf8_enc (ar_name a) = Some e).
    { intros a Ha. destruct (HAC a Ha) as [w [name f dims data nb db sb' eb (e & He & _) _ _ _ _ _ _ _]]. eauto. }
    assert (HVs : forall s, In s ss -> (value_loss s = 0 <-> forall t, sc_value s = VStr t -> ascii_text t)).
    { intros s Hs. unfold value_loss. destruct (sc_value s) eqn:Ev; try (split; [discriminate|auto]; fail).
      destruct (HVl s s0 Hs Ev) as [e He]. rewrite (HL _ _ He). split; [intros HH t [= <-]; auto|auto]. }
    split.
    - intros [(s & Hs & HA)|(a & Ha & HA)].
      + cbn [ascii_item] in HA. destruct (HNm s Hs) as [e He].
        destruct (Z.eq_dec (text_loss (sc_name s)) 0) as [E1|E1].
        * destruct (Z.eq_dec (value_loss s) 0) as [E2|E2].
          -- exfalso. apply HA. split; [now apply (HL _ _ He)|now apply HVs].
          -- assert (0 < total (map value_loss ss)); [|lia]. apply (total_pos _ (value_loss s)); auto.
             ++ now apply in_map.
             ++ assert (0 <= value_loss s) by (apply HG2, in_map, Hs). lia.
        * assert (0 < total (map (fun s => text_loss (sc_name s)) ss)); [|lia].
          apply (total_pos _ (text_loss (sc_name s))); auto.
          -- apply in_map_iff; eauto.
          -- pose proof (text_loss_nonneg (sc_name s)). lia.
      + cbn [ascii_item] in HA. destruct (HNa a Ha) as [e He].
        assert (text_loss (ar_name a) <> 0) by (intros E; apply HA; now apply (HL _ _ He)).
        assert (0 < total (map (fun a => text_loss (ar_name a)) aa)); [|lia].
        apply (total_pos _ (text_loss (ar_name a))); auto.
        -- apply in_map_iff; eauto.
        -- pose proof (text_loss_nonneg (ar_name a)). lia.
    - intros HP.
      destruct (Exists_dec (fun s => text_loss (sc_name s) <> 0 \/ value_loss s <> 0) ss) as [HE|HE].
      + intros s. destruct (Z.eq_dec (text_loss (sc_name s)) 0), (Z.eq_dec (value_loss s) 0); intuition.
      + apply Exists_exists in HE as (s & Hs & Hg). left. exists s. split; auto. intros [HA1 HA2].
        destruct (HNm s Hs) as [e He]. apply (HL _ _ He) in HA1. apply (HVs s Hs) in HA2. tauto.
      + destruct (Exists_dec (fun a => text_loss (ar_name a) <> 0) aa) as [HE2|HE2].
        * intros a. destruct (Z.eq_dec (text_loss (ar_name a)) 0); auto.
        * apply Exists_exists in HE2 as (a & Ha & Hg). right. exists a. split; auto. intros HA1.
          destruct (HNa a Ha) as [e He]. apply (HL _ _ He) in HA1. tauto.
        * exfalso. rewrite !total_zero_all in HP; [lia| | |].
          -- intros y Hy. apply in_map_iff in Hy as (a & <- & Ha).
             destruct (Z.eq_dec (text_loss (ar_name a)) 0); auto. exfalso. apply HE2. apply Exists_exists. eauto.
          -- intros y Hy. apply in_map_iff in Hy as (s & <- & Hs).
             destruct (Z.eq_dec (value_loss s) 0); auto. exfalso. apply HE. apply Exists_exists. eauto.
          -- intros y Hy. apply in_map_iff in Hy as (s & <- & Hs).
             destruct (Z.eq_dec (text_loss (sc_name s)) 0); auto. exfalso. apply HE. apply Exists_exists. eauto. }
  rewrite !Exists_app, !Exists_exists.
  assert (HE1 : (exists p, In p (map (fun s => (sc_name s, IScalar s)) ss) /\ wide_char (snd p)) <->
     exists s, In s ss /\ wide_char (IScalar s)).
  { split.
    - intros (p & Hp & HH). apply in_map_iff in Hp as (s & <- & Hs). eauto.
    - intros (s & Hs & HH). exists (sc_name s, IScalar s). split; auto. apply in_map_iff. eauto. }
  assert (HE2 : (exists p, In p (map (fun a => (ar_name a, IArray a)) aa) /\ wide_char (snd p)) <-> False).
  { split; [|tauto]. intros (p & Hp & HH). apply in_map_iff in Hp as (s & <- & Hs). exact HH. }
  assert (HE3 : (exists p, In p (map (fun s => (sc_name s, IScalar s)) ss) /\ ~ ascii_item (snd p)) <->
     exists s, In s ss /\ ~ ascii_item (IScalar s)).
  { split.
    - intros (p & Hp & HH). apply in_map_iff in Hp as (s & <- & Hs). eauto.
    - intros (s & Hs & HH). exists (sc_name s, IScalar s). split; auto. apply in_map_iff. eauto. }
  assert (HE4 : (exists p, In p (map (fun a => (ar_name a, IArray a)) aa) /\ ~ ascii_item (snd p)) <->
     exists a, In a aa /\ ~ ascii_item (IArray a)).
  { split.
    - intros (p & Hp & HH). apply in_map_iff in Hp as (s & <- & Hs). eauto.
    - intros (s & Hs & HH). exists (ar_name s, IArray s). split; auto. apply in_map_iff. eauto. }
  rewrite HE1, HE2, HE3, HE4, HText, HWide. rewrite HBal. tauto.
Qed.
