(** The writer emits words of the wire grammar. *)
From Coq Require Import ZArith List Bool Lia ZifyBool ZifyNat.
From Verif Require Import Base Bytes BytesSpec BytesProofs Utf8 Utf8Proofs FloatBits FloatBitsProofs
  DmapTypes DmapRead DmapWrite Conversions DmapSpec DmapWriteSpec
  DmapReadProofs DmapFileProofs DmapStreamProofs.
Import ListNotations.
Open Scope Z_scope.
Ltac Zify.zify_post_hook ::= Z.div_mod_to_equations.

Lemma rbind_ok {A B} (r : res A) (f : A -> res B) b :
  rbind r f = Ok b -> exists a, r = Ok a /\ f a = Ok b.
Proof. destruct r; cbn; [eauto|discriminate]. Qed.

Ltac inv_rbind H x := apply rbind_ok in H as (x & ? & H).

(** ** Text *)

Lemma plain_ascii s : plain_text s -> ascii (s ++ [0]).
Proof.
  intros H. unfold ascii. apply Forall_app. split.
  - eapply Forall_impl; [|exact H]. cbn. lia.
  - repeat constructor; lia.
Qed.

Lemma pack_text_plain s : plain_text s -> pack_text s = Ok (s ++ [0]) /\ wire_text s (s ++ [0]).
Proof.
  intros H. split.
  - unfold pack_text. rewrite utf8_enc_ascii by (now apply plain_ascii).
    unfold pack_s. rewrite firstn_all, Nat.sub_diag. cbn [repeat]. now rewrite app_nil_r.
  - exists s. split.
    + apply utf8_enc_ascii. unfold ascii. eapply Forall_impl; [|exact H]. cbn. lia.
    + split; auto. intros HI. unfold plain_text in H. rewrite Forall_forall in H.
      apply H in HI. lia.
Qed.

Lemma pack_type_code f : pack_type (wire_code f) = Ok [wire_code f].
Proof. destruct f; reflexivity. Qed.

(** ** Integers *)

Lemma pack_int_wire s n z :
  (0 < n)%nat -> fits s n z -> pack_int s n z = Ok (le_enc n z) /\ wire_int s n z (le_enc n z).
Proof.
  intros Hn HF. split; [|now apply wire_int_enc].
  apply fits_iff in HF; auto. unfold pack_int.
  replace ((int_min s n <=? z) && (z <=? int_max s n)) with true by lia. reflexivity.
Qed.

Lemma pack32 z : - 2 ^ 31 <= z < 2 ^ 31 -> pack_int true 4 z = Ok (le_enc 4 z) /\ wire_int32 z (le_enc 4 z).
Proof. intros H. apply pack_int_wire; [lia|]. cbn. lia. Qed.

(** ** Scalars *)

Lemma chr_encode_small z : 0 <= z < 128 -> chr_encode z = Ok [z].
Proof.
  intros H. unfold chr_encode.
  replace ((z <? - 2 ^ 31) || (2 ^ 31 <=? z)) with false by lia.
  replace ((z <? 0) || (1114111 <? z)) with false by lia.
  unfold utf8_enc1. replace (z <? 0) with false by lia. now replace (z <? 128) with true by lia.
Qed.

Lemma reads_back_bytes f v w :
  reads_back f v w ->
  exists bs, scalar_data_bytes f v = Ok bs /\ wire_value f w bs /\
    zlen bs = match v with VStr t => zlen t + 1 | _ => Z.of_nat (wire_size f) end.
Proof.
  intros H. destruct H as [v z HI HZ|f v z HIn HI HF|s HP|b v Hb HS HV|b v Hb HV|b Hb].
  - exists [z]. assert (HW : wire_value Fc (VInt z) [z]) by (constructor; unfold is_byte; lia).
    destruct v; cbn in HI; try discriminate; injection HI as ->;
      cbn [scalar_data_bytes]; rewrite chr_encode_small by lia; auto.
  - assert (Hs : (0 < wire_size f)%nat) by (destruct f; cbn; lia).
    destruct (pack_int_wire _ _ _ Hs HF) as [HP HW].
    exists (le_enc (wire_size f) z).
    assert (HD : scalar_data_bytes f v = Ok (le_enc (wire_size f) z)).
    { rewrite <- HP. destruct v; cbn in HI; try discriminate; injection HI as ->;
        cbn [In] in HIn; destruct HIn as [<-|[<-|[<-|[<-|[<-|[<-|[<-|[]]]]]]]]; reflexivity. }
    splits; auto.
    + now constructor.
    + rewrite zlen_le_enc. destruct v; cbn in HI; try discriminate; reflexivity.
  - destruct (pack_text_plain s HP) as [HP1 HW]. exists (s ++ [0]). splits; auto.
    + now constructor.
    + rewrite zlen_app. reflexivity.
  - exists (le_enc 4 b).
    assert (HN : narrow (widen b) = b) by (rewrite narrow_widen_gen by auto; now rewrite HS).
    assert (HD : scalar_data_bytes Ff v = Ok (le_enc 4 b)).
    { cbn [In] in HV. destruct HV as [<-|[<-|[<-|[]]]]; cbn [scalar_data_bytes]; now rewrite ?HN. }
    splits; auto.
    + assert (HL : le_num (le_enc 4 b) = b).
      { rewrite le_num_dec, le_dec_enc. unfold wrap_mod. apply Z.mod_small. cbn. lia. }
      rewrite <- HL at 1. constructor; [apply le_enc_length|apply le_enc_bytes].
    + rewrite zlen_le_enc. cbn [In] in HV. destruct HV as [<-|[<-|[<-|[]]]]; reflexivity.
  - exists (le_enc 8 b).
    assert (HD : scalar_data_bytes Fd v = Ok (le_enc 8 b)).
    { cbn [In] in HV. destruct HV as [<-|[<-|[]]]; reflexivity. }
    splits; auto.
    + assert (HL : le_num (le_enc 8 b) = b).
      { rewrite le_num_dec, le_dec_enc. unfold wrap_mod. apply Z.mod_small. cbn. lia. }
      rewrite <- HL at 1. constructor; [apply le_enc_length|apply le_enc_bytes].
    + rewrite zlen_le_enc. cbn [In] in HV. destruct HV as [<-|[<-|[]]]; reflexivity.
  - exists (le_enc 8 (widen b)). splits; auto.
    pose proof (widen_range b Hb).
    assert (HL : le_num (le_enc 8 (widen b)) = widen b).
    { rewrite le_num_dec, le_dec_enc. unfold wrap_mod. apply Z.mod_small. cbn. lia. }
    rewrite <- HL at 1. constructor; [apply le_enc_length|apply le_enc_bytes].
Qed.

Lemma scalar_back_bytes s s' :
  scalar_back s s' ->
  exists bs, dmap_scalar_to_bytes s = Ok bs /\ wire_scalar s' bs /\ zlen bs = scalar_bytes s.
Proof.
  intros [name f v w HN HR].
  destruct (pack_text_plain _ HN) as [HP HT].
  destruct (reads_back_bytes _ _ _ HR) as (vb & HV & HW & HL).
  exists ((name ++ [0]) ++ [wire_code f] ++ vb). splits.
  - unfold dmap_scalar_to_bytes. cbn [sc_name sc_type sc_fmt sc_value].
    rewrite HP. cbn [rbind]. rewrite pack_type_code. cbn [rbind]. rewrite HV. reflexivity.
  - now constructor.
  - unfold scalar_bytes. cbn [sc_name sc_fmt sc_value]. rewrite !zlen_app, HL.
    change (zlen [0]) with 1. change (zlen [wire_code f]) with 1. lia.
Qed.

(** ** Arrays *)

Lemma pack_sizes_wire l :
  Forall (fun n => - 2 ^ 31 <= n < 2 ^ 31) l ->
  exists bs, pack_sizes l = Ok bs /\ wire_list wire_int32 l bs /\ zlen bs = 4 * zlen l.
Proof.
  intros H. induction H as [|n l Hn H IH]; cbn [pack_sizes].
  - exists []. splits; auto. constructor.
  - destruct IH as (bs & -> & HW & HL). destruct (pack32 n Hn) as [-> HW1].
    cbn [rbind]. exists (le_enc 4 n ++ bs). splits; auto.
    + now constructor.
    + rewrite zlen_app, zlen_cons, zlen_le_enc, HL. lia.
Qed.

Lemma dtype_fits_size f d : dtype_fits f d -> dtype_size d = wire_size f.
Proof. destruct f; cbn; intros H; intuition (subst; reflexivity). Qed.

Lemma tostring_wire f d shape data :
  dtype_fits f d -> Forall (fits (wire_signed f) (wire_size f)) data ->
  wire_list (wire_int (wire_signed f) (wire_size f)) data
    (tostring (mk_ndarray d false shape data)) /\
  zlen (tostring (mk_ndarray d false shape data)) = Z.of_nat (wire_size f) * zlen data.
Proof.
  intros HD HF. unfold tostring. cbn [nd_dtype nd_be nd_data].
  assert (Hs : (0 < wire_size f)%nat) by (destruct f; cbn; lia).
  induction HF as [|x data Hx HF IH]; cbn [flat_map].
  - split; [constructor|]. unfold zlen. cbn. lia.
  - destruct IH as [IH1 IH2].
    unfold elem_enc at 1 3. rewrite (dtype_fits_size f d HD). split.
    + constructor; auto. now apply wire_int_enc.
    + rewrite zlen_app, zlen_cons, zlen_le_enc, IH2. lia.
Qed.

Lemma product_ge1 shape n : Forall (fun n => 1 <= n) shape -> In n shape -> n <= product shape.
Proof.
  intros H. induction H as [|x l Hx H IH]; cbn [In product fold_right]; [tauto|].
  assert (1 <= fold_right Z.mul 1 l) by (clear - H; induction H; cbn [fold_right]; nia).
  intros [->|HI]; [nia|]. apply IH in HI. unfold product in HI. nia.
Qed.

Definition array_after (a : darray) : darray :=
  mk_darray (ar_name a) (ar_value a) (ar_type a) (ar_fmt a) (ar_dim a)
            (if 1 <? ar_dim a then rev (ar_shape a) else ar_shape a).

Lemma array_back_bytes blk a a' :
  array_back blk a a' -> array_bytes a < blk < 2 ^ 31 ->
  exists bs, dmap_array_to_bytes a = (Ok bs, array_after a) /\
    wire_array blk a' bs /\ zlen bs = array_bytes a.
Proof.
  intros HA HL. destruct HA as [name f d shape data HN HD HR HS HP HF].
  unfold array_bytes in HL. cbn [ar_name ar_shape ar_fmt ar_value nd_data] in HL.
  assert (Hs : (0 < wire_size f)%nat) by (destruct f; cbn; lia).
  pose proof (zlen_nonneg name).
  assert (Hfs : f <> Fs) by (intros ->; exact HD).
  assert (HB : Forall (fun n => (1 <= n \/ (name = s_slist /\ n = 0)) /\ n < blk) shape).
  { rewrite Forall_forall. intros n Hn. destruct HS as [HS|(-> & _ & HS)].
    - pose proof (product_ge1 _ _ HS Hn). rewrite Forall_forall in HS. specialize (HS _ Hn). nia.
    - rewrite Forall_forall in HS. specialize (HS _ Hn). split; [|lia].
      destruct (Z.eq_dec n 0); [right; auto|left; lia]. }
  assert (H32 : Forall (fun n => - 2 ^ 31 <= n < 2 ^ 31) shape).
  { eapply Forall_impl; [|exact HB]. cbn. lia. }
  assert (Hrev : (if 1 <? zlen shape then rev shape else shape) = rev shape).
  { destruct (1 <? zlen shape) eqn:E; auto. destruct shape as [|x [|y l]]; auto.
    rewrite !zlen_cons in E. pose proof (zlen_nonneg l). lia. }
  assert (H32r : Forall (fun n => - 2 ^ 31 <= n < 2 ^ 31) (rev shape)).
  { rewrite Forall_forall in *. intros n Hn. apply H32. now apply in_rev. }
  destruct (pack_sizes_wire _ H32r) as (sb & HS1 & HS2 & HS3).
  destruct (pack_text_plain _ HN) as [HT1 HT2].
  destruct (pack32 (zlen shape)) as [HI1 HI2]; [lia|].
  destruct (tostring_wire f d shape data HD HF) as [HE1 HE2].
  exists ((name ++ [0]) ++ [wire_code f] ++ le_enc 4 (zlen shape) ++ sb
          ++ tostring (mk_ndarray d false shape data)). splits.
  - unfold dmap_array_to_bytes. cbn [ar_fmt ar_value ar_name ar_type ar_dim ar_shape].
    assert (Hpre : match f with
                   | Fc => rlet isstr := first_is_str (mk_ndarray d false shape data) in
                           if isstr then Raise DmapCharError else Ok tt
                   | Fs => Raise DmapDataError
                   | _ => Ok tt
                   end = Ok tt).
    { destruct f; auto; [|congruence]. cbn in HD. subst d.
      destruct HS as [HS|(_ & HX & _)]; [|congruence].
      unfold first_is_str. cbn [nd_shape nd_dtype].
      destruct shape as [|x l]; [cbn in HR; lia|].
      inversion HS; subst. replace (x <=? 0) with false by lia. destruct l; reflexivity. }
    rewrite Hpre. cbn [rbind]. rewrite HT1. cbn [rbind]. rewrite pack_type_code. cbn [rbind].
    rewrite HI1. cbn [rbind]. unfold array_after. cbn [ar_fmt ar_value ar_name ar_type ar_dim ar_shape].
    rewrite Hrev, HS1. cbn [rbind]. now rewrite <- !app_assoc.
  - now constructor.
  - unfold array_bytes. cbn [ar_name ar_shape ar_fmt ar_value nd_data].
    rewrite !zlen_app, HS3, HE2, zlen_le_enc, zlen_rev.
    change (zlen [0]) with 1. change (zlen [wire_code f]) with 1. lia.
Qed.

(** ** Fields *)

(* same as the flip of the specification *)
Definition item_after (it : item) : item :=
  match it with IArray a => IArray (array_after a) | _ => it end.
Definition record_after (r : record) : record :=
  map (fun p => (fst p, item_after (snd p))) r.

Lemma scalars_to_bytes ss ss' rest data na rest' :
  Forall2 scalar_back ss ss' ->
  fields_to_bytes rest = (Ok (data, 0, na), rest') ->
  exists bs, fields_to_bytes (map (fun s => (sc_name s, IScalar s)) ss ++ rest) =
    (Ok (bs ++ data, zlen ss, na), record_after (map (fun s => (sc_name s, IScalar s)) ss) ++ rest') /\
    wire_list wire_scalar ss' bs /\ zlen bs = total (map scalar_bytes ss).
Proof.
  intros H HR. induction H as [|s s' ss ss' Hs H IH]; cbn [map app fields_to_bytes].
  - exists []. splits; auto. constructor.
  - destruct IH as (bs & -> & HW & HL).
    destruct (scalar_back_bytes _ _ Hs) as (b & -> & HWb & HLb).
    exists (b ++ bs). splits.
    + rewrite <- app_assoc, zlen_cons, Z.add_comm. reflexivity.
    + now constructor.
    + rewrite zlen_app. cbn [map total fold_right]. unfold total in HL. lia.
Qed.

Lemma arrays_to_bytes blk aa aa' :
  Forall2 (array_back blk) aa aa' -> total (map array_bytes aa) < blk < 2 ^ 31 ->
  Forall (fun a => 0 <= array_bytes a) aa ->
  exists bs, fields_to_bytes (map (fun a => (ar_name a, IArray a)) aa) =
    (Ok (bs, 0, zlen aa), record_after (map (fun a => (ar_name a, IArray a)) aa)) /\
    wire_list (wire_array blk) aa' bs /\ zlen bs = total (map array_bytes aa).
Proof.
  intros H HL HN. induction H as [|a a' aa aa' Ha H IH]; cbn [map fields_to_bytes].
  - exists []. splits; auto. constructor.
  - inversion HN as [|? ? Hn HN']; subst. cbn [map total fold_right] in HL.
    assert (Ht : 0 <= total (map array_bytes aa)).
    { clear - HN'. induction HN'; cbn [map total fold_right]; [lia|]. unfold total in *. lia. }
    unfold total in Ht.
    destruct IH as (bs & -> & HW & HLb); auto; [unfold total; lia|].
    destruct (array_back_bytes _ _ _ Ha) as (b & -> & HWb & HLb'); [lia|].
    exists (b ++ bs). splits.
    + rewrite zlen_cons, Z.add_comm. reflexivity.
    + now constructor.
    + rewrite zlen_app. cbn [map total fold_right]. unfold total in HLb. lia.
Qed.

Lemma array_bytes_nonneg a : 0 <= array_bytes a.
Proof.
  unfold array_bytes. pose proof (zlen_nonneg (ar_name a)). pose proof (zlen_nonneg (ar_shape a)).
  pose proof (zlen_nonneg (nd_data (ar_value a))). nia.
Qed.

Lemma scalar_bytes_nonneg s : 0 <= scalar_bytes s.
Proof.
  unfold scalar_bytes. pose proof (zlen_nonneg (sc_name s)).
  destruct (sc_value s) as [| | | | |t| | |]; try lia. pose proof (zlen_nonneg t). lia.
Qed.

Lemma total_ge {A} (f : A -> Z) k l : (forall x, k <= f x) -> k * zlen l <= total (map f l).
Proof.
  intros H. induction l as [|x l IH]; cbn [map total fold_right]; [unfold zlen; cbn; lia|].
  rewrite zlen_cons. specialize (H x). unfold total in IH. lia.
Qed.

(** ** Blocks *)

Definition ident65537 : bytes := [1; 0; 1; 0].

Lemma block_back_bytes b b' :
  block_back b b' ->
  exists bs, dmap_record_to_bytes (block_fields b) = (Ok bs, record_after (block_fields b)) /\
    wire_block ident65537 b' bs /\ zlen bs = block_bytes b.
Proof.
  intros (HS0 & HA0 & HND & HL & HS & HA).
  pose proof (total_ge scalar_bytes 1 (fst b)) as HT1.
  pose proof (total_ge array_bytes 1 (snd b)) as HT2.
  assert (G1 : 1 * zlen (fst b) <= total (map scalar_bytes (fst b))).
  { apply HT1. intros x. unfold scalar_bytes. pose proof (zlen_nonneg (sc_name x)).
    destruct (sc_value x) as [| | | | |t| | |]; try lia. pose proof (zlen_nonneg t). lia. }
  assert (G2 : 1 * zlen (snd b) <= total (map array_bytes (snd b))).
  { apply HT2. intros a. unfold array_bytes. pose proof (zlen_nonneg (ar_name a)).
    pose proof (zlen_nonneg (ar_shape a)). pose proof (zlen_nonneg (nd_data (ar_value a))). nia. }
  pose proof (zlen_nonneg (fst b)). pose proof (zlen_nonneg (snd b)).
  set (N := block_bytes b) in *. assert (HN : N = block_bytes b) by reflexivity.
  unfold block_bytes in HN.
  destruct (arrays_to_bytes N (snd b) (snd b')) as (ab & Ea & HWa & HLa); auto; [lia| |].
  { apply Forall_forall. intros. apply array_bytes_nonneg. }
  destruct (scalars_to_bytes _ _ _ _ _ _ HS Ea) as (sb & Es & HWs & HLs).
  destruct (pack32 N) as [P1 W1]; [lia|].
  destruct (pack32 (zlen (fst b))) as [P2 W2]; [lia|].
  destruct (pack32 (zlen (snd b))) as [P3 W3]; [lia|].
  destruct (pack32 65537) as [P0 W0]; [lia|].
  exists (ident65537 ++ le_enc 4 N ++ le_enc 4 (zlen (fst b)) ++ le_enc 4 (zlen (snd b)) ++ sb ++ ab).
  assert (HLen : zlen (ident65537 ++ le_enc 4 N ++ le_enc 4 (zlen (fst b)) ++
                   le_enc 4 (zlen (snd b)) ++ sb ++ ab) = N).
  { rewrite !zlen_app, !zlen_le_enc, HLs, HLa. change (zlen ident65537) with 4. lia. }
  splits; auto.
  - unfold dmap_record_to_bytes, block_fields. rewrite Es. cbv zeta.
    rewrite zlen_app, HLs, HLa.
    replace (total (map scalar_bytes (fst b)) + total (map array_bytes (snd b)) + 16) with N by lia.
    unfold header_bytes. rewrite P0. cbn [rbind]. rewrite P1. cbn [rbind]. rewrite P2. cbn [rbind].
    rewrite P3. cbn [rbind]. change (le_enc 4 65537) with ident65537.
    rewrite <- !app_assoc. f_equal. unfold record_after. now rewrite map_app.
  - destruct b' as [ss' aa']. cbn [fst snd] in *.
    assert (length ss' = length (fst b)) by (symmetry; eapply Forall2_len; eauto).
    assert (length aa' = length (snd b)) by (symmetry; eapply Forall2_len; eauto).
    apply wire_block_intro; auto.
    + repeat constructor; unfold is_byte; lia.
    + destruct ss'; [|discriminate]. destruct (fst b); [congruence|discriminate].
    + destruct aa'; [|discriminate]. destruct (snd b); [congruence|discriminate].
    + now rewrite HLen.
    + replace (zlen ss') with (zlen (fst b)) by (unfold zlen; lia). exact W2.
    + replace (zlen aa') with (zlen (snd b)) by (unfold zlen; lia). exact W3.
    + now rewrite HLen.
Qed.

Lemma records_back_bytes bl bl' : Forall2 block_back bl bl' ->
  exists bs, forall acc,
    dmap_records_to_bytes acc (map block_fields bl) =
      (Ok tt, acc ++ bs, map record_after (map block_fields bl)) /\
    wire_list (wire_block ident65537) bl' bs /\ zlen bs = file_bytes bl.
Proof.
  intros H. induction H as [|b b' bl bl' Hb H IH]; cbn [map dmap_records_to_bytes].
  - exists []. intros acc. rewrite app_nil_r. splits; auto. constructor.
  - destruct IH as (bs & IH). destruct (block_back_bytes _ _ Hb) as (x & Ex & HWx & HLx).
    exists (x ++ bs). intros acc. rewrite Ex. destruct (IH (acc ++ x)) as (-> & HW & HL).
    splits.
    + now rewrite app_assoc.
    + now constructor.
    + rewrite zlen_app. unfold file_bytes in *. cbn [map total fold_right]. unfold total in HL. lia.
Qed.

Lemma wire_file_of_ident id bl bs : wire_list (wire_block id) bl bs -> wire_file bl bs.
Proof. intros H. induction H; constructor; eauto. Qed.

(** ** Round trip *)

Lemma scalar_back_name s s' : scalar_back s s' -> sc_name s' = sc_name s.
Proof. now intros []. Qed.
Lemma array_back_name k a a' : array_back k a a' -> ar_name a' = ar_name a.
Proof. now intros []. Qed.

Lemma block_back_names b b' :
  block_back b b' -> map fst (block_fields b') = map fst (block_fields b).
Proof.
  intros (_ & _ & _ & _ & HS & HA). unfold block_fields. rewrite !map_app, !map_map. cbn [fst].
  f_equal.
  - induction HS as [|s s' ss ss' Hs HS IH]; cbn [map]; auto.
    rewrite IH. f_equal. now apply scalar_back_name.
  - induction HA as [|a a' aa aa' Ha HA IH]; cbn [map]; auto.
    rewrite IH. f_equal. eapply array_back_name; eauto.
Qed.

Lemma dmap_write_of_bytes rs bs rs' :
  rs <> [] -> check_dmap_dict rs = Ok rs ->
  dmap_records_to_bytes [] rs = (Ok tt, bs, rs') -> dmap_write rs = Ok bs.
Proof.
  intros HN HC HB. unfold dmap_write, writer_new. rewrite HC. cbn [rbind].
  destruct rs as [|r rs]; [congruence|].
  cbv beta iota zeta delta [write_dmap_stream empty_record_check wr_records wr_filename wr_bytearr].
  rewrite HB. reflexivity.
Qed.

Lemma check_dmap_dict_block b bl :
  fst b <> [] -> check_dmap_dict (map block_fields (b :: bl)) = Ok (map block_fields (b :: bl)).
Proof.
  intros H. destruct b as [[|s ss] aa]; cbn [fst] in H; [congruence|]. reflexivity.
Qed.

Lemma round_trip bl bl' :
  bl <> [] -> Forall2 block_back bl bl' -> file_bytes bl <= 2 ^ 63 - 1 ->
  exists bs, dmap_write (map block_fields bl) = Ok bs /\
    wire_list (wire_block ident65537) bl' bs /\ zlen bs = file_bytes bl /\
    dmap_read bs = Ok (map block_fields bl').
Proof.
  intros HN HB HL. destruct (records_back_bytes _ _ HB) as (bs & HR).
  destruct (HR []) as (HR1 & HW & HLb). exists bs. splits; auto.
  - eapply dmap_write_of_bytes; [| |exact HR1].
    + destruct bl; [congruence|discriminate].
    + destruct bl as [|b bl]; [congruence|]. apply check_dmap_dict_block.
      inversion HB as [|? ? ? ? (H1 & _)]; auto.
  - rewrite dmap_read_trace.
    rewrite (fields_complete bs bl'); [|lia| |eapply wire_file_of_ident; eauto].
    + f_equal. clear - HB. induction HB as [|b b' bl bl' Hb HB IH]; cbn [map]; auto.
      rewrite IH. f_equal. apply record_of_fields_nodup. rewrite (block_back_names _ _ Hb).
      now destruct Hb as (_ & _ & HND & _).
    + intros ->. inversion HB. congruence.
Qed.
