(** C92: once read and written, a file comes out the same for ever. *)
From Coq Require Import ZArith List Bool Lia.
From Verif Require Import Base Bytes BytesSpec BytesProofs Utf8 FloatBits DmapTypes DmapRead DmapWrite Conversions DmapSpec DmapWriteSpec
  DmapReadProofs DmapFileProofs DmapStreamProofs DmapWriterProofs DmapWriteFacts DmapObjectProofs DmapReadProps DmapWriteProps
  SDarnFormats SDarn SDarnSpec SDarnProofs SDarnProps DmapWriteProofs SDarnWriteProofs DmapNormalSpec DmapNormalProofs.
Import ListNotations.
Open Scope Z_scope.

(** Whatever the identifiers of the blocks, repeated names and NaNs: the records
    read can be written, to a file that is no longer than the first one and that
    is read as the same records. *)
Theorem C92_normal : forall bl buf,
  wire_file bl buf -> bl <> [] -> zlen buf <= 2 ^ 63 - 1 -> Forall mild_block bl ->
  exists rs buf', dmap_read buf = Ok rs /\ dmap_write rs = Ok buf' /\ dmap_read buf' = Ok rs /\
    is_bytearray buf' /\ zlen buf' <= zlen buf /\
    (Forall (fun b => NoDup (map fst (block_fields b))) bl -> zlen buf' = zlen buf).
Proof.
  intros bl buf HW HN HL HM. destruct (C05_complete buf bl HL HN HW) as (rs & HR & HD).
  destruct (mild_file bl buf HW HM rs HD) as (HZ & bl' & -> & HB & HZ').
  destruct (round_trip bl' bl') as (bs & H1 & H0 & H2 & H3).
  - intros ->. inversion HD; subst. congruence.
  - clear - HB. induction HB; constructor; auto.
  - lia.
  - exists (map block_fields bl'), bs. splits; auto.
    { split; [exact (wire_list_bytes _ _ _ (wire_block_bytes _) H0)|lia]. }
    { lia. } intros HX. rewrite H2, <- HZ.
    assert (bl' = bl) as ->; [|reflexivity].
    clear - HD HX. revert bl' HD. induction HX as [|b bl HB HX IH]; intros bl' HD; destruct bl' as [|b' bl']; inversion HD as [|? ? ? ? D1 D2]; subst; auto.
    f_equal; [|now apply IH]. now apply fields_same.
Qed.
Print Assumptions C92_normal.

(** The same for any file that is accepted. *)
Theorem C92_accepted : forall buf rs,
  is_bytearray buf -> ~ negative_slist buf -> dmap_read buf = Ok rs ->
  (forall bl, wire_file bl buf -> Forall mild_block bl) ->
  exists buf', dmap_write rs = Ok buf' /\ dmap_read buf' = Ok rs /\ zlen buf' <= zlen buf.
Proof.
  intros buf rs HB HS HR HM. destruct (C04_sound buf rs HB HS HR) as (bl & HW & HD).
  assert (HN : bl <> []).
  { intros ->. inversion HD; subst. now apply (proj2 (check_of_read _ _ HR)). }
  destruct (C92_normal bl buf HW HN (proj2 HB) (HM bl HW)) as (rs' & buf' & H1 & H2 & H3 & _ & H4 & _).
  assert (rs' = rs) as -> by congruence. eauto.
Qed.
Print Assumptions C92_accepted.

(** For SuperDARN files: what read_<type> accepts, write_<type> writes to a file
    that read_<type> shows the same. *)
Theorem C92_sdarn : forall t fs bl buf rd ds rd' fn,
  wire_file bl buf -> zlen buf <= 2 ^ 63 - 1 -> Forall mild_block bl ->
  sd_reader_init fs (FromStream buf) = Ok rd -> sd_read t rd = (Ok ds, rd') -> fn <> [] ->
  exists rs w' fs' rd2 rd2', dmap_read buf = Ok rs /\
    sd_write t fs (mk_writer [] rs []) fn = (Ok tt, w', fs') /\
    sd_reader_init fs' (FromFile fn) = Ok rd2 /\ sd_read t rd2 = (Ok ds, rd2').
Proof.
  intros t fs bl buf rd ds rd' fn HW HL HM HI HS HF.
  assert (HN : bl <> []).
  { intros ->. inversion HW; subst. unfold sd_reader_init, dmap_reader_init, reader_new in HI. cbn in HI. discriminate. }
  destruct (C92_normal bl buf HW HN HL HM) as (rs & buf' & H1 & H2 & H3 & HBY & H4 & _).
  destruct (C27_files t fs buf rs rd (wire_file_bytes _ _ HW) H1 HI) as [HA HX].
  assert (HD : Forall (acceptable t) rs).
  { assert (HD : Forall (acceptable t) rs \/ ~ Forall (acceptable t) rs).
    { clear. induction rs as [|r rs IH]; auto. destruct (acceptable_dec t r), IH; auto; right; intros HX; inversion HX; tauto. }
    destruct HD as [HD|HD]; auto. destruct (HX HD) as (e & n & HE & _). rewrite HS in HE. discriminate. }
  destruct (HA HD) as (ds0 & HE & HG). rewrite HS in HE. cbn [fst] in HE. assert (ds0 = ds) as -> by congruence.
  exists rs.
  destruct (check_of_read _ _ H1) as [HC HNE]. apply dmap_write_inv in H2 as (rs' & xs & HC' & _ & HB & ->).
  assert (rs' = rs) as -> by congruence.
  assert (HB0 : zlen (concat xs) <> 0).
  { destruct HB as [|r x rs0 xs Hx HB]; [congruence|]. cbn [concat]. rewrite zlen_app.
    apply record_bytes_header in Hx as (w2 & w3 & w4 & y & -> & _). rewrite zlen_app.
    change (zlen ident65537) with 4. pose proof (zlen_nonneg (w2 ++ w3 ++ w4 ++ concat y)). pose proof (zlen_nonneg (concat xs)). lia. }
  do 2 eexists. exists (mk_reader (concat xs) 0 [] 0).
  assert (HI2 : sd_reader_init fs (FromStream (concat xs)) = Ok (mk_reader (concat xs) 0 [] 0)).
  { unfold sd_reader_init, dmap_reader_init, reader_new. now replace (zlen (concat xs) =? 0) with false by lia. }
  destruct (C27_files t fs (concat xs) rs _ (proj1 HBY) H3 HI2) as [HA2 _]. destruct (HA2 HD) as (ds2 & HE2 & HG2).
  assert (ds2 = ds) as ->.
  { unfold dmap_read_dicts in HG, HG2. rewrite H1 in HG. rewrite H3 in HG2. congruence. }
  exists (snd (sd_read t (mk_reader (concat xs) 0 [] 0))). splits.
  - exact H1.
  - rewrite (C28_files t fs buf rs rd ds rd' fn (wire_file_bytes _ _ HW) H1 HI HS), write_dmap_cases.
    destruct fn as [|c fn]; [contradiction|]. unfold write_dmap_stream. cbn [wr_records wr_bytearr wr_filename].
    destruct rs as [|r rs]; [congruence|]. unfold empty_record_check. cbn [wr_records wr_bytearr wr_filename].
    rewrite (proj2 (records_bytes_iff [] (r :: rs) (concat xs) _) (ex_intro _ xs (conj HB (conj eq_refl eq_refl)))).
    cbn [rbind wr_filename wr_bytearr]. reflexivity.
  - unfold sd_reader_init, dmap_reader_init. rewrite fs_write_same. unfold reader_new. now replace (zlen (concat xs) =? 0) with false by lia.
  - rewrite <- HE2. now destruct (sd_read t (mk_reader (concat xs) 0 [] 0)).
Qed.
Print Assumptions C92_sdarn.

(** Identifier 9 9 9 9, the short a twice, a signalling NaN f, the array m. *)
Definition ex_odd : bytes :=
  [9;9;9;9; 48;0;0;0; 3;0;0;0; 1;0;0;0; 97;0;2;7;0; 97;0;2;8;0; 102;0;4;1;0;128;127;
   109;0;2; 1;0;0;0; 2;0;0;0; 1;0;2;0].
Definition ex_odd_after : bytes :=
  [1;0;1;0; 43;0;0;0; 2;0;0;0; 1;0;0;0; 97;0;2;8;0; 102;0;4;1;0;192;127;
   109;0;2; 1;0;0;0; 2;0;0;0; 1;0;2;0].
Definition ex_odd_block : block :=
  ([mk_dscalar [97] (VInt 7) 2 Fh; mk_dscalar [97] (VInt 8) 2 Fh; mk_dscalar [102] (VFloat (widen 2139095041)) 4 Ff],
   [mk_darray [109] (mk_ndarray DI16 false [2] [1; 2]) 2 Fh 1 [2]]).
Example C92_case : wire_file [ex_odd_block] ex_odd /\ Forall mild_block [ex_odd_block] /\
  (rlet rs := dmap_read ex_odd in dmap_write rs) = Ok ex_odd_after.
Proof.
  splits.
  - apply C04_sound_trace.
    + split; [|vm_compute; discriminate]. repeat (apply Forall_cons; [unfold is_byte; lia|]). constructor.
    + vm_compute. reflexivity.
    + repeat constructor; cbn; lia.
  - constructor; [|constructor]. unfold mild_block, mild_scalar, mild_array, plain_text. cbn [fst snd ex_odd_block sc_name sc_fmt sc_value ar_name ar_shape ar_fmt].
    splits.
    + repeat (constructor; [split; [constructor; [lia|constructor]|exact I]|]). constructor.
    + constructor; [|constructor]. split; [constructor; [lia|constructor]|left; constructor; [lia|constructor]].
    + intros s a HS [<-|[]]. cbn [In ar_name] in *. decompose [or] HS; subst; cbn; try discriminate; contradiction.
  - vm_compute. reflexivity.
Qed.

(** Without the conditions it is false: here a is the name of a scalar and of an
    array, so that the record has no scalar left ... *)
Definition ex_clash : bytes :=
  [1;0;1;0; 36;0;0;0; 1;0;0;0; 1;0;0;0; 97;0;2;7;0; 97;0;2; 1;0;0;0; 2;0;0;0; 1;0;2;0].
Theorem C92_refuted : ~ forall buf rs, is_bytearray buf -> ~ negative_slist buf -> dmap_read buf = Ok rs ->
  exists buf', dmap_write rs = Ok buf' /\ dmap_read buf' = Ok rs.
Proof.
  intros C. destruct (dmap_read ex_clash) as [rs|e] eqn:E; [|vm_compute in E; discriminate E].
  destruct (C ex_clash rs) as (buf' & H1 & H2).
  - split; [|vm_compute; discriminate]. repeat (apply Forall_cons; [unfold is_byte; lia|]). constructor.
  - intros (p & ty & dims & db & sb & (pre & post & HE & _) & _).
    assert (HI : In 115 ex_clash).
    { rewrite HE. apply in_or_app. right. apply in_or_app. left. now left. }
    cbn in HI. lia.
  - exact E.
  - vm_compute in E. apply ok_inj in E. subst rs. vm_compute in H1. apply ok_inj in H1. subst buf'. vm_compute in H2. discriminate H2.
Qed.
Print Assumptions C92_refuted.

(** ... and here the sizes of the empty slist are below the length of the block
    that was read, but not of the shorter block that is written. *)
Definition ex_shrunk : bytes :=
  [1;0;1;0; 55;0;0;0; 4;0;0;0; 1;0;0;0; 97;0;2;7;0; 97;0;2;8;0; 97;0;2;8;0; 97;0;2;9;0;
   115;108;105;115;116;0;2; 2;0;0;0; 0;0;0;0; 50;0;0;0].
Example C92_shrunk :
  (rlet rs := dmap_read ex_shrunk in rlet bs := dmap_write rs in Ok (zlen bs)) = Ok 40 /\
  (rlet rs := dmap_read ex_shrunk in rlet bs := dmap_write rs in dmap_read bs) = Raise DmapDataError.
Proof. split; vm_compute; reflexivity. Qed.

Ltac ascii := repeat (apply Forall_cons; [lia|]); apply Forall_nil.
Example C92_sdarn_case : exists buf rd,
  dmap_write [block_fields ex_grid] = Ok buf /\ wire_file [ex_grid] buf /\ Forall mild_block [ex_grid] /\
  sd_reader_init (fun _ => None) (FromStream buf) = Ok rd /\ exists ds, fst (sd_read Grid rd) = Ok ds.
Proof.
  destruct (dmap_write [block_fields ex_grid]) as [buf|e] eqn:E; [|vm_compute in E; discriminate E].
  exists buf, (mk_reader buf 0 [] 0). vm_compute in E. apply ok_inj in E. subst buf. splits.
  - reflexivity.
  - apply C04_sound_trace.
    + split; [|vm_compute; discriminate]. repeat (apply Forall_cons; [unfold is_byte; lia|]). constructor.
    + vm_compute. reflexivity.
    + repeat constructor; cbn; lia.
  - constructor; [|constructor]. unfold mild_block, mild_scalar, mild_array, plain_text. cbn.
    splits.
    + repeat (apply Forall_cons; [split; [ascii|exact I]|]). constructor.
    + repeat (apply Forall_cons; [split; [ascii|left; ascii]|]). constructor.
    + intros s a HS HA. decompose [or] HS; decompose [or] HA; subst; cbn; try discriminate; contradiction.
  - vm_compute. reflexivity.
  - eexists. vm_compute. reflexivity.
Qed.
