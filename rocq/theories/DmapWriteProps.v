(** Properties of the DMAP writer and of the conversions: C01, C02, C11, C12,
    C14-C26.  Every theorem is followed by a concrete case that meets its
    hypotheses. *)
From Coq Require Import ZArith List Bool Lia.
From Verif Require Import Base Bytes BytesSpec BytesProofs Utf8 FloatBits FloatSpec FloatBitsProofs
  DmapTypes DmapRead DmapWrite Conversions DmapSpec DmapReadProofs DmapFileProofs DmapStreamProofs
  DmapReadProps DmapWriteSpec DmapWriteProofs DmapWriterProofs DmapRewriteProofs DmapWriteFacts
  DmapObjectProofs DmapConvProofs.
Import ListNotations.
Open Scope Z_scope.

(** ** C01 Write then read *)

(** Records equal to what is read back for them are reproduced exactly. *)
Theorem C01_exact : forall bl,
  bl <> [] -> Forall (fun b => block_back b b) bl -> file_bytes bl <= 2 ^ 63 - 1 ->
  exists bs, dmap_write (map block_fields bl) = Ok bs /\
    zlen bs = file_bytes bl /\ dmap_read bs = Ok (map block_fields bl).
Proof.
  intros bl HN HB HL. destruct (round_trip bl bl HN) as (bs & H1 & _ & H2 & H3); auto.
  - clear - HB. induction HB; constructor; auto.
  - exists bs. auto.
Qed.
Print Assumptions C01_exact.

(** In general numpy scalars come back as Python numbers. *)
Theorem C01_round_trip : forall bl bl',
  bl <> [] -> Forall2 block_back bl bl' -> file_bytes bl <= 2 ^ 63 - 1 ->
  exists bs, dmap_write (map block_fields bl) = Ok bs /\
    zlen bs = file_bytes bl /\ dmap_read bs = Ok (map block_fields bl').
Proof.
  intros bl bl' HN HB HL. destruct (round_trip bl bl' HN HB HL) as (bs & H1 & _ & H2 & H3). eauto.
Qed.
Print Assumptions C01_round_trip.

(** What comes back is stable: it is reproduced exactly from then on. *)
Theorem C01_stable : forall b b', block_back b b' -> block_back b' b'.
Proof.
  intros b b' (HS0 & HA0 & HND & HL & HS & HA).
  assert (S1 : Forall2 scalar_back (fst b') (fst b') /\ map scalar_bytes (fst b') = map scalar_bytes (fst b)
     /\ map sc_name (fst b') = map sc_name (fst b)).
  { clear - HS. induction HS as [|s s' l l' Hs HS (I1 & I2 & I3)]; [repeat split; constructor|].
    destruct Hs as [name f v w HN HR]. cbn [map]. repeat split.
    - constructor; auto. constructor; auto. destruct HR; econstructor; eauto; cbn; auto; try (now rewrite H0).
      now apply widen_range.
    - rewrite I2. f_equal. unfold scalar_bytes. cbn [sc_name sc_value sc_fmt].
      destruct HR as [v z HI HZ|f v z HIn HI HF|t HP|b0 v Hb HSn HV|b0 v Hb HV|b0 Hb]; auto.
      + destruct v; cbn in HI; try discriminate; reflexivity.
      + destruct v; cbn in HI; try discriminate; reflexivity.
      + cbn [In] in HV. decompose [or] HV; subst; try tauto; reflexivity.
      + cbn [In] in HV. decompose [or] HV; subst; try tauto; reflexivity.
    - now rewrite I3. }
  assert (A1 : Forall2 (array_back (block_bytes b)) (snd b') (snd b') /\ map array_bytes (snd b') = map array_bytes (snd b)
     /\ map ar_name (snd b') = map ar_name (snd b)).
  { clear - HA. induction HA as [|a a' l l' Ha HA (I1 & I2 & I3)]; [repeat split; constructor|].
    destruct Ha. cbn [map]. repeat split.
    - constructor; auto. constructor; auto. destruct f; cbn in *; auto.
    - rewrite I2. reflexivity.
    - now rewrite I3. }
  destruct S1 as (S1 & S2 & S3), A1 as (A1 & A2 & A3).
  assert (HE : block_bytes b' = block_bytes b) by (unfold block_bytes; now rewrite S2, A2).
  unfold block_back. rewrite HE. splits; auto.
  - destruct (fst b'); [|discriminate]. inversion HS. congruence.
  - destruct (snd b'); [|discriminate]. inversion HA. congruence.
  - unfold block_fields in *. rewrite map_app, !map_map in *. cbn [fst] in *.
    change (map (fun x => sc_name x)) with (map sc_name) in *.
    change (map (fun x => ar_name x)) with (map ar_name) in *. now rewrite S3, A3.
Qed.
Print Assumptions C01_stable.

(** Scalars c (char 65), n (np.int16 -7), f (float32 1.5), t ("Hi"); arrays m
    (2 x 3 shorts) and slist (empty, unsigned shorts). *)
Definition ex_out : block :=
  ([mk_dscalar [99] (VInt 65) 1 Fc; mk_dscalar [110] (VNpInt NI16 (-7)) 2 Fh;
    mk_dscalar [102] (VF32 1069547520) 4 Ff; mk_dscalar [116] (VStr [72;105]) 9 Fs],
   [mk_darray [109] (mk_ndarray DI16 false [2;3] [1;2;3;-1;5;-32768]) 2 Fh 2 [2;3];
    mk_darray s_slist (mk_ndarray DU16 false [0] []) 17 FH 1 [0]]).
Definition ex_back : block :=
  ([mk_dscalar [99] (VInt 65) 1 Fc; mk_dscalar [110] (VInt (-7)) 2 Fh;
    mk_dscalar [102] (VFloat (widen 1069547520)) 4 Ff; mk_dscalar [116] (VStr [72;105]) 9 Fs],
   [mk_darray [109] (mk_ndarray DI16 false [2;3] [1;2;3;-1;5;-32768]) 2 Fh 2 [2;3];
    mk_darray s_slist (mk_ndarray DU16 false [0] []) 17 FH 1 [0]]).
Ltac forall_tac := repeat (constructor; [cbn; lia|]); try constructor.
Example C01_case : block_back ex_out ex_back /\ file_bytes [ex_out; ex_out] <= 2 ^ 63 - 1.
Proof.
  split; [|vm_compute; discriminate].
  assert (HB : block_bytes ex_out = 80) by reflexivity.
  unfold block_back. rewrite HB. splits; try discriminate; try lia.
  - repeat constructor; cbn; intuition discriminate.
  - constructor; [|constructor; [|constructor; [|constructor; [|constructor]]]].
    + apply (scalar_back_intro [99] Fc); [forall_tac|]. apply rb_char; [reflexivity|lia].
    + apply (scalar_back_intro [110] Fh); [forall_tac|]. apply rb_int; [cbn; auto|reflexivity|cbn; lia].
    + apply (scalar_back_intro [102] Ff); [forall_tac|]. apply rb_f32; [lia|reflexivity|cbn; auto].
    + apply (scalar_back_intro [116] Fs); [forall_tac|]. apply rb_str. forall_tac.
  - constructor; [|constructor; [|constructor]].
    + apply (array_back_intro 80 [109] Fh DI16); try reflexivity; try (forall_tac; fail); [cbv; split; congruence|].
      left. forall_tac.
    + apply (array_back_intro 80 s_slist FH DU16); try reflexivity; try (forall_tac; fail); [cbv; split; congruence|].
      right. splits; [reflexivity|discriminate|forall_tac].
Qed.
Example C01_case_run :
  (rlet bs := dmap_write [block_fields ex_out; block_fields ex_out] in dmap_read bs) =
  Ok [block_fields ex_back; block_fields ex_back].
Proof. vm_compute. reflexivity. Qed.

(** ** C02 Read then write *)

(** A file of plain blocks is reproduced (quiet NaNs included). *)
Theorem C02_plain : forall bl buf,
  wire_list plain_block bl buf -> bl <> [] -> zlen buf <= 2 ^ 63 - 1 ->
  exists rs, dmap_read buf = Ok rs /\ dmap_write rs = Ok buf.
Proof. intros bl buf H1 H2 H3. destruct (plain_rewrite bl buf H1 H2 H3). eauto. Qed.
Print Assumptions C02_plain.

(** Any accepted file whose fields satisfy the conditions, stated on the file
    as a whole (no NaN in a single-float scalar). *)
Theorem C02_accepted : forall buf rs,
  is_bytearray buf -> ~ negative_slist buf -> dmap_read buf = Ok rs -> stamped buf ->
  (forall bl, wire_file bl buf -> Forall tame_block bl) ->
  dmap_write rs = Ok buf.
Proof. exact rewrite_accepted. Qed.
Print Assumptions C02_accepted.

Example C02_case_plain : wire_list plain_block [ex_block; ex_block] (ex_block_bytes ++ ex_block_bytes).
Proof.
  assert (HB : plain_block ex_block ex_block_bytes).
  { apply (plain_block_intro _ _ [54;0;0;0] [2;0;0;0] [1;0;0;0]
      (([110] ++ [0] ++ [2] ++ [7;0]) ++ ([116] ++ [0] ++ [9] ++ [72;105;0]) ++ [])
      [109;0;2; 2;0;0;0; 3;0;0;0; 2;0;0;0; 1;0; 2;0; 3;0; 255;255; 5;0; 0;128]); try reflexivity.
    - exact ex_wire_block.
    - constructor; [|constructor; [|constructor]].
      + apply (plain_scalar_intro [110] Fh); [forall_tac|constructor; [cbn; auto|wint]|exact I].
      + apply (plain_scalar_intro [116] Fs); [forall_tac| |cbn; forall_tac].
        constructor. exists [72;105]. repeat split. cbn; lia.
    - constructor; [|constructor]. split; cbn; [forall_tac|left; forall_tac].
    - repeat constructor; cbn; intuition discriminate. }
  rewrite <- (app_nil_r ex_block_bytes) at 2. repeat (constructor; [exact HB|]). constructor.
Qed.
Example C02_case :
  is_bytearray ex_block_bytes /\ ~ negative_slist ex_block_bytes /\
  dmap_read ex_block_bytes = Ok [ex_record] /\ stamped ex_block_bytes /\
  (forall bl, wire_file bl ex_block_bytes -> Forall tame_block bl).
Proof.
  split; [exact ex_block_bytearray|]. split; [exact ex_no_slist|]. split; [reflexivity|]. split.
  - intros ns1 ns2 HW HN.
    assert (HB : wire_file [ex_block] ex_block_bytes).
    { rewrite <- (app_nil_r ex_block_bytes). constructor; [exists [1;0;1;0]; exact ex_wire_block|constructor]. }
    assert (H54 : walk ex_block_bytes 0 [54]).
    { apply (walk_step _ 0 54 [] [54;0;0;0]); [exists [1;0;1;0]; eexists; split; reflexivity|wint|lia|constructor]. }
    assert (HE : ns1 ++ ns2 = [54]) by (eapply walk_fun; eauto).
    destruct ns1 as [|n ns1].
    + exists [], (skipn 4 ex_block_bytes). split; reflexivity.
    + destruct ns1; [|destruct ns1; discriminate]. destruct ns2; [congruence|discriminate].
  - intros bl HW. assert (HX : wire_file [ex_block] ex_block_bytes).
    { rewrite <- (app_nil_r ex_block_bytes). constructor; [exists [1;0;1;0]; exact ex_wire_block|constructor]. }
    rewrite (C05_unambiguous _ _ _ HW HX). constructor; [|constructor].
    split; [repeat constructor; cbn; intuition discriminate|]. split.
    + constructor; [|constructor; [|constructor]]; split; cbn; auto; forall_tac.
    + constructor; [|constructor]. split; cbn; [forall_tac|left; forall_tac].
Qed.

(** Each condition is needed: identifier, repeated name, wide char, signalling
    NaN, slist of chars with size 0 (not writable). *)
Example C02_needs_identifier :
  let buf := [2;0;1;0] ++ skipn 4 ex_block_bytes in
  exists rs bs, dmap_read buf = Ok rs /\ dmap_write rs = Ok bs /\ bs <> buf.
Proof. do 2 eexists. split; [vm_compute; reflexivity|split; [vm_compute; reflexivity|discriminate]]. Qed.
Example C02_needs_distinct :
  let buf := [1;0;1;0; 37;0;0;0; 2;0;0;0; 1;0;0;0; 97;0;1;5; 97;0;1;6;
              98;0;2; 1;0;0;0; 1;0;0;0; 9;0] in
  exists rs bs, dmap_read buf = Ok rs /\ dmap_write rs = Ok bs /\ bs <> buf.
Proof. do 2 eexists. split; [vm_compute; reflexivity|split; [vm_compute; reflexivity|discriminate]]. Qed.
Example C02_needs_char :
  let buf := [1;0;1;0; 33;0;0;0; 1;0;0;0; 1;0;0;0; 97;0;1;200; 98;0;2; 1;0;0;0; 1;0;0;0; 9;0] in
  exists rs bs, dmap_read buf = Ok rs /\ dmap_write rs = Ok bs /\ bs <> buf.
Proof. do 2 eexists. split; [vm_compute; reflexivity|split; [vm_compute; reflexivity|discriminate]]. Qed.
Example C02_needs_quiet :
  let buf := [1;0;1;0; 36;0;0;0; 1;0;0;0; 1;0;0;0; 97;0;4;1;0;128;127; 98;0;2; 1;0;0;0; 1;0;0;0; 9;0] in
  exists rs bs, dmap_read buf = Ok rs /\ dmap_write rs = Ok bs /\ bs <> buf.
Proof. do 2 eexists. split; [vm_compute; reflexivity|split; [vm_compute; reflexivity|discriminate]]. Qed.
Example C02_needs_size :
  let buf := [1;0;1;0; 35;0;0;0; 1;0;0;0; 1;0;0;0; 97;0;1;5; 115;108;105;115;116;0;1; 1;0;0;0; 0;0;0;0] in
  exists rs, dmap_read buf = Ok rs /\ dmap_write rs = Raise IndexError.
Proof. eexists. split; [vm_compute; reflexivity|vm_compute; reflexivity]. Qed.

(** ** C11 Headers *)

(** One record: identifier, exact length, exact counts, then the fields. *)
Theorem C11_header : forall r bs r',
  dmap_record_to_bytes r = (Ok bs, r') ->
  exists w1 w2 w3 body,
    bs = [1; 0; 1; 0] ++ w1 ++ w2 ++ w3 ++ body /\
    wire_int32 65537 [1; 0; 1; 0] /\ wire_int32 (zlen bs) w1 /\
    wire_int32 (scalars_of r) w2 /\ wire_int32 (arrays_of r) w3.
Proof.
  intros r bs r' H. apply record_bytes_header in H as (w1 & w2 & w3 & bl & HE & H1 & H2 & H3 & _).
  exists w1, w2, w3, (concat bl). splits; auto. wint.
Qed.
Print Assumptions C11_header.

(** Every output of a writer, after any calls whatsoever, passes the integrity
    check. *)
Theorem C11_integrity : forall recs fn w fs ops rs bs,
  writer_new recs fn = Ok w ->
  fst (write_dmap_stream (fst (run_ops fs w ops)) rs) = Ok bs -> is_bytearray bs ->
  (exists ns, ns <> [] /\ walk bs 0 ns) /\
  forall fs', exists rd, dmap_reader_init fs' (FromStream bs) = Ok rd /\ fst (reader_integrity rd) = Ok tt.
Proof.
  intros recs fn w fs ops rs bs HW HS HB. apply writer_new_good in HW.
  apply (run_ops_good ops fs) in HW.
  destruct (stream_nonempty _ _ _ HW HS) as (ns & HN & HWk & HNE).
  split; [eauto|]. intros fs'.
  destruct (dmap_reader_init fs' (FromStream bs)) as [rd|e] eqn:E.
  - exists rd. split; auto. apply (C06_integrity fs' bs rd HB E). eauto.
  - unfold dmap_reader_init, reader_new in E. destruct (zlen bs =? 0) eqn:EZ; [|discriminate].
    apply Z.eqb_eq in EZ. unfold zlen in EZ. destruct bs; [congruence|]. cbn in EZ. lia.
Qed.
Print Assumptions C11_integrity.

(** A record with an array before a scalar: written, accepted by the integrity
    check, rejected by read_records. *)
Definition ex_disorder : record :=
  [([109], IArray (mk_darray [109] (mk_ndarray DI16 false [2] [1;2]) 2 Fh 1 [2]));
   ([110], IScalar (mk_dscalar [110] (VInt 7) 2 Fh))].
Definition ex_disorder_bytes : bytes :=
  [1;0;1;0; 36;0;0;0; 1;0;0;0; 1;0;0;0; 109;0;2;1;0;0;0;2;0;0;0;1;0;2;0; 110;0;2;7;0].
Example C11_case :
  dmap_record_to_bytes ex_disorder = (Ok ex_disorder_bytes, ex_disorder) /\
  zlen ex_disorder_bytes = 36 /\ scalars_of ex_disorder = 1 /\ arrays_of ex_disorder = 1.
Proof. repeat split. Qed.
Example C11_case_integrity :
  exists w, writer_new [ex_disorder] [] = Ok w /\
  fst (write_dmap_stream (fst (run_ops (fun _ => None) w [OpStream []; OpWrite []; OpWrite [102]])) [])
    = Ok (ex_disorder_bytes ++ ex_disorder_bytes ++ ex_disorder_bytes) /\
  is_bytearray (ex_disorder_bytes ++ ex_disorder_bytes ++ ex_disorder_bytes).
Proof.
  eexists. split; [reflexivity|]. split; [reflexivity|].
  split; [|vm_compute; discriminate]. unfold ex_disorder_bytes. cbn [app]. bytes_tac.
Qed.

(** ** C12 Element order *)

(** Writing an array given as a function of its index tuple: the sizes in
    reverse order, each element at its row-major place. *)
Theorem C12_write : forall name d ty f shape g bs a',
  dmap_array_to_bytes (mk_darray name (mk_ndarray d false shape (map g (all_indices shape)))
                                 ty f (zlen shape) shape) = (Ok bs, a') ->
  shape <> [] -> (forall idx, in_shape shape idx -> fits (dtype_signed d) (dtype_size d) (g idx)) ->
  exists head sb eb,
    bs = head ++ sb ++ eb /\ zlen head = zlen name + 6 /\
    wire_list wire_int32 (rev shape) sb /\
    forall idx, in_shape shape idx ->
      exists zb, occurs eb (Z.of_nat (dtype_size d) * horner 0 shape idx) zb /\
        wire_int (dtype_signed d) (dtype_size d) (g idx) zb.
Proof.
  intros name d ty f shape g bs a' H HN HF.
  destruct (array_write_layout _ _ _ _ _ _ _ _ _ H HN) as (head & sb & eb & H1 & H2 & H3 & H4).
  exists head, sb, eb. splits; auto. intros idx HI. exists (elem_enc d false (g idx)). split; auto.
  unfold elem_enc. apply wire_int_enc; auto. destruct d; cbn; lia.
Qed.
Print Assumptions C12_write.

(** Reading: the array shown has the sizes reversed again, and the element at
    an index tuple is the one at its row-major place. *)
Theorem C12_read : forall buf rs r k a,
  is_bytearray buf -> ~ negative_slist buf -> dmap_read buf = Ok rs ->
  In r rs -> In (k, IArray a) r ->
  exists p head sb eb,
    occurs buf p (head ++ sb ++ eb) /\
    wire_list wire_int32 (rev (ar_shape a)) sb /\ nd_shape (ar_value a) = ar_shape a /\
    forall idx, in_shape (ar_shape a) idx ->
      exists zb, occurs eb (Z.of_nat (wire_size (ar_fmt a)) * horner 0 (ar_shape a) idx) zb /\
        wire_int (wire_signed (ar_fmt a)) (wire_size (ar_fmt a))
          (nth (Z.to_nat (horner 0 (ar_shape a) idx)) (nd_data (ar_value a)) 0) zb.
Proof.
  intros buf rs r k a HB HN HR Hr Ha.
  destruct (read_array_layout _ _ _ _ _ HB HN HR Hr Ha) as (p & blk & bs & HO & HW).
  destruct (wire_array_layout _ _ _ HW) as (head & sb & eb & -> & H1 & H2 & H3).
  exists p, head, sb, eb. auto.
Qed.
Print Assumptions C12_read.

(** Row-major position: the index tuples enumerated last index fastest. *)
Theorem C12_position : forall shape idx, in_shape shape idx ->
  0 <= horner 0 shape idx < product shape /\
  nth_error (all_indices shape) (Z.to_nat (horner 0 shape idx)) = Some idx.
Proof. exact index_position. Qed.
Print Assumptions C12_position.

Example C12_case :
  let g := fun idx => match idx with [i; j; k] => 100 * i + 10 * j + k | _ => 0 end in
  exists head, fst (dmap_array_to_bytes (mk_darray [109] (mk_ndarray DI16 false [2;3;2] (map g (all_indices [2;3;2])))
                                 2 Fh 3 [2;3;2])) =
    Ok (head ++ [2;0;0;0; 3;0;0;0; 2;0;0;0] ++
        [0;0; 1;0; 10;0; 11;0; 20;0; 21;0; 100;0; 101;0; 110;0; 111;0; 120;0; 121;0]).
Proof. exists [109;0;2;3;0;0;0]. reflexivity. Qed.
Example C12_case_position : in_shape [2;3;2] [1;0;1] /\ horner 0 [2;3;2] [1;0;1] = 7.
Proof. split; [repeat constructor; lia|reflexivity]. Qed.
Example C12_case_read : In ex_record [ex_record] /\
  In ([109], IArray (mk_darray [109] (mk_ndarray DI16 false [2;3] [1;2;3;-1;5;-32768]) 2 Fh 2 [2;3])) ex_record.
Proof. cbn. auto. Qed.

(** ** C14 Records without scalars or without arrays *)

(** Every record of representable fields of one kind only (or of none) is
    written, and a file that starts with it is rejected. *)
Theorem C14_one_sided : forall ss ss' aa aa' rest,
  ss = [] \/ aa = [] ->
  Forall2 scalar_back ss ss' -> Forall2 (array_back (block_bytes (ss, aa))) aa aa' ->
  block_bytes (ss, aa) < 2 ^ 31 ->
  exists bs, dmap_write [block_fields (ss, aa)] = Ok bs /\
    (zlen (bs ++ rest) <= 2 ^ 63 - 1 -> dmap_read (bs ++ rest) = Raise ZeroByteError).
Proof.
  intros ss ss' aa aa' rest HE HS HA HL.
  destruct (block_written ss ss' aa aa' HS HA HL) as (bs & HB & _).
  exists bs. split.
  - rewrite (dmap_write_ok _ [block_fields (ss, aa)] [bs]); [now rewrite <- (app_nil_r bs) at 2| |discriminate|].
    + destruct ss as [|s ss]; [|reflexivity]. destruct aa as [|a aa]; reflexivity.
    + constructor; auto.
  - intros HM. eapply empty_side_rejected; eauto. unfold scalars_of, arrays_of, block_fields. cbn [fst snd].
    rewrite !filter_app.
    assert (F1 : forall l : list darray, filter (fun p : pystr * item => is_scalar (snd p)) (map (fun a => (ar_name a, IArray a)) l) = []).
    { induction l; cbn; auto. }
    assert (F2 : forall l : list dscalar, filter (fun p : pystr * item => is_array (snd p)) (map (fun a => (sc_name a, IScalar a)) l) = []).
    { induction l; cbn; auto. }
    destruct HE as [-> | ->]; cbn [map filter app].
    + left. now rewrite F1.
    + right. now rewrite app_nil_r, F2.
Qed.
Print Assumptions C14_one_sided.

(** Whatever the writer emits for any record of one kind only, also inside a
    longer list, is rejected where it comes first. *)
Theorem C14_rejected : forall r b r' rest,
  dmap_record_to_bytes r = (Ok b, r') -> scalars_of r = 0 \/ arrays_of r = 0 ->
  zlen (b ++ rest) <= 2 ^ 63 - 1 -> dmap_read (b ++ rest) = Raise ZeroByteError.
Proof. exact empty_side_rejected. Qed.
Print Assumptions C14_rejected.

Example C14_case :
  let s := mk_dscalar [110] (VInt 7) 2 Fh in
  Forall2 scalar_back [s] [s] /\ block_bytes ([s], []) < 2 ^ 31 /\
  dmap_write [block_fields ([s], [])] = Ok [1;0;1;0; 21;0;0;0; 1;0;0;0; 0;0;0;0; 110;0;2;7;0] /\
  dmap_read ([1;0;1;0; 21;0;0;0; 1;0;0;0; 0;0;0;0; 110;0;2;7;0] ++ ex_block_bytes) = Raise ZeroByteError.
Proof.
  cbv zeta. splits; try reflexivity.
  constructor; [|constructor]. apply (scalar_back_intro [110] Fh); [forall_tac|].
  apply rb_int; [cbn; auto|reflexivity|cbn; lia].
Qed.

(** ** C15 Char scalars *)

(** The bytes (or the exception) for every char value. *)
Theorem C15_char : forall name v z bs,
  plain_text name -> int_of v = Some z ->
  (dmap_scalar_to_bytes (mk_dscalar name v 1 Fc) = Ok bs ->
     exists vb, bs = name ++ [0; 1] ++ vb /\
       (0 <= z < 128 /\ vb = [z] \/
        128 <= z <= 1114111 /\ 2 <= zlen vb <= 4 /\ utf8_enc [z] = Some vb)) /\
  (0 <= z < 128 -> dmap_scalar_to_bytes (mk_dscalar name v 1 Fc) = Ok (name ++ [0; 1; z])) /\
  (- 2 ^ 31 <= z < 0 -> dmap_scalar_to_bytes (mk_dscalar name v 1 Fc) = Raise ValueError) /\
  (1114112 <= z < 2 ^ 31 -> dmap_scalar_to_bytes (mk_dscalar name v 1 Fc) = Raise ValueError) /\
  (z < - 2 ^ 31 \/ 2 ^ 31 <= z -> dmap_scalar_to_bytes (mk_dscalar name v 1 Fc) = Raise OverflowError) /\
  (55296 <= z < 57344 -> dmap_scalar_to_bytes (mk_dscalar name v 1 Fc) = Raise UnicodeEncodeError).
Proof.
  intros name v z bs HN HV.
  assert (HE : dmap_scalar_to_bytes (mk_dscalar name v 1 Fc) =
    rlet vb := chr_encode z in Ok (name ++ [0; 1] ++ vb)).
  { unfold dmap_scalar_to_bytes. cbn [sc_name sc_type sc_fmt sc_value].
    rewrite (proj1 (pack_text_plain _ HN)). cbn [rbind]. change (pack_type 1) with (@Ok bytes [1]).
    cbn [rbind]. destruct v; cbn in HV; try discriminate; injection HV as ->; cbn [scalar_data_bytes];
      destruct (chr_encode z); cbn [rbind]; rewrite <- ?app_assoc; reflexivity. }
  rewrite HE. destruct (chr_encode_cases z) as (H1 & H2 & H3 & H4 & H5 & H6). splits.
  - intros HX.
    assert (HC : 0 <= z < 128 \/ 128 <= z <= 1114111 /\ (z < 55296 \/ 57344 <= z) \/
       (55296 <= z < 57344) \/ (1114112 <= z < 2 ^ 31) \/ (- 2 ^ 31 <= z < 0) \/
       (z < - 2 ^ 31 \/ 2 ^ 31 <= z)) by lia.
    destruct HC as [HC|[[HC1 HC2]|[HC|[HC|[HC|HC]]]]].
    + rewrite H1 in HX by auto. cbn [rbind] in HX. apply ok_inj in HX as <-. eexists. split; [reflexivity|auto].
    + destruct (H2 HC1 HC2) as (vb & Hvb & HL & HU). rewrite Hvb in HX. cbn [rbind] in HX.
      apply ok_inj in HX as <-. exists vb. split; auto.
    + rewrite H3 in HX by auto. discriminate.
    + rewrite H4 in HX by auto. discriminate.
    + rewrite H5 in HX by auto. discriminate.
    + rewrite H6 in HX by auto. discriminate.
  - intros HC. rewrite H1 by auto. reflexivity.
  - intros HC. now rewrite H5.
  - intros HC. now rewrite H4.
  - intros HC. now rewrite H6.
  - intros HC. now rewrite H3.
Qed.
Print Assumptions C15_char.

(** A record with a char of 128 or more is not read back as written when all
    its text is ASCII. *)
Theorem C15_not_same : forall rs bs r,
  is_bytearray bs -> ~ negative_slist bs -> dmap_write rs = Ok bs ->
  In r rs -> Exists (fun p => wide_char (snd p)) r -> Forall (fun p => ascii_item (snd p)) r ->
  dmap_read bs <> Ok rs.
Proof.
  intros rs bs r HB HN HW HI HX HA HR.
  apply (block_text_balance rs bs r HB HN HW HR HI) in HX. apply Exists_exists in HX as (p & Hp & HX).
  rewrite Forall_forall in HA. apply HX. now apply HA.
Qed.
Print Assumptions C15_not_same.

(** Bytes 128..255 become negative int8 values in the dictionaries returned to
    the user, and these cannot be written. *)
Theorem C15_dict_char : forall name b,
  128 <= b < 256 -> plain_text name ->
  exists v s, field2dict (IScalar (mk_dscalar name (VInt b) 1 Fc)) = Ok (IPlain v) /\
    v = VNpInt NI8 (b - 256) /\
    field2dmap name (IPlain v) = Ok (IScalar s) /\ dmap_scalar_to_bytes s = Raise ValueError.
Proof.
  intros name b Hb HN.
  exists (VNpInt NI8 (b - 256)), (mk_dscalar name (VNpInt NI8 (b - 256)) 1 Fc). splits; auto.
  - cbn [field2dict sc_fmt sc_value cast_value np_int np_limit].
    replace ((b <? - 2 ^ 63) || (2 ^ 63 <=? b)) with false by lia. cbn [rbind np_wrap]. do 3 f_equal. unfold to_signed.
    rewrite Z.mod_small by lia. change (wrap_mod 1) with 256. destruct (b <? 256 / 2) eqn:E; auto.
    apply Z.ltb_lt in E. change (256 / 2) with 128 in E. lia.
  - pose proof (C15_char name (VNpInt NI8 (b - 256)) (b - 256) [] HN eq_refl) as H.
    decompose [and] H. apply H1. lia.
Qed.
Print Assumptions C15_dict_char.

Definition ex_wide : record :=
  [([99], IScalar (mk_dscalar [99] (VInt 200) 1 Fc));
   ([109], IArray (mk_darray [109] (mk_ndarray DI16 false [2] [1;2]) 2 Fh 1 [2]))].
Example C15_case :
  exists bs, dmap_write [ex_wide] = Ok bs /\ is_bytearray bs /\ ~ negative_slist bs /\
    Exists (fun p => wide_char (snd p)) ex_wide /\ Forall (fun p => ascii_item (snd p)) ex_wide.
Proof.
  eexists. split; [vm_compute; reflexivity|]. split; [split; [bytes_tac|vm_compute; discriminate]|].
  split; [no_slist|]. split.
  - left. cbn. split; auto. exists 200. split; auto. lia.
  - constructor; [|constructor; [|constructor]]; cbn.
    + split; [forall_tac|discriminate].
    + forall_tac.
Qed.
Example C15_chars_run :
  dmap_scalar_to_bytes (mk_dscalar [99] (VInt 200) 1 Fc) = Ok [99;0;1;195;136] /\
  dmap_scalar_to_bytes (mk_dscalar [99] (VInt (-1)) 1 Fc) = Raise ValueError.
Proof. split; reflexivity. Qed.

(** ** C16 Non-ASCII text *)

Theorem C16_ascii : forall s, plain_text s -> pack_text s = Ok (s ++ [0]).
Proof. intros s H. apply (pack_text_plain s H). Qed.
Print Assumptions C16_ascii.

(** Every byte string written for a text with a non-ASCII character is a prefix
    of the UTF-8 encoding of the text, one byte longer than the number of
    characters: the terminating NUL is missing. *)
Theorem C16_truncated : forall s bs,
  pack_text s = Ok bs -> ~ ascii_text s ->
  exists e rest, utf8_enc s = Some e /\ e = bs ++ rest /\ length bs = S (length s).
Proof.
  intros s bs H HA. destruct (pack_text_nonascii s bs H HA) as (e & rest & HE & _ & _ & HL & HB).
  exists e, (skipn (S (length s)) e). splits; auto. rewrite HB. symmetry. apply firstn_skipn.
Qed.
Print Assumptions C16_truncated.

(** A printable non-ASCII name and its type code never start with the
    NUL-terminated name. *)
Theorem C16_name : forall name code bs tail,
  pack_text name = Ok bs -> ~ ascii_text name -> Forall (fun c => 32 <= c) name -> 1 <= code < 32 ->
  forall nb rest, wire_text name nb -> nb ++ rest <> bs ++ [code] ++ tail.
Proof. exact name_not_reread. Qed.
Print Assumptions C16_name.

(** A record with a non-ASCII text and no wide char is not read back as
    written. *)
Theorem C16_not_same : forall rs bs r,
  is_bytearray bs -> ~ negative_slist bs -> dmap_write rs = Ok bs ->
  In r rs -> Exists (fun p => ~ ascii_item (snd p)) r -> Forall (fun p => ~ wide_char (snd p)) r ->
  dmap_read bs <> Ok rs.
Proof.
  intros rs bs r HB HN HW HI HX HA HR.
  apply (block_text_balance rs bs r HB HN HW HR HI) in HX. apply Exists_exists in HX as (p & Hp & HX).
  rewrite Forall_forall in HA. now apply (HA p).
Qed.
Print Assumptions C16_not_same.

Definition ex_accent : record :=
  [([110; 233], IScalar (mk_dscalar [110; 233] (VInt 7) 2 Fh));
   ([109], IArray (mk_darray [109] (mk_ndarray DI16 false [2] [1;2]) 2 Fh 1 [2]))].
Example C16_case :
  pack_text [110; 233] = Ok [110; 195; 169] /\
  exists bs, dmap_write [ex_accent] = Ok bs /\ is_bytearray bs /\ ~ negative_slist bs /\
    Exists (fun p => ~ ascii_item (snd p)) ex_accent /\ Forall (fun p => ~ wide_char (snd p)) ex_accent.
Proof.
  split; [reflexivity|].
  eexists. split; [vm_compute; reflexivity|]. split; [split; [bytes_tac|vm_compute; discriminate]|].
  split; [no_slist|]. split.
  - left. cbn. intros [HA _]. inversion HA as [|? ? _ HA2]. inversion HA2. lia.
  - constructor; [|constructor; [|constructor]]; cbn; [intros [HA _]; discriminate|tauto].
Qed.
