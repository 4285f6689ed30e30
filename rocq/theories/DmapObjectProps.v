(** Properties of the writer object and of the conversions: C17-C26.  Every
    theorem is followed by a concrete case that meets its hypotheses. *)
From Coq Require Import ZArith List Bool Lia.
From Verif Require Import Base Bytes BytesSpec BytesProofs Utf8 FloatBits FloatSpec FloatBitsProofs
  DmapTypes DmapRead DmapWrite Conversions DmapSpec DmapReadProofs DmapFileProofs DmapStreamProofs
  DmapReadProps DmapWriteSpec DmapWriteProofs DmapWriterProofs DmapRewriteProofs DmapWriteFacts
  DmapObjectProofs DmapConvProofs DmapWriteProps FloatRoundProofs.
Import ListNotations.
Open Scope Z_scope.

(** ** C17 Writing again *)

(** The (k+1)-th write on one object emits everything written before, then all
    records again; odd copies are [b0], even copies are the bytes [b1] of the
    records with the shapes of their multi-dimensional arrays reversed. *)
Theorem C17_accumulates : forall rs rs' fn w b0,
  check_dmap_dict rs = Ok rs' -> writer_new rs fn = Ok w -> dmap_write rs = Ok b0 ->
  exists b1, dmap_write (map flip_record rs') = Ok b1 /\ zlen b1 = zlen b0 /\
    (b1 = b0 <->
     Forall (Forall (fun p => match snd p with
                              | IArray a => 1 < ar_dim a -> rev (ar_shape a) = ar_shape a
                              | _ => True end)) rs') /\
    forall k,
      fst (write_dmap_stream (iterate k (fun w => snd (write_dmap_stream w [])) w) []) =
      Ok (alternate (S k) b0 b1).
Proof.
  intros rs rs' fn w b0 HC HN HW.
  destruct (dmap_write_inv _ _ HW) as (rs0 & bl & HC' & HNE & HF & ->).
  assert (rs0 = rs') as -> by congruence. clear HC'.
  destruct (flip_records _ _ HF) as (bl' & HF' & HL & HP).
  exists (concat bl'). splits.
  - apply (dmap_write_ok _ (map flip_record rs') bl'); auto.
    + eapply check_flip; eauto.
    + destruct rs'; [congruence|discriminate].
  - now apply zlen_concat_map.
  - exact HP.
  - intros k. unfold writer_new in HN. rewrite HC in HN. cbn [rbind] in HN. injection HN as <-.
    exact (repeated_stream k fn rs' [] bl bl' HNE HF HF').
Qed.
Print Assumptions C17_accumulates.

(** A 2 x 3 array: the second copy is different, and the reader shows it with
    shape 3 x 2. *)
Definition ex_flip : record :=
  [([110], IScalar (mk_dscalar [110] (VInt 7) 2 Fh));
   ([109], IArray (mk_darray [109] (mk_ndarray DI16 false [2;3] [1;2;3;4;5;6]) 2 Fh 2 [2;3]))].
Example C17_case :
  exists w b0, check_dmap_dict [ex_flip] = Ok [ex_flip] /\ writer_new [ex_flip] [] = Ok w /\
    dmap_write [ex_flip] = Ok b0 /\
    (rlet bs := fst (write_dmap_stream (iterate 1 (fun w => snd (write_dmap_stream w [])) w) []) in
     dmap_read bs) =
    Ok [ex_flip;
        [([110], IScalar (mk_dscalar [110] (VInt 7) 2 Fh));
         ([109], IArray (mk_darray [109] (mk_ndarray DI16 false [3;2] [1;2;3;4;5;6]) 2 Fh 2 [3;2]))]].
Proof.
  do 2 eexists. split; [reflexivity|]. split; [reflexivity|].
  split; [vm_compute; reflexivity|vm_compute; reflexivity].
Qed.

(** ** C18 Files *)

Theorem C18_failed_write : forall fs w fn e w' fs',
  write_dmap fs w fn = (Raise e, w', fs') -> fs' = fs.
Proof. intros fs w fn e w' fs' H. apply write_dmap_effect in H. apply H. Qed.
Print Assumptions C18_failed_write.

Theorem C18_written : forall fs w fn w' fs',
  write_dmap fs w fn = (Ok tt, w', fs') ->
  exists name bs, name <> [] /\ (fn <> [] -> name = fn) /\ (fn = [] -> name = wr_filename w) /\
    fst (write_dmap_stream w []) = Ok bs /\ fs' name = Some bs /\
    forall n, n <> name -> fs' n = fs n.
Proof.
  intros fs w fn w' fs' H. apply write_dmap_effect in H. cbv zeta in H.
  destruct H as (bs & H1 & H2 & H3 & H4).
  exists (match fn with [] => wr_filename w | _ => fn end), bs. splits; auto; destruct fn; congruence.
Qed.
Print Assumptions C18_written.

Example C18_case :
  let fs := fun n => if str_eqb n [111] then Some [1;2;3] else None in
  exists w w' fs', writer_new [ex_record] [] = Ok w /\ write_dmap fs w [102] = (Ok tt, w', fs') /\
    fs' [102] = Some ex_block_bytes /\ fs' [111] = Some [1;2;3].
Proof. do 3 eexists. split; [reflexivity|]. split; [reflexivity|]. split; reflexivity. Qed.
Example C18_case_failed :
  let fs := fun n => if str_eqb n [111] then Some [1;2;3] else None in
  exists w w', writer_new [[([110], IScalar (mk_dscalar [110] (VInt 70000) 2 Fh))]] [] = Ok w /\
    write_dmap fs w [111] = (Raise StructError, w', fs).
Proof. do 2 eexists. split; reflexivity. Qed.

(** ** C19 The filename *)

(** After any sequence of calls (failed ones included) a write without name
    uses the last non-empty name given, and raises FilenameRequiredError
    exactly when none was. *)
Theorem C19_last_name : forall recs fn0 w0 fs0 ops fn w fs,
  writer_new recs fn0 = Ok w0 -> run_ops fs0 w0 ops = (w, fs) ->
  let name := last_given fn0 (ops ++ [OpWrite fn]) in
  match write_dmap fs w fn with
  | (Ok _, _, fs') => name <> [] /\ (exists bs, fs' name = Some bs) /\ forall n, n <> name -> fs' n = fs n
  | (Raise e, _, _) => e = FilenameRequiredError <-> name = []
  end.
Proof.
  intros recs fn0 w0 fs0 ops fn w fs HN HR name.
  assert (HNm : name = match fn with [] => wr_filename w | _ => fn end).
  { unfold name. pose proof (run_ops_name ops fs0 w0) as H. rewrite HR in H. cbn [fst] in H.
    assert (H0 : wr_filename w0 = fn0).
    { unfold writer_new in HN. destruct (check_dmap_dict recs); [|discriminate]. now injection HN as <-. }
    rewrite H, H0. clear. revert fn0; induction ops as [|[[|c n]|rs] ops IH]; intros fn0; cbn [app last_given]; auto. }
  destruct (write_dmap fs w fn) as [[[[]|e] w'] fs'] eqn:E; apply write_dmap_effect in E; cbv zeta in E;
    rewrite <- HNm in E.
  - destruct E as (bs & H1 & H2 & H3 & H4). eauto.
  - apply E.
Qed.
Print Assumptions C19_last_name.

Example C19_case :
  exists w0 w fs, writer_new [ex_record] [97] = Ok w0 /\
    run_ops (fun _ => None) w0 [OpStream []; OpWrite [98]; OpWrite []] = (w, fs) /\
    last_given [97] ([OpStream []; OpWrite [98]; OpWrite []] ++ [OpWrite []]) = [98] /\
    fs [97] = None /\ exists bs, fs [98] = Some bs /\ zlen bs = 162.
Proof.
  do 3 eexists. split; [reflexivity|]. split; [reflexivity|]. split; [reflexivity|].
  split; [reflexivity|]. eexists. split; [reflexivity|]. reflexivity.
Qed.
Example C19_case_none :
  exists w, writer_new [ex_record] [] = Ok w /\
    fst (fst (write_dmap (fun _ => None) w [])) = Raise FilenameRequiredError.
Proof. eexists. split; reflexivity. Qed.

(** ** C20 Order of the fields *)

(** If the bytes written for some records are read back as the same records,
    then in every record all scalars come before all arrays. *)
Theorem C20_order_needed : forall rs bs,
  is_bytearray bs -> ~ negative_slist bs -> dmap_write rs = Ok bs -> dmap_read bs = Ok rs ->
  Forall (fun r => exists r1 r2, r = r1 ++ r2 /\
    Forall (fun p => is_scalar (snd p) = true) r1 /\ Forall (fun p => is_array (snd p) = true) r2) rs.
Proof.
  intros rs bs HB HN HW HR. destruct (written_and_read _ _ HB HN HW HR) as (bl & xs & -> & _ & _).
  apply Forall_forall. intros r Hr. apply in_map_iff in Hr as (b & <- & _).
  exists (map (fun s => (sc_name s, IScalar s)) (fst b)), (map (fun a => (ar_name a, IArray a)) (snd b)).
  splits; auto; apply Forall_forall; intros p Hp; apply in_map_iff in Hp as (x & <- & _); reflexivity.
Qed.
Print Assumptions C20_order_needed.

(** For representable records that order is also sufficient: C01_exact. *)
Theorem C20_order_suffices : forall bl,
  bl <> [] -> Forall (fun b => block_back b b) bl -> file_bytes bl <= 2 ^ 63 - 1 ->
  exists bs, dmap_write (map block_fields bl) = Ok bs /\ dmap_read bs = Ok (map block_fields bl).
Proof. intros bl H1 H2 H3. destruct (C01_exact bl H1 H2 H3) as (bs & H4 & _ & H5). eauto. Qed.
Print Assumptions C20_order_suffices.

(** Written by the writer, rejected by the reader. *)
Example C20_case :
  exists e, dmap_write [ex_disorder] = Ok ex_disorder_bytes /\ dmap_read ex_disorder_bytes = Raise e.
Proof. eexists. split; [reflexivity|vm_compute; reflexivity]. Qed.
Example C20_case_ordered :
  dmap_write [ex_record] = Ok ex_block_bytes /\ dmap_read ex_block_bytes = Ok [ex_record].
Proof. split; reflexivity. Qed.

(** ** C21 Integer scalars *)

Theorem C21_range : forall f v z name bs,
  In f [Fh; Fi; Fq; FB; FH; FI; FQ] -> int_of v = Some z -> plain_text name ->
  (dmap_scalar_to_bytes (mk_dscalar name v (wire_code f) f) = Ok bs <->
   exists vb, wire_int (wire_signed f) (wire_size f) z vb /\ bs = name ++ [0; wire_code f] ++ vb) /\
  (fits (wire_signed f) (wire_size f) z ->
     exists bs', dmap_scalar_to_bytes (mk_dscalar name v (wire_code f) f) = Ok bs') /\
  (~ fits (wire_signed f) (wire_size f) z ->
     dmap_scalar_to_bytes (mk_dscalar name v (wire_code f) f) = Raise StructError).
Proof.
  intros f v z name bs HI HV HN.
  assert (Hs : (0 < wire_size f)%nat) by (destruct f; cbn; lia).
  assert (HE : dmap_scalar_to_bytes (mk_dscalar name v (wire_code f) f) =
    rlet vb := pack_int (wire_signed f) (wire_size f) z in Ok (name ++ [0; wire_code f] ++ vb)).
  { unfold dmap_scalar_to_bytes. cbn [sc_name sc_type sc_fmt sc_value].
    rewrite (proj1 (pack_text_plain _ HN)), pack_type_code, (int_scalar_bytes f v z) by auto. cbn [rbind].
    destruct (pack_int _ _ _); cbn [rbind]; rewrite <- ?app_assoc; reflexivity. }
  rewrite HE. destruct (pack_int_cases (wire_signed f) (wire_size f) z Hs) as [HP1 HP2]. splits.
  - split.
    + intros H. destruct (pack_int _ _ _) as [vb|e] eqn:E; [|discriminate]. cbn [rbind] in H.
      apply ok_inj in H as <-. exists vb. split; auto. now apply HP1.
    + intros (vb & HW & ->). apply HP1 in HW. now rewrite HW.
  - intros HF. pose proof (wire_int_enc _ _ _ Hs HF) as HW. apply HP1 in HW. rewrite HW. cbn [rbind]. eauto.
  - intros HF. now rewrite (HP2 HF).
Qed.
Print Assumptions C21_range.

(** Whatever the name and the type code: if anything is written, the value was
    in range and its bytes come last. *)
Theorem C21_never_wrapped : forall s z bs,
  In (sc_fmt s) [Fh; Fi; Fq; FB; FH; FI; FQ] -> int_of (sc_value s) = Some z ->
  dmap_scalar_to_bytes s = Ok bs ->
  exists head vb, bs = head ++ vb /\ wire_int (wire_signed (sc_fmt s)) (wire_size (sc_fmt s)) z vb.
Proof.
  intros s z bs HI HV H. unfold dmap_scalar_to_bytes in H.
  inv_rbind H n. inv_rbind H t. inv_rbind H d. apply ok_inj in H as <-.
  exists (n ++ t), d. split; [now rewrite <- app_assoc|].
  match goal with HD : scalar_data_bytes _ _ = Ok d |- _ =>
    rewrite (int_scalar_bytes _ _ z) in HD by auto; apply pack_int_cases in HD; auto end.
  destruct (sc_fmt s); cbn; lia.
Qed.
Print Assumptions C21_never_wrapped.

Example C21_case :
  dmap_scalar_to_bytes (mk_dscalar [110] (VNpInt NI32 (-32768)) 2 Fh) = Ok [110;0;2;0;128] /\
  dmap_scalar_to_bytes (mk_dscalar [110] (VInt 32768) 2 Fh) = Raise StructError /\
  dmap_scalar_to_bytes (mk_dscalar [110] (VInt (-1)) 16 FB) = Raise StructError /\
  fits true 2 (-32768) /\ ~ fits true 2 32768.
Proof. splits; try reflexivity; cbn; lia. Qed.

(** ** C22 Single floats *)

(** Reading four bytes as a float scalar and writing the value again. *)
Theorem C22_bits : forall buf c v c',
  Forall is_byte buf -> 0 <= c -> read_data buf Ff c = (Ok v, c') ->
  exists vb vb', occurs buf c vb /\ length vb = 4%nat /\
    scalar_data_bytes Ff v = Ok vb' /\
    (f32_snan (le_num vb) = false -> vb' = vb) /\
    (f32_snan (le_num vb) = true -> length vb' = 4%nat /\ le_num vb' = le_num vb + 2 ^ 22).
Proof.
  intros buf c v c' HB Hc H. cbn [read_data] in H. unfold bind in H.
  destruct (read_data_raw buf 4 c) as [[bs|e] c1] eqn:E; [|discriminate]. injection H as <- <-.
  apply read_raw_ok in E; auto. destruct E as (HO & HL & _).
  assert (HBs : Forall is_byte bs).
  { destruct HO as (pre & post & -> & _). rewrite !Forall_app in HB. tauto. }
  destruct (float_rewrite bs HL HBs) as (vb' & H1 & H2 & H3 & H4).
  exists bs, vb'. splits; auto.
  - intros HS. rewrite HS in H4. apply le_dec_inj; auto. congruence.
  - intros HS. rewrite HS in H4. auto.
Qed.
Print Assumptions C22_bits.

(** The double shown for a finite single is the same number. *)
Theorem C22_value : forall b, 0 <= b < 2 ^ 32 -> f32_exp b <> 255 ->
  f64_val (widen b) = f32_val b * 2 ^ 925 /\ f64_exp (widen b) <> 2047 /\ f64_sign (widen b) = f32_sign b.
Proof. exact widen_exact. Qed.
Print Assumptions C22_value.

(** -0.1f, the smallest subnormal, infinity, and a signalling NaN. *)
Example C22_case :
  scalar_data_bytes Ff (VFloat (widen 3184315597)) = Ok [205;204;204;189] /\
  scalar_data_bytes Ff (VFloat (widen 1)) = Ok [1;0;0;0] /\
  scalar_data_bytes Ff (VFloat (widen 2139095040)) = Ok [0;0;128;127] /\
  scalar_data_bytes Ff (VFloat (widen 2139095041)) = Ok [1;0;192;127] /\
  f32_snan 2139095041 = true /\ f32_snan 3184315597 = false.
Proof. splits; reflexivity. Qed.
Example C22_case_read :
  read_data [9; 205;204;204;189] Ff 1 = (Ok (VFloat 13815242217029107712), 5).
Proof. vm_compute. reflexivity. Qed.

(** ** C52 Doubles written as single floats *)

(** A finite double given for a float scalar is always written, as the single
    nearest to it, of two equally near ones the one with even mantissa, with the
    same sign; from half a unit beyond the largest single on it is infinity. *)
Theorem C52_nearest_single : forall v b,
  v = VFloat b \/ v = VF64 b -> 0 <= b < 2 ^ 64 -> f64_exp b <> 2047 ->
  exists bytes, scalar_data_bytes Ff v = Ok bytes /\ length bytes = 4%nat /\ Forall is_byte bytes /\
    let c := le_num bytes in
    f32_sign c = f64_sign b /\
    (f32_exp c = 255 <-> (2 ^ 25 - 1) * 2 ^ 1177 <= Z.abs (f64_val b)) /\
    (f32_exp c = 255 -> f32_man c = 0) /\
    (f32_exp c <> 255 -> forall c', 0 <= c' < 2 ^ 32 -> f32_exp c' <> 255 ->
       Z.abs (f64_val b - f32_val c * 2 ^ 925) <= Z.abs (f64_val b - f32_val c' * 2 ^ 925) /\
       (Z.abs (f64_val b - f32_val c * 2 ^ 925) = Z.abs (f64_val b - f32_val c' * 2 ^ 925) ->
        f32_val c <> f32_val c' -> Z.even (f32_man c) = true)).
Proof.
  intros v b Hv Hb HF. exists (le_enc 4 (narrow b)).
  assert (HN : le_num (le_enc 4 (narrow b)) = narrow b).
  { rewrite le_num_dec, le_dec_enc. apply Z.mod_small. exact (proj1 (narrow_range b Hb)). }
  rewrite HN. splits.
  - destruct Hv as [-> | ->]; cbn [scalar_data_bytes]; now rewrite narrow_narrow.
  - apply le_enc_length.
  - apply le_enc_bytes.
  - exact (narrow_nearest b Hb HF).
Qed.
Print Assumptions C52_nearest_single.

(** 0.1; two ties, 1 + 2^-24 down and 1 + 3 * 2^-24 up; the last double that is
    not infinity and the first that is; two values around half the smallest
    subnormal. *)
Example C52_case :
  scalar_data_bytes Ff (VFloat 4591870180066957722) = Ok [205;204;204;61] /\
  scalar_data_bytes Ff (VF64 4607182419068452864) = Ok [0;0;128;63] /\
  scalar_data_bytes Ff (VFloat 4607182419605323776) = Ok [2;0;128;63] /\
  scalar_data_bytes Ff (VFloat 5183643170835005439) = Ok [255;255;127;127] /\
  scalar_data_bytes Ff (VFloat 5183643170835005440) = Ok [0;0;128;127] /\
  scalar_data_bytes Ff (VFloat 13142142314781365601) = Ok [0;0;0;128] /\
  scalar_data_bytes Ff (VFloat 13155074615967543852) = Ok [1;0;0;128] /\
  f64_exp 4607182419605323776 <> 2047.
Proof. splits; try (vm_compute; reflexivity). vm_compute. discriminate. Qed.

(** ** C23 dmap2dict and dict2dmap *)

(** Records of an accepted file can be converted to dictionaries; converting
    back keeps names, order, type codes, formats, values (chars of 128 and more
    become negative) and arrays, unless some array has one of the 64-bit
    formats: then dict2dmap raises KeyError. *)
Theorem C23_there_and_back : forall buf rs,
  is_bytearray buf -> ~ negative_slist buf -> dmap_read buf = Ok rs ->
  exists ds, dmap_read_dicts buf = Ok ds /\
    ((forall r p, In r rs -> In p r -> long_array (snd p) = false) ->
       exists rs', dict2dmap ds = Ok rs' /\ Forall2 record_kept rs rs') /\
    (forall r p, In r rs -> In p r -> long_array (snd p) = true -> dict2dmap ds = Raise KeyError).
Proof.
  intros buf rs HB HN HR. destruct (there_and_back rs (read_wire_items _ _ HB HN HR)) as (ds & HD & HX).
  exists ds. unfold dmap_read_dicts. rewrite HR. cbn [rbind]. split; auto. split.
  - intros HA. destruct (has_long rs) eqn:E; auto. apply has_long_iff in E as (r & p & H1 & H2 & H3).
    rewrite (HA r p) in H3 by auto. discriminate.
  - intros r p H1 H2 H3. assert (E : has_long rs = true) by (apply has_long_iff; eauto).
    now rewrite E in HX.
Qed.
Print Assumptions C23_there_and_back.

(** A char of 200 and an int array; an array of 64-bit integers. *)
Definition ex_dict_bytes : bytes :=
  [1;0;1;0; 35;0;0;0; 1;0;0;0; 1;0;0;0; 97;0;1;200; 98;0;3; 1;0;0;0; 1;0;0;0; 255;255;255;255].
Example C23_case :
  is_bytearray ex_dict_bytes /\ ~ negative_slist ex_dict_bytes /\
  (rlet ds := dmap_read_dicts ex_dict_bytes in dict2dmap ds) =
  Ok [[([97], IScalar (mk_dscalar [97] (VNpInt NI8 (-56)) 1 Fc));
       ([98], IArray (mk_darray [98] (mk_ndarray DI32 false [1] [-1]) 3 Fi 1 [1]))]].
Proof.
  split; [split; [bytes_tac|vm_compute; discriminate]|]. split; [no_slist|]. vm_compute. reflexivity.
Qed.
Definition ex_long_bytes : bytes :=
  [1;0;1;0; 39;0;0;0; 1;0;0;0; 1;0;0;0; 97;0;1;5; 98;0;10; 1;0;0;0; 1;0;0;0; 7;0;0;0;0;0;0;0].
Example C23_case_long :
  is_bytearray ex_long_bytes /\ ~ negative_slist ex_long_bytes /\
  (exists ds, dmap_read_dicts ex_long_bytes = Ok ds /\ dict2dmap ds = Raise KeyError).
Proof.
  split; [split; [bytes_tac|vm_compute; discriminate]|]. split; [no_slist|].
  eexists. split; [vm_compute; reflexivity|vm_compute; reflexivity].
Qed.

(** ** C24 Detection of plain dictionaries *)

Theorem C24_detection : forall rs,
  ((forall v, first_value rs <> Some (IPlain v)) -> check_dmap_dict rs = Ok rs) /\
  (forall v, first_value rs = Some (IPlain v) -> check_dmap_dict rs = dict2dmap rs).
Proof. exact check_cases. Qed.
Print Assumptions C24_detection.

(** A conversion that succeeds saw only plain values and leaves none, with the
    same field names. *)
Theorem C24_converted : forall rs v rs',
  first_value rs = Some (IPlain v) -> check_dmap_dict rs = Ok rs' ->
  Forall (Forall (fun p => exists w, snd p = IPlain w)) rs /\
  Forall (Forall (fun p => forall w, snd p <> IPlain w)) rs' /\
  map (map fst) rs' = map (map fst) rs.
Proof.
  intros rs v rs' HF HC. rewrite (proj2 (check_cases rs) v HF) in HC.
  apply dict2dmap_dmap in HC as (H1 & H2 & H3). auto.
Qed.
Print Assumptions C24_converted.

(** Not converted: a plain value met later raises DmapTypeError when everything
    before it can be written. *)
Theorem C24_plain_later : forall rs1 r1 k v r2 rs2 xs bl,
  (forall w, first_value (rs1 ++ (r1 ++ (k, IPlain v) :: r2) :: rs2) <> Some (IPlain w)) ->
  Forall2 (fun r b => fst (dmap_record_to_bytes r) = Ok b) rs1 xs ->
  Forall2 (fun p b => item_bytes (snd p) = Ok b) r1 bl ->
  dmap_write (rs1 ++ (r1 ++ (k, IPlain v) :: r2) :: rs2) = Raise DmapTypeError.
Proof.
  intros rs1 r1 k v r2 rs2 xs bl HF HX HB. apply (plain_in_dmap _ _ _ _ _ _ xs bl); auto.
  clear - HX. induction HX as [|r b rs xs Hr HX IH]; constructor; auto.
  destruct (dmap_record_to_bytes r) as [[x|e] r'] eqn:E; [|discriminate]. cbn [fst] in Hr.
  apply ok_inj in Hr as ->. pose proof E as E2.
  apply record_bytes_header in E as (w1 & w2 & w3 & bl & _ & _ & _ & _ & _ & ->). reflexivity.
Qed.
Print Assumptions C24_plain_later.

(** Converted: a DMAP item met later raises KeyError when everything before it
    can be converted. *)
Theorem C24_dmap_later : forall rs1 r1 k it r2 rs2 ds1 d1 v,
  first_value (rs1 ++ (r1 ++ (k, it) :: r2) :: rs2) = Some (IPlain v) ->
  dict2dmap rs1 = Ok ds1 -> record2dmap r1 = Ok d1 -> (forall w, it <> IPlain w) ->
  dmap_write (rs1 ++ (r1 ++ (k, it) :: r2) :: rs2) = Raise KeyError.
Proof. intros. eapply dmap_in_plain; eauto. Qed.
Print Assumptions C24_dmap_later.

(** An empty first record, then plain values. *)
Example C24_case :
  let rs := [[]; [([110], IPlain (VInt 7))]] in
  (forall v, first_value rs <> Some (IPlain v)) /\ check_dmap_dict rs = Ok rs /\
  dmap_write rs = Raise DmapTypeError.
Proof. cbv zeta. splits; try reflexivity. intros v H. discriminate H. Qed.
Example C24_case_mixed :
  dmap_write [[([110], IPlain (VInt 7)); ([111], IScalar (mk_dscalar [111] (VInt 1) 2 Fh))]] = Raise KeyError.
Proof. reflexivity. Qed.

(** ** C25 The dictionary interface *)

(** Representable plain dictionaries of native arrays are written, and read
    back with the same values. *)
Theorem C25_native : forall rs bl,
  bl <> [] -> Forall2 dict_back rs bl -> file_bytes bl <= 2 ^ 63 - 1 ->
  exists bs, dmap_write rs = Ok bs /\ zlen bs = file_bytes bl /\ dmap_read bs = Ok (map block_fields bl).
Proof. exact dict_round_trip. Qed.
Print Assumptions C25_native.

(** A big-endian array is written exactly as the little-endian array of the
    byte-swapped values would be. *)
Theorem C25_big_endian : forall rs rs', Forall2 swapped_record rs rs' -> dmap_write rs' = dmap_write rs.
Proof. exact swapped_write. Qed.
Print Assumptions C25_big_endian.

(** Every value has exactly one byte-swapped value, and it is a different one
    unless the bytes are a palindrome. *)
Theorem C25_swapped : forall s n z, (0 < n)%nat -> fits s n z ->
  exists z' bs, byte_swapped s n z z' /\ wire_int s n z bs /\ (z' = z <-> rev bs = bs).
Proof.
  intros s n z Hn HF. destruct (swapped_exists s n z Hn HF) as [z' HS].
  pose proof (wire_int_enc s n z Hn HF) as HW. exists z', (le_enc n z). splits; auto.
  eapply swapped_same; eauto.
Qed.
Print Assumptions C25_swapped.

(** np.int16 scalar, Python float 1.5, int32 array and list. *)
Definition ex_dict : record :=
  [([110], IPlain (VNpInt NI16 (-7))); ([102], IPlain (VFloat (widen 1069547520)));
   ([109], IPlain (VArr (mk_ndarray DI32 false [2;2] [1;-2;3;4]))); ([108], IPlain (VIntList [5;6]))].
Definition ex_dict_block : block :=
  ([mk_dscalar [110] (VInt (-7)) 2 Fh; mk_dscalar [102] (VFloat (widen 1069547520)) 4 Ff],
   [mk_darray [109] (mk_ndarray DI32 false [2;2] [1;-2;3;4]) 3 Fi 2 [2;2];
    mk_darray [108] (mk_ndarray DLL false [2] [5;6]) 10 Fq 1 [2]]).
Example C25_case : dict_back ex_dict ex_dict_block /\ file_bytes [ex_dict_block] <= 2 ^ 63 - 1.
Proof.
  split; [|vm_compute; discriminate].
  exists (firstn 2 ex_dict), (skipn 2 ex_dict).
  assert (HB : block_bytes ex_dict_block = 86) by reflexivity. rewrite HB.
  splits; try reflexivity; try discriminate; try lia.
  - repeat constructor; cbn; intuition discriminate.
  - constructor; [|constructor; [|constructor]].
    + apply (dsb_intro [110] _ Fh); [forall_tac|reflexivity|]. apply rb_int; [cbn; auto|reflexivity|cbn; lia].
    + apply (dsb_intro [102] _ Ff); [forall_tac|reflexivity|].
      apply (rb_f32 1069547520); [lia|reflexivity|left; reflexivity].
  - constructor; [|constructor; [|constructor]].
    + apply (dab_array 86 [109] DI32 Fi [2;2] [1;-2;3;4]); try reflexivity; try (forall_tac; fail);
        [cbv; split; congruence|]. left. forall_tac.
    + apply (dab_list 86 [108] [5;6]); [forall_tac|discriminate|forall_tac].
Qed.
Example C25_case_run :
  (rlet bs := dmap_write [ex_dict] in dmap_read bs) = Ok [block_fields ex_dict_block].
Proof. vm_compute. reflexivity. Qed.
(** The big-endian int16 array [1; 513] is written as [256; 258]. *)
Example C25_case_big :
  swapped_record [([110], IPlain (VInt 7)); ([109], IPlain (VArr (mk_ndarray DI16 true [2] [1; 513])))]
                 [([110], IPlain (VInt 7)); ([109], IPlain (VArr (mk_ndarray DI16 false [2] [256; 258])))].
Proof.
  constructor; [split; reflexivity|]. constructor; [|constructor]. split; [reflexivity|]. right. cbn.
  splits; auto. constructor; [|constructor; [|constructor]].
  - exists [1;0]. split; wint.
  - exists [1;2]. split; wint.
Qed.

(** ** C26 Empty input *)

Theorem C26_reader : forall fs name,
  dmap_reader_init fs (FromStream []) = Raise EmptyFileError /\
  (fs name = Some [] -> dmap_reader_init fs (FromFile name) = Raise EmptyFileError) /\
  forall buf rs, dmap_read buf = Ok rs -> rs <> [].
Proof.
  intros fs name. splits.
  - reflexivity.
  - intros H. cbn [dmap_reader_init]. now rewrite H.
  - intros buf rs H. exact (proj2 (check_of_read _ _ H)).
Qed.
Print Assumptions C26_reader.

(** A writer created without records, after any calls that supply none. *)
Theorem C26_writer : forall fn w0 fs0 ops fs w name,
  writer_new [] fn = Ok w0 -> Forall (fun op => match op with OpStream rs => rs = [] | _ => True end) ops ->
  run_ops fs0 w0 ops = (w, fs) ->
  fs = fs0 /\ fst (write_dmap_stream w []) = Raise DmapDataError /\
  exists w', write_dmap fs w name =
    (Raise (match last_given fn (ops ++ [OpWrite name]) with [] => FilenameRequiredError | _ => DmapDataError end),
     w', fs).
Proof.
  intros fn w0 fs0 ops fs w name HN HO HR. injection HN as <-.
  destruct (empty_run ops fs0 (mk_writer fn [] []) eq_refl HO) as [HE1 HE2].
  pose proof (run_ops_name ops fs0 (mk_writer fn [] [])) as HNm. rewrite HR in *. cbn [fst snd wr_filename] in *.
  destruct w as [m recs acc]. cbn [wr_records wr_filename] in *. subst recs fs.
  splits; auto. exists (mk_writer (last_given fn (ops ++ [OpWrite name])) [] acc).
  assert (HX : last_given fn (ops ++ [OpWrite name]) = match name with [] => m | _ => name end).
  { rewrite HNm. clear. revert fn; induction ops as [|[[|c n]|rs] ops IH]; intros fn; cbn [app last_given]; auto. }
  rewrite write_dmap_cases. cbn [wr_filename wr_records wr_bytearr]. rewrite HX.
  destruct (match name with [] => m | _ => name end) eqn:E; [|reflexivity].
  destruct name; [|discriminate]. now rewrite E.
Qed.
Print Assumptions C26_writer.

(** Nothing empty is ever produced, whatever the calls before. *)
Theorem C26_nonempty : forall recs fn w0 fs0 ops fs w rs bs name w' fs',
  writer_new recs fn = Ok w0 -> run_ops fs0 w0 ops = (w, fs) ->
  (fst (write_dmap_stream w rs) = Ok bs -> bs <> []) /\
  (write_dmap fs w name = (Ok tt, w', fs') -> forall n, fs' n = Some [] -> fs n = Some []).
Proof.
  intros recs fn w0 fs0 ops fs w rs bs name w' fs' HN HR.
  apply writer_new_good in HN. apply (run_ops_good ops fs0) in HN. rewrite HR in HN. cbn [fst] in HN. split.
  - intros H. destruct (stream_nonempty _ _ _ HN H) as (ns & _ & _ & HNE). exact HNE.
  - intros H n Hn. apply write_dmap_effect in H. cbv zeta in H. destruct H as (b & H1 & H2 & H3 & H4).
    destruct (list_eq_dec Z.eq_dec n (match name with [] => wr_filename w | _ => name end)) as [HE|HD].
    + destruct (stream_nonempty _ _ _ HN H2) as (ns & _ & _ & HNE).
      assert (HS : fs' n = Some b) by (rewrite HE; exact H3).
      rewrite HS in Hn. injection Hn as ->. now destruct HNE.
    + now rewrite <- H4.
Qed.
Print Assumptions C26_nonempty.

Example C26_case :
  exists w0 w fs, writer_new [] [97] = Ok w0 /\
    run_ops (fun _ => None) w0 [OpStream []; OpWrite []] = (w, fs) /\
    fst (fst (write_dmap fs w [98])) = Raise DmapDataError /\ fs [97] = None.
Proof. do 3 eexists. split; [reflexivity|]. split; [reflexivity|]. split; reflexivity. Qed.
Example C26_case_reader : dmap_reader_init (fun _ => Some []) (FromFile [97]) = Raise EmptyFileError.
Proof. reflexivity. Qed.
