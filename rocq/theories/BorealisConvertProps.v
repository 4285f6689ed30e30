(** Properties of the conversion of Borealis files to SuperDARN files: C44-C49. *)
From Coq Require Import String ZArith List Bool Lia Arith.
From Verif Require Import Base BytesProofs FloatBits FloatSpec DmapTypes DmapWrite DmapFileProofs SDarnFormats SDarn SDarnSpec SDarnProps
  BorealisTypes BorealisFormats BorealisArrays BorealisTime BorealisFile BorealisFileSpec BorealisCases BorealisArrayProps BorealisFileProps
  BorealisCheckProofs BorealisConvert BorealisConvertSpec BorealisConvertProofs BorealisConvertRecordProofs BorealisConvertSampleProofs
  BorealisConvertFileProofs.
From Verif Require Conversions.
Import ListNotations.
Open Scope list_scope.
Open Scope Z_scope.

(** ** Cases *)

(** A rawacf and a bfiq record of two sequences and two beams, with pulses at samples 0
    and 72. *)
Definition blank4 (r : brecord) : brecord :=
  dict_set r (str "blanked_samples") (BArr BU32 [4%nat] [CZ 0; CZ 1; CZ 72; CZ 73]).
(** The samples 1 - i, 2 - 2i, 4 - 4i, ..., and the complex64 values of a field. *)
Definition powers (n : nat) : list (Z * Z) :=
  map (fun i => (1065353216 + 8388608 * Z.of_nat i, 2 ^ 31 + 1065353216 + 8388608 * Z.of_nat i)) (seq 0 n).
Definition set_complex (k : pystr) (l : list (Z * Z)) (r : brecord) : brecord :=
  dict_set r k (BArr BC64 [length l] (map (fun c => CC (fst c) (snd c)) l)).
Definition conv_raw : brecord :=
  set_complex (str "main_acfs") (powers 12) (set_complex (str "intf_acfs") (powers 12)
    (set_complex (str "xcfs") (rev (powers 12)) (blank4 (raw6 t1 2 2 1)))).
Definition conv_bfiq : brecord :=
  set_complex (str "data") (powers 24)
    (dict_set (blank4 (bfiq6 t1 2 2 0 [0%nat] [])) (str "pulse_phase_offset") (BArr BF32 [2%nat] [CZ 0; CZ (2 ^ 31)])).
Definition raw_in : brecords := [(str "1558583991060", conv_raw)].
Definition bfiq_in : brecords := [(str "1558583991060", conv_bfiq)].
(** Samples as they are; the real part as power. *)
Definition same_scale (_ _ : Z) (z : Z * Z) : Z * Z := z.
Definition some_time (_ : Z) : pystr := str "Thu May 23 03:59:51 2019".
Definition convert_case (t : filetype) (rs : brecords) : res (list record) :=
  converted_records same_scale same_scale fst some_time t 0 rs (str "f") 1.
Definition hash06 : pystr := str "v0.6-61-gc13ad17".
Lemma hash06_tagged : tagged hash06.
Proof. exists (str "0"), (str "6-61-gc13ad17"). split; [reflexivity|]. split; intros C; vm_compute in C; intuition discriminate. Qed.
Ltac field := vm_compute; reflexivity.
Lemma conv_raw_timed : timed conv_raw hash06 2400 300 [0; 9] [0; 1; 72; 73].
Proof. constructor; [left|..]; field. Qed.
Lemma conv_bfiq_timed : timed conv_bfiq hash06 2400 300 [0; 9] [0; 1; 72; 73].
Proof. constructor; [left|..]; field. Qed.

(** ** C44 Which files can be converted *)

(** A file is convertible to rawacf exactly when the blanked samples of every record are
    those of its pulses; otherwise the conversion is refused. *)
Theorem C44_rawacf : forall rs, Forall (fun p => checkable (snd p)) rs ->
  (convertible_rawacf rs = Ok tt <-> Forall (fun p => well_blanked (snd p)) rs) /\
  (convertible_rawacf rs = Ok tt \/ convertible_rawacf rs = Raise BorealisConvert2RawacfError).
Proof. exact convertible_rawacf_iff. Qed.
Print Assumptions C44_rawacf.

(** To iqdat: the same, and all phase offsets 0. *)
Theorem C44_iqdat : forall rs, Forall (fun p => checkable (snd p) /\ exists l, phases (snd p) l) rs ->
  (convertible_iqdat rs = Ok tt <-> Forall (fun p => well_blanked (snd p) /\ all_zero_phases (snd p)) rs) /\
  (convertible_iqdat rs = Ok tt \/ convertible_iqdat rs = Raise BorealisConvert2IqdatError).
Proof. exact convertible_iqdat_iff. Qed.
Print Assumptions C44_iqdat.

(** Files that are refused are not converted. *)
Theorem C44_refused : forall scale_iq scale_acf power ctime sid rs origin k,
  (Forall (fun p => checkable (snd p)) rs -> ~ Forall (fun p => well_blanked (snd p)) rs ->
     converted_records scale_iq scale_acf power ctime BRawacf sid rs origin k = Raise BorealisConvert2RawacfError) /\
  (Forall (fun p => checkable (snd p) /\ exists l, phases (snd p) l) rs ->
   ~ Forall (fun p => well_blanked (snd p) /\ all_zero_phases (snd p)) rs ->
     converted_records scale_iq scale_acf power ctime Bfiq sid rs origin k = Raise BorealisConvert2IqdatError).
Proof.
  intros scale_iq scale_acf power ctime sid rs origin k. split; intros C N; cbn [converted_records].
  - destruct (C44_rawacf rs C) as [I [E|E]]; [exfalso; tauto|]. now rewrite E.
  - destruct (C44_iqdat rs C) as [I [E|E]]; [exfalso; tauto|]. now rewrite E.
Qed.
Print Assumptions C44_refused.

(** The version of the record plays no role. *)
Theorem C44_version : forall r h, checkable r -> tagged h \/ untagged h ->
  normal_blanking (dict_set r (str "borealis_git_hash") (BText h)) = normal_blanking r.
Proof. exact blanking_version. Qed.
Print Assumptions C44_version.

(** Records that are not [checkable]: a version that starts with v but has no dot before
    its first dash, or a pulse length of 0, ends in another exception. *)
Theorem C44_leaks : forall key r h tau len pulses blanked rs, timed r h tau len pulses blanked ->
  (len = 0 -> exists e, In e [ValueError; OverflowError] /\
     convertible_rawacf ((key, r) :: rs) = Raise e /\ convertible_iqdat ((key, r) :: rs) = Raise e) /\
  (0 < len -> ~ tagged h -> ~ untagged h ->
     convertible_rawacf ((key, r) :: rs) = Raise IndexError /\ convertible_iqdat ((key, r) :: rs) = Raise IndexError).
Proof.
  intros key r h tau len pulses blanked rs [TH TT TL TP TB].
  assert (NB : forall e, normal_blanking r = Raise e ->
    convertible_rawacf ((key, r) :: rs) = Raise e /\ convertible_iqdat ((key, r) :: rs) = Raise e).
  { intros e E. cbn [convertible_rawacf convertible_iqdat]. now rewrite E. }
  unfold normal_blanking, sample_spacing in NB.
  rewrite (get_int_ok _ _ _ _ TT eq_refl), (get_int_ok _ _ _ _ TL eq_refl) in NB. cbn [rbind] in NB.
  unfold s_hash in NB. rewrite (get_text_ok _ _ _ TH) in NB. split.
  - intros ->. cbn [Z.eqb] in NB. destruct (tau =? 0); [exists ValueError|exists OverflowError]; (split; [cbn; auto|]); now apply NB.
  - intros P NT NU. destruct (Z.eqb_spec len 0); [lia|]. cbn [rbind] in NB. rewrite (no_revisions _ NT NU) in NB. now apply NB.
Qed.
Print Assumptions C44_leaks.

(** Phase offsets for each sequence and pulse (as antennas_iq records can have them) are
    refused with another exception, even when all are 0. *)
Theorem C44_phases_matrix : forall key r h tau len pulses blanked n w data rs,
  timed r h tau len pulses blanked -> 0 < len -> tagged h \/ untagged h -> blanked_rule tau len pulses blanked ->
  dict_get r (str "pulse_phase_offset") = Some (BArr BF32 [S n; S (S w)] (map CZ data)) ->
  length data = (S n * S (S w))%nat ->
  convertible_iqdat ((key, r) :: rs) = Raise ValueError.
Proof.
  intros key r h tau len pulses blanked n w data rs T HL HV HB E L. cbn [convertible_iqdat].
  destruct (normal_blanking_ok _ _ _ _ _ _ T HL HV) as (b & -> & I). rewrite (proj2 I HB). cbn [rbind negb].
  now rewrite (phases_matrix _ _ _ _ E L).
Qed.
Print Assumptions C44_phases_matrix.

Lemma conv_raw_checkable : checkable conv_raw.
Proof. exists hash06, 2400, 300, [0; 9], [0; 1; 72; 73]. split; [exact conv_raw_timed|]. split; [reflexivity|left; exact hash06_tagged]. Qed.
Lemma conv_bfiq_checkable : checkable conv_bfiq.
Proof. exists hash06, 2400, 300, [0; 9], [0; 1; 72; 73]. split; [exact conv_bfiq_timed|]. split; [reflexivity|left; exact hash06_tagged]. Qed.
Lemma conv_bfiq_phases : phases conv_bfiq [0; 2 ^ 31].
Proof. split; [field|]. repeat constructor; vm_compute; congruence. Qed.
(** Pulses at samples 0 and 72: [0; 72] and [0; 1; 72; 73] may be blanked, in any version;
    [0; 1; 2] not. *)
Example C44_case :
  checkable conv_raw /\ checkable conv_bfiq /\ phases conv_bfiq [0; 2 ^ 31] /\
  convertible_rawacf raw_in = Ok tt /\ convertible_iqdat bfiq_in = Ok tt /\
  convertible_rawacf [([], dict_set conv_raw (str "blanked_samples") (BArr BU32 [2%nat] [CZ 0; CZ 72]))] = Ok tt /\
  convertible_rawacf [([], dict_set conv_raw (str "borealis_git_hash") (BText (str "v0.4")))] = Ok tt /\
  convertible_rawacf [([], raw6 t1 2 2 3)] = Raise BorealisConvert2RawacfError /\
  convertible_iqdat [([], dict_set conv_bfiq (str "pulse_phase_offset") (BArr BF32 [2%nat] [CZ 0; CZ 1]))] = Raise BorealisConvert2IqdatError /\
  convertible_iqdat [([], dict_set conv_bfiq (str "pulse_phase_offset") (BArr BF32 [1; 2]%nat [CZ 0; CZ 0]))] = Raise ValueError /\
  convertible_rawacf [([], dict_set conv_raw (str "borealis_git_hash") (BText (str "v1-3")))] = Raise IndexError /\
  convertible_rawacf [([], dict_set conv_raw (str "tx_pulse_len") (BScalar BU32 (CZ 0)))] = Raise OverflowError.
Proof.
  split; [exact conv_raw_checkable|]. split; [exact conv_bfiq_checkable|]. split; [exact conv_bfiq_phases|].
  repeat split; vm_compute; reflexivity.
Qed.

(** ** C45 bfiq to iqdat *)

(** One record for each beam, in order, with the samples of that beam: by sequence, then
    array, then sample the real and imaginary parts. *)
Theorem C45_samples : forall scale_iq scale_acf power ctime sid rs origin k recs,
  converted_records scale_iq scale_acf power ctime Bfiq sid rs origin k = Ok recs ->
  exists outs, recs = concat outs /\
    Forall2 (fun p os => forall beams nseq arrays samps norm na ns nb n data,
      bfiq_source (snd p) beams nseq arrays samps norm na ns nb n data ->
      length os = length beams /\
      forall b beam, nth_error beams b = Some beam ->
      exists o w vals, nth_error os b = Some o /\
        is_int16 beam w /\ out_scalar o (str "bmnum") (VNpInt NI16 w) /\
        iq_values (scale_iq norm k) nseq na ns nb n data b vals /\
        out_array o (str "data") DI16 [length vals] vals) rs outs.
Proof.
  intros scale_iq scale_acf power ctime sid rs origin k recs H. apply bfiq_samples in H as (outs & -> & H).
  exists outs. split; [reflexivity|]. eapply BorealisFileProofs.Forall2_impl; [|exact H]. clear H.
  intros p os H beams nseq arrays samps norm na ns nb n data S. destruct (H _ _ _ _ _ _ _ _ _ _ S) as [L N]. split; [exact L|].
  intros b beam HB. destruct (N b beam HB) as (o & NO & (w & W1 & W2) & (vals & V1 & V2) & _). exists o, w, vals. auto 7.
Qed.
Print Assumptions C45_samples.

(** Offsets and sizes: when the fields agree with the data and their length is less
    than 2^31, toff and tsze cut the data into one part for each sequence. *)
Theorem C45_sequences : forall scale_iq scale_acf power ctime sid rs origin k recs,
  converted_records scale_iq scale_acf power ctime Bfiq sid rs origin k = Ok recs ->
  exists outs, recs = concat outs /\
    Forall2 (fun p os => forall beams nseq norm na ns nb n data,
      bfiq_source (snd p) beams nseq na n norm na ns nb n data -> Z.of_nat (nseq * (2 * na * n)) < 2 ^ 31 ->
      Forall (fun o => exists vals toff tsze,
        out_array o (str "data") DI16 [length vals] vals /\ length vals = (nseq * (2 * na * n))%nat /\
        out_array o (str "toff") DI32 [nseq] toff /\ out_array o (str "tsze") DI32 [nseq] tsze /\
        forall i, (i < nseq)%nat ->
          nth_error toff i = Some (Z.of_nat (i * (2 * na * n))) /\ nth_error tsze i = Some (Z.of_nat (2 * na * n))) os) rs outs.
Proof.
  intros scale_iq scale_acf power ctime sid rs origin k recs H. apply bfiq_samples in H as (outs & -> & H).
  exists outs. split; [reflexivity|]. eapply BorealisFileProofs.Forall2_impl; [|exact H]. clear H.
  intros p os H beams nseq norm na ns nb n data S B. destruct (H _ _ _ _ _ _ _ _ _ _ S) as [L N].
  apply Forall_forall. intros o Ho. apply In_nth_error in Ho as (b & Ho).
  assert (HB : (b < length beams)%nat) by (rewrite <- L; apply nth_error_Some; congruence).
  apply nth_error_Some in HB. destruct (nth_error beams b) as [beam|] eqn:EB; [|congruence].
  destruct (N b beam EB) as (o' & NO & _ & (vals & (V1 & _) & V2) & O1 & O2). assert (o' = o) by congruence. subst o'.
  assert (P : Z.of_nat nseq * (2 * Z.of_nat na * Z.of_nat n) < 2 ^ 31).
  { rewrite !Nat2Z.inj_mul in B. exact B. }
  rewrite (offsets_small _ _ P) in O1 by lia. rewrite (sizes_small _ _ P) in O2 by lia.
  exists vals, (map (fun i => Z.of_nat i * (2 * Z.of_nat na * Z.of_nat n)) (seq 0 nseq)), (repeat (2 * Z.of_nat na * Z.of_nat n) nseq).
  split; [exact V2|]. split; [rewrite V1; ring|]. split; [exact O1|]. split; [exact O2|]. intros i Hi. split.
  - rewrite nth_error_map, (nth_seq _ _ Hi). cbn [option_map]. f_equal. rewrite !Nat2Z.inj_mul. reflexivity.
  - rewrite nth_error_repeat by exact Hi. f_equal. rewrite !Nat2Z.inj_mul. reflexivity.
Qed.
Print Assumptions C45_sequences.

(** The values of an array field. *)
Definition array_values (r : record) (k : pystr) : list Z :=
  match dict_get r k with Some (IArray a) => nd_data (ar_value a) | _ => [] end.
Definition values_of (k : pystr) (r : res (list record)) : list (list Z) :=
  match r with Ok l => map (fun o => array_values o k) l | Raise _ => [] end.

(** Two beams; beam 1 of array 0, sequence 0 has the samples 8, 16, 32; the last samples
    do not fit. *)
Example C45_case :
  bfiq_source conv_bfiq [3; 4] 2 2 3 0 2 2 2 3 (powers 24) /\
  values_of (str "data") (convert_case Bfiq bfiq_in) =
    [[1; -1; 2; -2; 4; -4; 4096; -4096; 8192; -8192; 16384; -16384;
      64; -64; 128; -128; 256; -256; 32767; -32768; 32767; -32768; 32767; -32768];
     [8; -8; 16; -16; 32; -32; 32767; -32768; 32767; -32768; 32767; -32768;
      512; -512; 1024; -1024; 2048; -2048; 32767; -32768; 32767; -32768; 32767; -32768]] /\
  values_of (str "toff") (convert_case Bfiq bfiq_in) = [[0; 12]; [0; 12]] /\
  values_of (str "tsze") (convert_case Bfiq bfiq_in) = [[12; 12]; [12; 12]].
Proof.
  split; [|split; [|split]; vm_compute; reflexivity].
  constructor; try field.
  - eexists _, _. field.
  - split; [field|]. split; [eexists; field|field].
Qed.

(** ** C46 rawacf to rawacf *)

Theorem C46_correlations : forall scale_iq scale_acf power ctime sid rs origin k recs,
  converted_records scale_iq scale_acf power ctime BRawacf sid rs origin k = Ok recs ->
  exists outs, recs = concat outs /\
    Forall2 (fun p os => forall beams norm nb nr nl main xcfs,
      rawacf_source (snd p) beams norm nb nr nl main xcfs ->
      length os = length beams /\
      forall b beam, nth_error beams b = Some beam ->
      exists o w acfd xcfd pwr0 slist, nth_error os b = Some o /\
        is_int16 beam w /\ out_scalar o (str "bmnum") (VNpInt NI16 w) /\
        lag_values (scale_acf norm k) nr nl main b acfd /\ out_array o (str "acfd") DF32 [nr; (nl - 1)%nat; 2%nat] acfd /\
        lag_values (scale_acf norm k) nr nl xcfs b xcfd /\ out_array o (str "xcfd") DF32 [nr; (nl - 1)%nat; 2%nat] xcfd /\
        lag0_values (scale_acf norm k) power nr nl main b pwr0 /\ out_array o (str "pwr0") DF32 [nr] pwr0 /\
        length slist = nr /\ (forall i, (i < nr)%nat -> exists z, nth_error slist i = Some z /\ is_int16 (Z.of_nat i) z) /\
        out_array o (str "slist") DI16 [nr] slist) rs outs.
Proof.
  intros scale_iq scale_acf power ctime sid rs origin k recs H. apply rawacf_correlations in H as (outs & -> & H).
  exists outs. split; [reflexivity|]. eapply BorealisFileProofs.Forall2_impl; [|exact H]. clear H.
  intros p os H beams norm nb nr nl main xcfs S. destruct (H _ _ _ _ _ _ _ S) as [L N]. split; [exact L|].
  intros b beam HB. destruct (N b beam HB) as (o & NO & (w & W1 & W2) & (a & A1 & A2) & (x & X1 & X2) & (q & Q1 & Q2) & SL).
  exists o, w, a, x, q, (map (fun i => wrap16 (Z.of_nat i)) (seq 0 nr)). do 9 (split; [assumption|]).
  split; [now rewrite map_length, seq_length|]. split; [|exact SL]. intros i Hi. rewrite nth_error_map, (nth_seq _ _ Hi).
  eexists. split; [reflexivity|]. apply wrap16_is.
Qed.
Print Assumptions C46_correlations.

(** Two beams, two ranges, three lags of which the last is dropped.  (The powers are
    bit patterns of floats.) *)
Example C46_case :
  rawacf_source conv_raw [3; 4] 0 2 2 3 (powers 12) (rev (powers 12)) /\
  (let e n := 1065353216 + 8388608 * n in
   let m n := 2 ^ 31 + 1065353216 + 8388608 * n in
   values_of (str "acfd") (convert_case BRawacf raw_in) =
     [[e 0; m 0; e 1; m 1; e 3; m 3; e 4; m 4]; [e 6; m 6; e 7; m 7; e 9; m 9; e 10; m 10]] /\
   values_of (str "xcfd") (convert_case BRawacf raw_in) =
     [[e 11; m 11; e 10; m 10; e 8; m 8; e 7; m 7]; [e 5; m 5; e 4; m 4; e 2; m 2; e 1; m 1]] /\
   values_of (str "pwr0") (convert_case BRawacf raw_in) = [[e 0; e 3]; [e 6; e 9]] /\
   values_of (str "slist") (convert_case BRawacf raw_in) = [[0; 1]; [0; 1]]).
Proof.
  split.
  - constructor; try field. exists (str "correlation_dimensions"). split; [now left|].
    split; (split; [field|]; split; [eexists; field|field]).
  - cbv zeta. split; [|split; [|split]]; vm_compute; reflexivity.
Qed.

(** ** C47 Converted records are acceptable *)

Definition target_groups (t : filetype) : list group :=
  match t with
  | Bfiq => [iqdat_types]
  | BRawacf => [rawacf_types; rawacf_correlation_field; rawacf_cross_correlation_field]
  | _ => []
  end.
(** They have the fields of these groups and no others, and pass the checks of the
    writer. *)
Theorem C47_acceptable : forall scale_iq scale_acf power ctime t sid rs origin k recs st,
  converted_records scale_iq scale_acf power ctime t sid rs origin k = Ok recs -> sdarn_type t = Some st ->
  Forall (acceptable st) recs /\
  (forall r n, In r recs -> write_checks (write_struct_list st) (write_optional_list st) r n = Ok tt) /\
  (forall r f, In r recs -> (In f (names r) <-> exists g, In g (target_groups t) /\ In f (names g))).
Proof.
  intros scale_iq scale_acf power ctime t sid rs origin k recs st H S.
  pose proof (converted_acceptable _ _ _ _ _ _ _ _ _ _ _ H S) as A. split; [exact A|]. split.
  - intros r n Hr. apply C27_write_accepts. rewrite Forall_forall in A. auto.
  - intros r f Hr. apply converted_exactly in H as [_ H]. rewrite Forall_forall in H. specialize (H r Hr).
    assert (EN : names r = map fst (written_fields t)).
    { unfold exactly, formats in H. apply (f_equal (map fst)) in H. rewrite !map_map in H. exact H. }
    rewrite EN.
    assert (A1 : forallb (fun g => forallb (fun n => str_mem n (map fst (written_fields t))) (names g)) (target_groups t) = true).
    { destruct t; try discriminate; vm_compute; reflexivity. }
    assert (A2 : forallb (fun n => existsb (fun g => str_mem n (names g)) (target_groups t)) (map fst (written_fields t)) = true).
    { destruct t; try discriminate; vm_compute; reflexivity. }
    rewrite forallb_forall in A1, A2. split.
    + intros I. apply A2, existsb_exists in I as (g & Hg & I). apply str_mem_In in I. eauto.
    + intros (g & Hg & I). specialize (A1 g Hg). rewrite forallb_forall in A1. apply str_mem_In. auto.
Qed.
Print Assumptions C47_acceptable.

Example C47_case :
  (exists recs, convert_case Bfiq bfiq_in = Ok recs /\ length recs = 2%nat) /\ sdarn_type Bfiq = Some Iqdat /\
  (exists recs, convert_case BRawacf raw_in = Ok recs /\ length recs = 2%nat) /\ sdarn_type BRawacf = Some Rawacf.
Proof.
  split; [eexists; split; vm_compute; reflexivity|]. split; [reflexivity|].
  split; [eexists; split; vm_compute; reflexivity|reflexivity].
Qed.

(** ** C48 Guards and files *)

(** A conversion that fails leaves all files as they were. *)
Theorem C48_failed : forall scale_iq scale_acf power ctime hf fs fn ft sfn sid st k fs' e,
  borealis_convert scale_iq scale_acf power ctime hf fs fn ft sfn sid st k = (fs', Raise e) -> fs' = fs.
Proof. exact convert_failed. Qed.
Print Assumptions C48_failed.

(** One that succeeds was asked for bfiq or rawacf and another name, and changes no
    other file; the file has the bytes of the converted records. *)
Theorem C48_written : forall scale_iq scale_acf power ctime hf fs fn ft sfn sid st k fs',
  borealis_convert scale_iq scale_acf power ctime hf fs fn ft sfn sid st k = (fs', Ok tt) ->
  In ft [str "bfiq"; str "rawacf"] /\ fn <> sfn /\ sfn <> [] /\ (forall n, n <> sfn -> fs' n = fs n) /\
  exists rd rs i t recs bs,
    borealis_read hf fn ft st = Ok rd /\ reader_records rd = Ok rs /\ filetype_of ft = Some t /\
    converted_records scale_iq scale_acf power ctime t i rs fn k = Ok recs /\
    Conversions.dmap_write recs = Ok bs /\ fs' sfn = Some bs.
Proof.
  intros scale_iq scale_acf power ctime hf fs fn ft sfn sid st k fs' H.
  apply convert_ok in H as (rd & rs & i & t & sd & recs & bs & H1 & H2 & H3 & H4 & H5 & H6 & H7 & H8 & H9 & H10 & H11).
  split.
  - unfold filetype_of in H4. destruct (str_eqb ft (str "bfiq")) eqn:EB; [apply str_eqb_eq in EB; cbn; auto|].
    destruct (str_eqb ft (str "antennas_iq")); [injection H4 as <-; discriminate|].
    destruct (str_eqb ft (str "rawacf")) eqn:ER; [apply str_eqb_eq in ER; cbn; auto|].
    destruct (str_eqb ft (str "rawrf")); [injection H4 as <-; discriminate|discriminate].
  - do 3 (split; [assumption|]). exists rd, rs, i, t, recs, bs. auto 7.
Qed.
Print Assumptions C48_written.

(** A file is never converted onto its own name. *)
Theorem C48_same_name : forall scale_iq scale_acf power ctime hf fs fn ft sid st k,
  exists e, borealis_convert scale_iq scale_acf power ctime hf fs fn ft fn sid st k = (fs, Raise e).
Proof. exact convert_same_name. Qed.
Print Assumptions C48_same_name.

(** The errors for a file that can be read. *)
Theorem C48_errors : forall scale_iq scale_acf power ctime hf fs fn ft sfn sid st k rd rs i,
  borealis_read hf fn ft st = Ok rd -> reader_records rd = Ok rs -> find_slice_id rs sid = Ok i ->
  (~ In ft [str "bfiq"; str "rawacf"] ->
     borealis_convert scale_iq scale_acf power ctime hf fs fn ft sfn sid st k = (fs, Raise BorealisConversionTypesError)) /\
  (In ft [str "bfiq"; str "rawacf"] -> fn = sfn ->
     borealis_convert scale_iq scale_acf power ctime hf fs fn ft sfn sid st k = (fs, Raise ConvertFileOverWriteError)).
Proof. exact convert_guards. Qed.
Print Assumptions C48_errors.

(** The slice id: that of the first record, else the one given, else an error. *)
Theorem C48_slice : forall key r rest sid,
  (forall z, number_field r (str "slice_id") BU32 z -> find_slice_id ((key, r) :: rest) sid = Ok z) /\
  (dict_get r (str "slice_id") = None ->
     find_slice_id ((key, r) :: rest) sid = match sid with Some z => Ok z | None => Raise BorealisStructureError end).
Proof.
  intros key r rest sid. split.
  - intros z E. cbn [find_slice_id]. pose proof (get_int_ok _ _ _ _ E eq_refl) as G. unfold number_field in E. now rewrite E.
  - intros E. cbn [find_slice_id]. now rewrite E.
Qed.
Print Assumptions C48_slice.

(** Station codes: the records get the id of the code; ids are distinct; a record with a
    beam and a code that is not known is not converted. *)
Theorem C48_stations :
  NoDup (map fst code_to_stid) /\ NoDup (map snd code_to_stid) /\
  forall scale_iq scale_acf power ctime t sid rs origin k recs,
  converted_records scale_iq scale_acf power ctime t sid rs origin k = Ok recs ->
  exists outs, recs = concat outs /\
    Forall2 (fun p os => forall beams s, vector_field (snd p) (str "beam_nums") BU32 beams ->
      text_field (snd p) (str "station") s -> beams <> [] ->
      exists i, In (s, i) code_to_stid /\
        length os = length beams /\ Forall (fun o => out_scalar o (str "stid") (VNpInt NI16 i)) os) rs outs.
Proof.
  split; [apply nodupb_ok; vm_compute; reflexivity|]. split.
  - assert (E : nodup Z.eq_dec (map snd code_to_stid) = map snd code_to_stid) by (vm_compute; reflexivity).
    rewrite <- E. apply NoDup_nodup.
  - intros scale_iq scale_acf power ctime t sid rs origin k recs H. apply converted_station in H as (outs & -> & H).
    exists outs. split; [reflexivity|]. eapply BorealisFileProofs.Forall2_impl; [|exact H]. clear H.
    intros p os H beams s SB SS NB. destruct (H beams s SB SS NB) as (i & D & L & F). exists i.
    split; [apply SDarnChecks.dict_get_In; exact D|]. auto.
Qed.
Print Assumptions C48_stations.

(** The two files of the cases, and an attempt to convert each. *)
Definition conv_fs : hfs :=
  fst (site_write h5py_filters (fst (site_write h5py_filters empty_fs (str "r") (DRecords raw_in) (str "rawacf") None))
         (str "b") (DRecords bfiq_in) (str "bfiq") None).
Definition no_files : fsys := fun _ => None.
Definition convert_file (fn ft sfn : pystr) : fsys * res unit :=
  borealis_convert same_scale same_scale fst some_time conv_fs no_files fn ft sfn None None 1.
Definition scalars_of (k : pystr) (r : res (list record)) : list (option pyval) :=
  match r with
  | Ok l => map (fun o => match dict_get o k with Some (IScalar s) => Some (sc_value s) | _ => None end) l
  | Raise _ => []
  end.
Example C48_case :
  snd (convert_file (str "r") (str "rawacf") (str "o")) = Ok tt /\
  option_map zlen (fst (convert_file (str "r") (str "rawacf") (str "o")) (str "o")) = Some 1900 /\
  snd (convert_file (str "b") (str "bfiq") (str "o")) = Ok tt /\
  snd (convert_file (str "b") (str "bfiq") (str "b")) = Raise ConvertFileOverWriteError /\
  snd (convert_file (str "b") (str "bfiq") []) = Raise FilenameRequiredError /\
  convert_case BRawacf [(str "1", dict_set conv_raw (str "station") (BText (str "xyz")))] = Raise BorealisConvert2RawacfError /\
  In (str "sas", 5) code_to_stid /\
  scalars_of (str "stid") (convert_case BRawacf raw_in) = [Some (VNpInt NI16 5); Some (VNpInt NI16 5)].
Proof.
  do 6 (split; [vm_compute; reflexivity|]). split; [|vm_compute; reflexivity].
  apply SDarnChecks.dict_get_In. vm_compute. reflexivity.
Qed.

(** ** C49 Versions without a tag *)

(** A file with a record of such a version that has a beam is not converted. *)
Theorem C49_untagged : forall scale_iq scale_acf power ctime hf fs fn ft sfn sid st k rd rs key r h beams,
  borealis_read hf fn ft st = Ok rd -> reader_records rd = Ok rs -> In (key, r) rs ->
  text_field r (str "borealis_git_hash") h -> untagged h -> vector_field r (str "beam_nums") BU32 beams -> beams <> [] ->
  exists e, borealis_convert scale_iq scale_acf power ctime hf fs fn ft sfn sid st k = (fs, Raise e).
Proof. exact untagged_fails. Qed.
Print Assumptions C49_untagged.

(** The conversion of the records themselves can succeed: then a record has the revision
    -1, and no bytes can be made from it. *)
Theorem C49_revision : forall scale_iq scale_acf power ctime t sid rs origin k recs key r h beams,
  converted_records scale_iq scale_acf power ctime t sid rs origin k = Ok recs -> In (key, r) rs ->
  text_field r (str "borealis_git_hash") h -> untagged h -> vector_field r (str "beam_nums") BU32 beams -> beams <> [] ->
  exists o, In o recs /\ out_scalar o (str "radar.revision.major") (VNpInt NI8 (-1)) /\
    fst (dmap_record_to_bytes o) = Raise ValueError /\ Conversions.dmap_write [o] = Raise ValueError.
Proof.
  intros scale_iq scale_acf power ctime t sid rs origin k recs key r h beams H HI T U SB NB.
  destruct (untagged_unwritable _ _ _ _ _ _ _ _ _ _ _ _ _ _ H HI T U SB NB) as (o & rest & HO & ->).
  eexists. split; [exact HO|]. split; [eexists; split; reflexivity|]. split; reflexivity.
Qed.
Print Assumptions C49_revision.

(** The later of two records was written by a build without a tag. *)
Definition bare_raw : brecord :=
  dict_set (dict_set conv_raw (str "borealis_git_hash") (BText (str "c13ad17"))) (str "sqn_timestamps") (BArr BF64 [2%nat] [CZ t2; CZ t2]).
Definition bare_fs : hfs :=
  fst (site_write h5py_filters empty_fs (str "r") (DRecords (raw_in ++ [(str "1558583991822", bare_raw)])) (str "rawacf") None).
Definition bare_conversion : fsys * res unit :=
  borealis_convert same_scale same_scale fst some_time bare_fs no_files (str "r") (str "rawacf") (str "o") None None 1.
Example C49_case :
  text_field bare_raw (str "borealis_git_hash") (str "c13ad17") /\ untagged (str "c13ad17") /\
  vector_field bare_raw (str "beam_nums") BU32 [3; 4] /\
  (exists rd rs, borealis_read bare_fs (str "r") (str "rawacf") None = Ok rd /\ reader_records rd = Ok rs /\ length rs = 2%nat) /\
  (exists recs, convert_case BRawacf (raw_in ++ [(str "1558583991822", bare_raw)]) = Ok recs) /\
  snd bare_conversion = Raise ValueError.
Proof.
  split; [left; field|]. split; [exists 99, (str "13ad17"); split; [reflexivity|discriminate]|]. split; [field|].
  split; [eexists _, _; split; [field|split; [field|field]]|]. split; [eexists; field|field].
Qed.
