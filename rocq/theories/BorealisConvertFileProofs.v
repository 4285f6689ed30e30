(** Proofs about BorealisConvert as a whole: formats of the records, guards, files. *)
From Coq Require Import String ZArith List Bool Lia Arith.
From Verif Require Import Base Bytes BytesProofs FloatBits FloatSpec DmapTypes DmapWrite DmapFileProofs DmapWriteSpec DmapWriteFacts DmapWriteProofs
  SDarnFormats SDarn SDarnSpec SDarnChecks SDarnWriteProofs SDarnObjectProps DmapWriteProps
  BorealisTypes BorealisFormats BorealisArrays BorealisFile BorealisFillProofs BorealisFileProofs
  BorealisTime BorealisConvert BorealisConvertSpec BorealisConvertProofs BorealisConvertRecordProofs BorealisConvertSampleProofs.
From Verif Require Conversions.
Import ListNotations.
Open Scope list_scope.
Open Scope Z_scope.

(** ** Formats *)

Definition rawacf_written : group :=
  firstn 43 iqdat_types ++
  [(str "rawacf.revision.major", Fi); (str "rawacf.revision.minor", Fi); (str "combf", Fs);
   (str "thr", Ff); (str "ptab", Fh); (str "ltab", Fh); (str "pwr0", Ff);
   (str "slist", Fh); (str "acfd", Ff); (str "xcfd", Ff)].
Definition written_fields (t : filetype) : group := match t with Bfiq => iqdat_types | _ => rawacf_written end.

Lemma record_exactly l raw o : layout raw = map (fun p => (fst p, Some (snd p))) l -> Conversions.record2dmap raw = Ok o -> exactly l o.
Proof.
  intros L R. unfold exactly. rewrite <- L. eapply record2dmap_formats; [exact R|]. eapply layout_no_list. exact L.
Qed.
Lemma beams_exactly {A} (f : A -> res record) l qs ls os :
  (forall q raw, f q = Ok raw -> layout raw = map (fun p => (fst p, Some (snd p))) l) ->
  mapM f qs = Ok ls -> Forall2 (fun a b => Conversions.record2dmap a = Ok b) ls os -> Forall (exactly l) os.
Proof.
  intros F E D. apply mapM_inv in E. revert os D.
  induction E as [|q raw qs ls E1 E IH]; intros os D; inversion D; subst; constructor; auto.
  eapply record_exactly; [|eassumption]. eapply F. exact E1.
Qed.
Lemma converted_exactly scale_iq scale_acf power ctime t sid rs origin k recs :
  converted_records scale_iq scale_acf power ctime t sid rs origin k = Ok recs ->
  sdarn_type t <> None /\ Forall (exactly (written_fields t)) recs.
Proof.
  intros H. destruct t; try discriminate; (split; [discriminate|]); cbn [converted_records] in H;
    apply rbind_ok in H as (u & _ & H); apply wrap_convert_ok in H;
    apply convert_all_split in H as (outs & -> & H); apply Forall_concat;
    induction H as [|[key r] os rs outs (ls & E & D) H IH]; constructor; auto; clear H IH.
  - unfold convert_bfiq_record in E. cbv zeta in E. unwind E. eapply beams_exactly; [|exact E|exact D].
    intros q raw EQ. cbn beta in EQ. eapply iqdat_record_layout. exact EQ.
  - unfold convert_rawacf_record in E. cbv zeta in E. unwind E. eapply beams_exactly; [|exact E|exact D].
    intros q raw EQ. cbn beta in EQ. erewrite rawacf_record_layout by exact EQ. reflexivity.
Qed.
Lemma converted_acceptable scale_iq scale_acf power ctime t sid rs origin k recs st :
  converted_records scale_iq scale_acf power ctime t sid rs origin k = Ok recs -> sdarn_type t = Some st ->
  Forall (acceptable st) recs.
Proof.
  intros H S. apply converted_exactly in H as [_ H]. eapply Forall_impl; [|exact H]. intros r E.
  destruct t; try discriminate; injection S as <-; eapply exactly_acceptable; try exact E; vm_compute; reflexivity.
Qed.

(** ** Files *)

Lemma convert_failed scale_iq scale_acf power ctime hf fs fn ft sfn sid st k fs' e :
  borealis_convert scale_iq scale_acf power ctime hf fs fn ft sfn sid st k = (fs', Raise e) -> fs' = fs.
Proof.
  unfold borealis_convert. destruct (rbind _ _) as [[t recs]|e']; [|now intros [= <- _]].
  unfold write_to_sdarn. destruct (sd_writer_new recs sfn) as [w|e']; [|now intros [= <- _]].
  destruct (sd_write t fs w sfn) as [[r w'] fs2] eqn:E. intros [= <- ->]. eapply C18_sdarn_failed. exact E.
Qed.

(** Records whose first field is a scalar are taken as they are. *)
Lemma converted_first r l : exactly l r -> l <> [] -> exists k it rest, r = (k, it) :: rest /\ forall v, it <> IPlain v.
Proof.
  intros E N. unfold exactly, formats in E. destruct r as [|[k it] r]; destruct l as [|p l]; try discriminate; [congruence|].
  cbn in E. injection E as E1 E2 E3. exists k, it, r. split; [reflexivity|]. intros v ->. discriminate E2.
Qed.
Lemma converted_check l recs : Forall (exactly l) recs -> l <> [] -> Conversions.check_dmap_dict recs = Ok recs.
Proof.
  intros H N. destruct H as [|r recs E H]; [reflexivity|]. destruct (converted_first _ _ E N) as (k & it & rest & -> & P).
  destruct it as [s|a|v]; [reflexivity..|]. now destruct (P v).
Qed.

Lemma convert_ok scale_iq scale_acf power ctime hf fs fn ft sfn sid st k fs' :
  borealis_convert scale_iq scale_acf power ctime hf fs fn ft sfn sid st k = (fs', Ok tt) ->
  exists rd rs i t sd recs bs,
    borealis_read hf fn ft st = Ok rd /\ reader_records rd = Ok rs /\ find_slice_id rs sid = Ok i /\
    filetype_of ft = Some t /\ sdarn_type t = Some sd /\ fn <> sfn /\ sfn <> [] /\
    converted_records scale_iq scale_acf power ctime t i rs fn k = Ok recs /\
    Conversions.dmap_write recs = Ok bs /\ fs' sfn = Some bs /\ (forall n, n <> sfn -> fs' n = fs n).
Proof.
  unfold borealis_convert. intros H.
  destruct (rbind (borealis_read hf fn ft st) _) as [[t recs]|e'] eqn:E; [|discriminate].
  apply rbind_ok in E as (rd & E1 & E). apply rbind_ok in E as (rs & E2 & E). apply rbind_ok in E as (i & E3 & E).
  destruct (filetype_of ft) as [t'|] eqn:E4; [|discriminate]. destruct (sdarn_type t') as [sd|] eqn:E5; [|discriminate].
  destruct (str_eqb fn sfn) eqn:E6; [discriminate|]. apply rbind_ok in E as (recs' & E7 & E). injection E as <- <-.
  unfold write_to_sdarn in H. destruct (sd_writer_new recs' sfn) as [w|e'] eqn:EW; [|discriminate].
  destruct (sd_write sd fs w sfn) as [[r w'] fs2] eqn:ES. injection H as -> ->.
  apply sd_writer_new_inv in EW as (recs2 & EC & -> & NE).
  destruct (converted_exactly _ _ _ _ _ _ _ _ _ _ E7) as [_ EX].
  assert (NF : written_fields t' <> []) by (destruct t'; discriminate).
  rewrite (converted_check _ _ EX NF) in EC. apply ok_inj in EC as <-.
  apply C18_sdarn_written in ES as (_ & name & bs & NN & N1 & N2 & WS & F1 & F2).
  assert (ENAME : name = sfn). { destruct sfn as [|c sfn]; [exact (N2 eq_refl)|apply N1; discriminate]. }
  subst name. exists rd, rs, i, t', sd, recs', bs.
  assert (NEQ : fn <> sfn) by now apply str_eqb_neq.
  assert (WW : Conversions.dmap_write recs' = Ok bs).
  { unfold Conversions.dmap_write, Conversions.writer_new. rewrite (converted_check _ _ EX NF). cbn [rbind].
    unfold Conversions.write_dmap_stream in *. cbn [Conversions.wr_records Conversions.wr_filename Conversions.wr_bytearr] in *.
    destruct recs' as [|r0 recs']; [congruence|]. unfold Conversions.empty_record_check in *. cbn [Conversions.wr_records Conversions.wr_bytearr] in *.
    destruct (dmap_records_to_bytes [] (r0 :: recs')) as [[rr acc] rs2]. cbn [fst] in *. exact WS. }
  repeat (split; [assumption || reflexivity|]). assumption.
Qed.

Lemma convert_same_name scale_iq scale_acf power ctime hf fs fn ft sid st k :
  exists e, borealis_convert scale_iq scale_acf power ctime hf fs fn ft fn sid st k = (fs, Raise e).
Proof.
  destruct (borealis_convert scale_iq scale_acf power ctime hf fs fn ft fn sid st k) as [fs' [[]|e]] eqn:E.
  - apply convert_ok in E as (rd & rs & i & t & sd & recs & bs & H). decompose [and] H. congruence.
  - exists e. f_equal. eapply convert_failed. exact E.
Qed.
Lemma convert_guards scale_iq scale_acf power ctime hf fs fn ft sfn sid st k rd rs i :
  borealis_read hf fn ft st = Ok rd -> reader_records rd = Ok rs -> find_slice_id rs sid = Ok i ->
  (~ In ft [str "bfiq"; str "rawacf"] ->
     borealis_convert scale_iq scale_acf power ctime hf fs fn ft sfn sid st k = (fs, Raise BorealisConversionTypesError)) /\
  (In ft [str "bfiq"; str "rawacf"] -> fn = sfn ->
     borealis_convert scale_iq scale_acf power ctime hf fs fn ft sfn sid st k = (fs, Raise ConvertFileOverWriteError)).
Proof.
  intros E1 E2 E3. unfold borealis_convert. rewrite E1. cbn [rbind]. rewrite E2. cbn [rbind]. rewrite E3. cbn [rbind]. split.
  - intros N. destruct (filetype_of ft) as [t|] eqn:EF; [|reflexivity]. unfold filetype_of in EF.
    destruct (str_eqb ft (str "bfiq")) eqn:EB; [apply str_eqb_eq in EB; destruct N; cbn; auto|].
    destruct (str_eqb ft (str "antennas_iq")); [injection EF as <-; reflexivity|].
    destruct (str_eqb ft (str "rawacf")) eqn:ER; [apply str_eqb_eq in ER; destruct N; cbn; auto|].
    destruct (str_eqb ft (str "rawrf")); [injection EF as <-; reflexivity|discriminate].
  - intros [<-|[<-|[]]] <-; cbn [filetype_of]; change (filetype_of (str "bfiq")) with (Some Bfiq);
      change (filetype_of (str "rawacf")) with (Some BRawacf); cbn [sdarn_type]; rewrite str_eqb_refl; reflexivity.
Qed.

(** ** Stations *)

Lemma common_station ctime r sid b beam txpow nrang xcf c : common_fields ctime r sid b beam txpow nrang xcf = Ok c ->
  exists s i, get_text r (str "station") = Ok s /\ dict_get code_to_stid s = Some i /\ dict_get c (str "stid") = Some (v16 i).
Proof.
  intros H. unfold common_fields in H. unwind H. apply ok_inj in H as <-.
  match goal with E : dict_item code_to_stid ?s = Ok ?i |- _ => exists s, i; unfold dict_item in E; destruct (dict_get code_to_stid s) as [i'|] eqn:EI; [|discriminate E]; apply ok_inj in E as ->
  end. split; [assumption|]. split; [reflexivity|]. reflexivity.
Qed.

(** Every record of a converted file comes from a beam of a record. *)
Definition common_of ctime (r : brecord) sid b (beam : Z) (raw : record) : Prop :=
  exists txpow nrang xcf common rest, common_fields ctime r sid b beam txpow nrang xcf = Ok common /\ raw = common ++ rest.
Lemma iqdat_common ctime sid key origin k r shape data b beam raw :
  iqdat_record ctime sid key origin k r shape data b beam = Ok raw -> common_of ctime r sid b beam raw.
Proof.
  intros H. unfold iqdat_record in H. cbv zeta in H. unwind H. apply ok_inj in H as <-.
  match goal with E : common_fields _ _ _ _ _ _ _ _ = Ok _ |- _ => do 5 eexists; split; [exact E|reflexivity] end.
Qed.
Lemma rawacf_common power ctime sid key origin k r shape main xcfs b beam raw :
  rawacf_record power ctime sid key origin k r shape main xcfs b beam = Ok raw -> common_of ctime r sid b beam raw.
Proof.
  intros H. unfold rawacf_record in H. destruct shape as [|nb [|nr [|nl [|]]]]; try discriminate.
  destruct (negb (Nat.ltb b nb) || Nat.eqb nl 0); [discriminate|]. cbv zeta in H. unwind H. apply ok_inj in H as <-.
  match goal with E : common_fields _ _ _ _ _ _ _ _ = Ok _ |- _ => do 5 eexists; split; [exact E|reflexivity] end.
Qed.
Lemma converted_common scale_iq scale_acf power ctime t sid rs origin k recs :
  converted_records scale_iq scale_acf power ctime t sid rs origin k = Ok recs ->
  exists outs, recs = concat outs /\
    Forall2 (fun p os => forall beams, vector_field (snd p) (str "beam_nums") BU32 beams ->
      length os = length beams /\
      forall b beam, nth_error beams b = Some beam ->
      exists o raw, nth_error os b = Some o /\ common_of ctime (snd p) sid b beam raw /\ Conversions.record2dmap raw = Ok o) rs outs.
Proof.
  intros H. destruct t; try discriminate; cbn [converted_records] in H;
    apply rbind_ok in H as (u & _ & H); apply wrap_convert_ok in H;
    apply convert_all_split in H as (outs & -> & H); exists outs; (split; [reflexivity|]);
    (eapply Forall2_impl; [|exact H]); clear H; intros [key r] os (ls & E & D) beams SB; cbn [snd] in *.
  - unfold convert_bfiq_record in E. cbv zeta in E. unwind E.
    unfold beams_of in *. rewrite (get_vector_ok _ _ _ _ SB eq_refl) in *. cbn [rbind] in *.
    match goal with X : Ok (combine _ _) = Ok ?v |- _ => apply ok_inj in X; subst v end.
    match type of E with mapM (fun q => iqdat_record _ _ _ _ _ _ ?sh ?dt _ _) _ = _ =>
      apply (beams_split (fun b beam => iqdat_record ctime sid key origin k r sh dt b beam) beams ls os) in E as [LE NE]; [|exact D] end.
    split; [exact LE|]. intros b beam HB. destruct (NE b beam HB) as (o & raw & NO & ER & RR). exists o, raw.
    split; [exact NO|]. split; [|exact RR]. eapply iqdat_common. exact ER.
  - unfold convert_rawacf_record in E. cbv zeta in E. unwind E.
    unfold beams_of in *. rewrite (get_vector_ok _ _ _ _ SB eq_refl) in *. cbn [rbind] in *.
    match goal with X : Ok (combine _ _) = Ok ?v |- _ => apply ok_inj in X; subst v end.
    match type of E with mapM (fun q => rawacf_record _ _ _ _ _ _ _ ?sh ?dt ?xx _ _) _ = _ =>
      apply (beams_split (fun b beam => rawacf_record power ctime sid key origin k r sh dt xx b beam) beams ls os) in E as [LE NE]; [|exact D] end.
    split; [exact LE|]. intros b beam HB. destruct (NE b beam HB) as (o & raw & NO & ER & RR). exists o, raw.
    split; [exact NO|]. split; [|exact RR]. eapply rawacf_common. exact ER.
Qed.
Lemma Forall2_in {A B} (P : A -> B -> Prop) l m x : Forall2 P l m -> In x l -> exists y, In y m /\ P x y.
Proof.
  induction 1 as [|a b l m HP H IH]; intros I; [destruct I|]. destruct I as [->|I]; [exists b; split; [now left|auto]|].
  destruct (IH I) as (z & Hz & Pz). exists z. split; [now right|auto].
Qed.

Lemma converted_station scale_iq scale_acf power ctime t sid rs origin k recs :
  converted_records scale_iq scale_acf power ctime t sid rs origin k = Ok recs ->
  exists outs, recs = concat outs /\
    Forall2 (fun p os => forall beams s, vector_field (snd p) (str "beam_nums") BU32 beams ->
      text_field (snd p) (str "station") s -> beams <> [] ->
      exists i, dict_get code_to_stid s = Some i /\
        length os = length beams /\ Forall (fun o => out_scalar o (str "stid") (VNpInt NI16 i)) os) rs outs.
Proof.
  intros H. apply converted_common in H as (outs & -> & H). exists outs. split; [reflexivity|].
  eapply Forall2_impl; [|exact H]. clear H. intros [key r] os H beams s SB SS NB. cbn [snd] in *.
  destruct (H beams SB) as [L N]. clear H.
  assert (ALL : forall b beam, nth_error beams b = Some beam -> exists o i, nth_error os b = Some o /\ dict_get code_to_stid s = Some i /\ out_scalar o (str "stid") (VNpInt NI16 i)).
  { intros b beam HB. destruct (N b beam HB) as (o & raw & NO & (tx & nr & x & c & rest & EC & ->) & R).
    apply common_station in EC as (s' & i & G & D & DC). rewrite (get_text_ok _ _ _ SS) in G. apply ok_inj in G as <-.
    exists o, i. split; [exact NO|]. split; [exact D|]. eapply out_scalar_get; [exact R| |reflexivity]. rewrite dict_get_app, DC.
    unfold v16. do 2 f_equal. f_equal. apply wrap16_small.
    assert (B : forallb (fun p => (- 2 ^ 15 <=? snd p) && (snd p <? 2 ^ 15)) code_to_stid = true) by reflexivity.
    rewrite forallb_forall in B. apply dict_get_In in D. apply B in D. cbn [snd] in D. lia. }
  destruct beams as [|b0 beams]; [congruence|]. destruct (ALL 0%nat b0 eq_refl) as (o0 & i & _ & D & _).
  exists i. split; [exact D|]. split; [exact L|]. apply Forall_forall. intros o Ho. apply In_nth_error in Ho as (b & Ho).
  assert (HB : (b < length (b0 :: beams))%nat) by (rewrite <- L; apply nth_error_Some; congruence).
  apply nth_error_Some in HB. destruct (nth_error (b0 :: beams) b) as [beam|] eqn:EB; [|congruence].
  destruct (ALL b beam EB) as (o' & i' & NO & D' & OUT). congruence.
Qed.

(** ** Untagged versions *)

Lemma untagged_255 h : untagged h -> revisions h = Ok (RNumber 255, RNumber 255).
Proof. intros (c & rest & -> & N). cbn [revisions]. destruct (Z.eqb_spec c 118); [contradiction|reflexivity]. Qed.
Lemma common_untagged ctime r sid b beam txpow nrang xcf c h : common_fields ctime r sid b beam txpow nrang xcf = Ok c ->
  text_field r (str "borealis_git_hash") h -> untagged h ->
  exists rest, c = (str "radar.revision.major", IPlain (VNpInt NI8 (-1))) :: rest.
Proof.
  intros H T U. unfold common_fields in H. unfold s_hash in H. rewrite (get_text_ok _ _ _ T) in H. cbn [rbind] in H.
  rewrite (untagged_255 _ U) in H. cbn [rbind fst snd revision_int8] in H. unwind H. apply ok_inj in H as <-.
  eexists. reflexivity.
Qed.
Lemma negative_char_fails rest : exists r', dmap_record_to_bytes ((str "radar.revision.major", IScalar (mk_dscalar (str "radar.revision.major") (VNpInt NI8 (-1)) 1 Fc)) :: rest) = (Raise ValueError, r').
Proof. eexists. reflexivity. Qed.
Lemma untagged_unwritable scale_iq scale_acf power ctime t sid rs origin k recs key r h beams :
  converted_records scale_iq scale_acf power ctime t sid rs origin k = Ok recs ->
  In (key, r) rs -> text_field r (str "borealis_git_hash") h -> untagged h ->
  vector_field r (str "beam_nums") BU32 beams -> beams <> [] ->
  exists o rest, In o recs /\
    o = (str "radar.revision.major", IScalar (mk_dscalar (str "radar.revision.major") (VNpInt NI8 (-1)) 1 Fc)) :: rest.
Proof.
  intros H HI T U SB NB. apply converted_common in H as (outs & -> & H).
  destruct (Forall2_in _ _ _ _ H HI) as (os & HO & K). cbn [snd] in K. destruct (K beams SB) as [L N].
  destruct beams as [|b0 beams]; [congruence|]. destruct (N 0%nat b0 eq_refl) as (o & raw & NO & (tx & nr & x & c & rest & EC & ->) & R).
  destruct (common_untagged _ _ _ _ _ _ _ _ _ _ EC T U) as (rest' & ->).
  cbn [Conversions.record2dmap app] in R. apply rbind_ok in R as (y & E & R). apply rbind_ok in R as (ys & E' & R). apply ok_inj in R as <-.
  cbn [Conversions.field2dmap] in E. apply ok_inj in E as <-. exists ((str "radar.revision.major", IScalar (mk_dscalar (str "radar.revision.major") (VNpInt NI8 (-1)) 1 Fc)) :: ys), ys.
  split; [|reflexivity]. apply in_concat. exists os. split; [exact HO|]. eapply nth_error_In. exact NO.
Qed.
Lemma untagged_fails scale_iq scale_acf power ctime hf fs fn ft sfn sid st k rd rs key r h beams :
  borealis_read hf fn ft st = Ok rd -> reader_records rd = Ok rs -> In (key, r) rs ->
  text_field r (str "borealis_git_hash") h -> untagged h -> vector_field r (str "beam_nums") BU32 beams -> beams <> [] ->
  exists e, borealis_convert scale_iq scale_acf power ctime hf fs fn ft sfn sid st k = (fs, Raise e).
Proof.
  intros E1 E2 HI T U SB NB.
  destruct (borealis_convert scale_iq scale_acf power ctime hf fs fn ft sfn sid st k) as [fs' [[]|e]] eqn:E.
  - exfalso. apply convert_ok in E as (rd' & rs' & i & t & sd & recs & bs & H1 & H2 & _ & _ & _ & _ & _ & HC & HW & _).
    assert (rd' = rd) by congruence. subst rd'. assert (rs' = rs) by congruence. subst rs'.
    destruct (untagged_unwritable _ _ _ _ _ _ _ _ _ _ _ _ _ _ HC HI T U SB NB) as (o & rest & HO & ->).
    destruct (converted_exactly _ _ _ _ _ _ _ _ _ _ HC) as [_ EX].
    assert (NF : written_fields t <> []) by (destruct t; discriminate).
    apply dmap_write_inv in HW as (recs' & bl & EC & _ & F & _). rewrite (converted_check _ _ EX NF) in EC. apply ok_inj in EC as <-.
    destruct (Forall2_in _ _ _ _ F HO) as (b & _ & EB). destruct (negative_char_fails rest) as (r' & ER). congruence.
  - exists e. f_equal. eapply convert_failed. exact E.
Qed.
