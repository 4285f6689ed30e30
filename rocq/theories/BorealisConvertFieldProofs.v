(** Proofs about the single fields of converted records. *)
From Coq Require Import String ZArith List Bool Lia Arith ZifyBool DecimalString DecimalPos DecimalFacts.
From Verif Require Import Base Bytes BytesProofs FloatBits FloatSpec DmapTypes DmapFileProofs DmapWriteFacts DmapWriteProofs SDarnFormats SDarn SDarnSpec
  SDarnChecks BorealisTypes BorealisFormats BorealisArrays BorealisFile BorealisFillProofs BorealisFileProofs
  BorealisTime BorealisTimeProofs BorealisConvert BorealisConvertSpec BorealisConvertProofs BorealisConvertRecordProofs BorealisConvertSampleProofs
  BorealisConvertFileProofs BorealisConvertFieldSpec BorealisConvertNumberProofs BorealisDateProofs.
From Verif Require Conversions FloatRoundProofs.
Import ListNotations.
Open Scope list_scope.
Open Scope Z_scope.

(** ** Records and beams *)

(** The record of one beam before the conversion to DMAP. *)
Definition beam_raw (power : Z * Z -> Z) ctime (t : filetype) sid key origin k r b beam (raw : record) : Prop :=
  match t with
  | Bfiq => exists shape data, iqdat_record ctime sid key origin k r shape data b beam = Ok raw
  | BRawacf => exists shape main xcfs, rawacf_record power ctime sid key origin k r shape main xcfs b beam = Ok raw
  | _ => False
  end.

Lemma converted_beams scale_iq scale_acf power ctime t sid rs origin k recs :
  converted_records scale_iq scale_acf power ctime t sid rs origin k = Ok recs ->
  each_beam rs recs (fun key r b beam o => exists raw, beam_raw power ctime t sid key origin k r b beam raw /\ Conversions.record2dmap raw = Ok o).
Proof.
  intros H. destruct t; try discriminate; cbn [converted_records] in H;
    apply rbind_ok in H as (u & _ & H); apply wrap_convert_ok in H;
    apply convert_all_split in H as (outs & -> & H); exists outs; (split; [reflexivity|]);
    (eapply Forall2_impl; [|exact H]); clear H; intros [key r] os (ls & E & D) beams SB; cbn [snd fst] in *.
  - unfold convert_bfiq_record in E. cbv zeta in E. unwind E.
    unfold beams_of in *. rewrite (get_vector_ok _ _ _ _ SB eq_refl) in *. cbn [rbind] in *.
    match goal with X : Ok (combine _ _) = Ok ?v |- _ => apply ok_inj in X; subst v end.
    match type of E with mapM (fun q => iqdat_record _ _ _ _ _ _ ?sh ?dt _ _) _ = _ =>
      apply (beams_split (fun b beam => iqdat_record ctime sid key origin k r sh dt b beam) beams ls os) in E as [LE NE]; [|exact D] end.
    split; [exact LE|]. intros b beam HB. destruct (NE b beam HB) as (o & raw & NO & ER & RR). exists o.
    split; [exact NO|]. exists raw. split; [|exact RR]. do 2 eexists. exact ER.
  - unfold convert_rawacf_record in E. cbv zeta in E. unwind E.
    unfold beams_of in *. rewrite (get_vector_ok _ _ _ _ SB eq_refl) in *. cbn [rbind] in *.
    match goal with X : Ok (combine _ _) = Ok ?v |- _ => apply ok_inj in X; subst v end.
    match type of E with mapM (fun q => rawacf_record _ _ _ _ _ _ _ ?sh ?dt ?xx _ _) _ = _ =>
      apply (beams_split (fun b beam => rawacf_record power ctime sid key origin k r sh dt xx b beam) beams ls os) in E as [LE NE]; [|exact D] end.
    split; [exact LE|]. intros b beam HB. destruct (NE b beam HB) as (o & raw & NO & ER & RR). exists o.
    split; [exact NO|]. exists raw. split; [|exact RR]. do 3 eexists. exact ER.
Qed.

Lemma each_beam_impl rs recs (P Q : pystr -> brecord -> nat -> Z -> record -> Prop) :
  (forall key r b beam o, P key r b beam o -> Q key r b beam o) -> each_beam rs recs P -> each_beam rs recs Q.
Proof.
  intros PQ (outs & -> & H). exists outs. split; [reflexivity|]. eapply Forall2_impl; [|exact H]. intros [key r] os K beams SB.
  destruct (K beams SB) as [L N]. split; [exact L|]. intros b beam HB. destruct (N b beam HB) as (o & NO & PO). eauto.
Qed.

(** From a property of the common fields. *)
Lemma each_common scale_iq scale_acf power ctime t sid rs origin k recs (Q : pystr -> brecord -> nat -> Z -> record -> Prop) :
  (forall key r b beam txpow nrang xcf c rest o, common_fields ctime r sid b beam txpow nrang xcf = Ok c ->
     Conversions.record2dmap (c ++ rest) = Ok o -> Q key r b beam o) ->
  converted_records scale_iq scale_acf power ctime t sid rs origin k = Ok recs -> each_beam rs recs Q.
Proof.
  intros HQ H. apply converted_beams in H. revert H. apply each_beam_impl. intros key r b beam o (raw & BR & R).
  assert (CO : common_of ctime r sid b beam raw).
  { destruct t; try contradiction; [destruct BR as (sh & d & E)|destruct BR as (sh & m & x & E)]; [eapply iqdat_common|eapply rawacf_common]; exact E. }
  destruct CO as (tx & nr & x & c & rest & EC & ->). eapply HQ; eassumption.
Qed.

(** ** What the fields of the source are *)

Lemma get_int_det r k t z z' : number_field r k t z -> get_int r k = Ok z' -> z' = z.
Proof. intros E H. unfold get_int in H. rewrite (dict_item_get _ _ _ E) in H. cbn in H. destruct (_ || _); [|discriminate]. congruence. Qed.
Lemma get_float_det r k t t' z z' : number_field r k t z -> get_float r k t' = Ok z' -> z' = z.
Proof. intros E H. unfold get_float in H. rewrite (dict_item_get _ _ _ E) in H. cbn in H. destruct (btype_eqb t' t); [|discriminate]. congruence. Qed.
Lemma get_text_det r k s s' : text_field r k s -> get_text r k = Ok s' -> s' = s.
Proof. intros E H. rewrite (get_text_ok _ _ _ E) in H. congruence. Qed.
Lemma get_vector_det r k t t' l l' : vector_field r k t l -> get_vector r k t' = Ok l' -> l' = l.
Proof.
  intros E H. unfold get_vector in H. rewrite (dict_item_get _ _ _ E) in H. cbn in H. destruct (btype_eqb t' t); [|discriminate].
  rewrite numbers_map in H. congruence.
Qed.
Lemma first_length_det r k n n' : array_length r k n -> first_length r k = Ok n' -> n' = n.
Proof. intros (t & ds & l & E) H. unfold first_length in H. rewrite (dict_item_get _ _ _ E) in H. cbn in H. congruence. Qed.
Lemma status_det r k z : status_word r k = Ok z ->
  (dict_get r k = None -> z = 0) /\ (forall t z', number_field r k t z' -> z = z').
Proof.
  unfold status_word. intros H. split.
  - intros N. rewrite N in H. congruence.
  - intros t z' E. pose proof E as E'. unfold number_field in E'. rewrite E' in H. eapply get_int_det; eassumption.
Qed.

(** ** What the fields of the result are *)

Lemma out_common c rest o k it v : Conversions.record2dmap (c ++ rest) = Ok o -> dict_get c k = Some it -> it = IPlain v ->
  (exists f, Conversions.value_format v = Some f) -> out_scalar o k v.
Proof. intros R G -> (f & F). eapply out_scalar_get; [exact R| |exact F]. now rewrite dict_get_app, G. Qed.
Lemma out_short c rest o k z : Conversions.record2dmap (c ++ rest) = Ok o -> dict_get c k = Some (v16 z) -> short_field o k z.
Proof. intros R G. exists (wrap16 z). split; [apply wrap16_is|]. eapply out_common; [exact R|exact G|reflexivity|eexists; reflexivity]. Qed.
Lemma wrap16_twice z : wrap16 (wrap16 z) = wrap16 z.
Proof. apply wrap16_small. apply wrap16_is. Qed.
Lemma v16_twice z : v16 (wrap16 z) = v16 z.
Proof. unfold v16. now rewrite wrap16_twice. Qed.

Lemma time_get m k : dict_get (time_fields m) k = None ->
  forall (a b : record), dict_get (a ++ time_fields m ++ b) k = match dict_get a k with Some v => Some v | None => dict_get b k end.
Proof. intros N a b. rewrite !dict_get_app, N. reflexivity. Qed.
Lemma time_none m k : str_mem k (map str ["time.yr"; "time.mo"; "time.dy"; "time.hr"; "time.mt"; "time.sc"; "time.us"]%string) = false -> dict_get (time_fields m) k = None.
Proof. intros H. apply (layout_get_none _ _ _ eq_refl). rewrite time_layout. exact H. Qed.

(** Takes a common record apart and looks a field up. *)
Ltac open_common H := unfold common_fields in H; unwind H; apply ok_inj in H; subst.
Ltac look := rewrite time_get by (apply time_none; vm_compute; reflexivity); reflexivity.

Lemma small16 z : 0 <= z < 60 -> v16 z = IPlain (VNpInt NI16 z).
Proof. intros Hz. unfold v16. rewrite wrap16_small; [reflexivity|change (2 ^ 15) with 32768; lia]. Qed.

(** ** Ranges of times *)

Lemma micros_range t m : micros t = Ok m -> -62135596800000000 <= m < 253402300800000000.
Proof.
  unfold micros. destruct (f64_exp t =? 2047); [destruct (f64_man t =? 0); discriminate|]. cbv zeta.
  destruct (2 ^ 55 <=? _); [discriminate|]. destruct (_ || _) eqn:E; [discriminate|]. intros H. apply ok_inj in H. subst m. apply orb_false_elim in E. lia.
Qed.

(** ** Copied, counted and constant fields *)

Section Fields.
Variables (ctime : Z -> pystr) (sid : Z) (r : brecord) (b : nat) (beam txpow nrang : Z) (xcf : bool) (c rest : record) (o : record).
Hypothesis EC : common_fields ctime r sid b beam txpow nrang xcf = Ok c.
Hypothesis R : Conversions.record2dmap (c ++ rest) = Ok o.

Lemma copied_field k k' t z : In (k, k') copied_fields -> number_field r k t z -> short_field o k' z.
Proof.
  intros I N. open_common EC. unfold copied_fields in I. cbn [In] in I.
  repeat match type of I with _ \/ _ => destruct I as [I|I] end; try contradiction; apply pair_equal_spec in I as [<- <-];
    (eapply out_short; [exact R|]); rewrite time_get by (apply time_none; vm_compute; reflexivity);
    match goal with G : get_int r ?s = Ok ?v |- _ => first [rewrite <- (get_int_det _ _ _ _ _ N G); reflexivity] end.
Qed.

Lemma status_field k k' : In (k, k') status_fields ->
  (dict_get r k = None -> short_field o k' 0) /\ (forall t z, number_field r k t z -> short_field o k' z).
Proof.
  intros I. open_common EC. unfold status_fields in I. cbn [In] in I.
  repeat match type of I with _ \/ _ => destruct I as [I|I] end; try contradiction; apply pair_equal_spec in I as [<- <-].
  - match goal with G : status_word r (str "agc_status_word") = Ok ?v |- _ => destruct (status_det _ _ _ G) as [D0 D1]; split;
      [intros N; rewrite <- (D0 N)|intros t z N; rewrite <- (D1 t z N)] end; (eapply out_short; [exact R|look]).
  - match goal with G : status_word r (str "lp_status_word") = Ok ?v |- _ => destruct (status_det _ _ _ G) as [D0 D1]; split;
      [intros N; rewrite <- (D0 N)|intros t z N; rewrite <- (D1 t z N)] end; (eapply out_short; [exact R|look]).
Qed.

Lemma count_fields : short_field o (str "channel") sid /\ short_field o (str "bmnum") beam /\
  (forall n, array_length r (str "pulses") n -> short_field o (str "mppul") (Z.of_nat n)) /\
  (forall n, array_length r (str "lags") n -> short_field o (str "mplgs") (Z.of_nat n - 1)).
Proof.
  open_common EC. split; [eapply out_short; [exact R|look]|]. split; [eapply out_short; [exact R|look]|]. split; intros n N.
  - match goal with G : first_length r (str "pulses") = Ok ?v |- _ => rewrite <- (first_length_det _ _ _ _ N G) end. eapply out_short; [exact R|look].
  - match goal with G : first_length r (str "lags") = Ok ?v |- _ => rewrite <- (first_length_det _ _ _ _ N G) end. eapply out_short; [exact R|look].
Qed.

Lemma constant_field k v : In (k, v) constant_fields -> out_scalar o k v.
Proof.
  intros I. open_common EC. unfold constant_fields in I. cbn [In] in I.
  repeat match type of I with _ \/ _ => destruct I as [I|I] end; try contradiction; apply pair_equal_spec in I as [<- <-];
    (eapply out_common; [exact R|rewrite time_get by (apply time_none; vm_compute; reflexivity); reflexivity|reflexivity|eexists; reflexivity]).
Qed.

Lemma passed_fields : short_field o (str "txpow") txpow /\ short_field o (str "nrang") nrang /\ short_field o (str "xcf") (if xcf then 1 else 0).
Proof. open_common EC. repeat split; (eapply out_short; [exact R|look]). Qed.

(** ** Fields from floats *)

Lemma lagfr_field x : number_field r (str "first_range_rtt") BF32 x -> f32_exp x <> 255 ->
  - 2 ^ 31 <= Z.quot (f32_val x) (2 ^ 149) < 2 ^ 31 -> short_field o (str "lagfr") (Z.quot (f32_val x) (2 ^ 149)).
Proof.
  intros N F B. open_common EC. match goal with G : get_float r (str "first_range_rtt") BF32 = Ok ?v |- _ => pose proof (get_float_det _ _ _ _ _ _ N G); subst v end.
  eapply out_short; [exact R|]. rewrite time_get by (apply time_none; vm_compute; reflexivity).
  rewrite <- (v16_twice (Z.quot _ _)), <- int_lagfr; [reflexivity|now apply Z.eqb_neq|exact B].
Qed.

Lemma smsep_field x : number_field r (str "rx_sample_rate") BF64 x -> f64_exp x <> 2047 -> 2 ^ 1074 <= 1000 * f64_val x ->
  exists n, cut_quotient 53 (1000000 * 2 ^ 1074) (f64_val x) n /\ short_field o (str "smsep") n.
Proof.
  intros N F B. open_common EC. match goal with G : get_float r (str "rx_sample_rate") BF64 = Ok ?v |- _ => pose proof (get_float_det _ _ _ _ _ _ N G); subst v end.
  apply Z.eqb_neq in F. destruct (sample_micros_cut _ F B) as (n & C & SM). exists n. split; [exact C|].
  eapply out_short; [exact R|]. rewrite time_get by (apply time_none; vm_compute; reflexivity).
  rewrite <- (v16_twice n), <- SM. reflexivity.
Qed.

Lemma intt_fields x : number_field r (str "int_time") BF32 x -> f32_exp x <> 255 -> - 2 ^ 31 <= f32_val x / 2 ^ 149 < 2 ^ 31 ->
  short_field o (str "intt.sc") (f32_val x / 2 ^ 149) /\
  out_scalar o (str "intt.us") (VNpInt NI32 (Z.quot (Z.rem (f32_val x) (2 ^ 149) * 1000000) (2 ^ 149))).
Proof.
  intros N F B. open_common EC. match goal with G : get_float r (str "int_time") BF32 = Ok ?v |- _ => pose proof (get_float_det _ _ _ _ _ _ N G); subst v end.
  apply Z.eqb_neq in F. split.
  - eapply out_short; [exact R|]. rewrite time_get by (apply time_none; vm_compute; reflexivity).
    rewrite <- (v16_twice (f32_val x / 2 ^ 149)), <- int_seconds_floor; [reflexivity|exact F|exact B].
  - destruct (int_micros_quot x F) as [IM IB]. eapply out_common; [exact R|look| |eexists; reflexivity].
    unfold v32. rewrite wrap32_small; [now rewrite IM|]. change (2 ^ 31) with 2147483648. lia.
Qed.

Lemma range_fields k k' x : In (k, k') [(str "first_range", str "frang"); (str "range_sep", str "rsep")] ->
  number_field r k BF32 x -> exists n, nearest_integer (f32_val x) (2 ^ 149) n /\ short_field o k' n.
Proof.
  intros I N. open_common EC. destruct I as [I|[I|[]]]; apply pair_equal_spec in I as [<- <-].
  - match goal with G : get_float r (str "first_range") BF32 = Ok ?v |- _ => pose proof (get_float_det _ _ _ _ _ _ N G); subst v end.
    match goal with G : round_f32 x = Ok ?v |- _ => exists v; split; [apply (round_f32_nearest _ _ G)|] end. eapply out_short; [exact R|look].
  - match goal with G : get_float r (str "range_sep") BF32 = Ok ?v |- _ => pose proof (get_float_det _ _ _ _ _ _ N G); subst v end.
    match goal with G : round_f32 x = Ok ?v |- _ => exists v; split; [apply (round_f32_nearest _ _ G)|] end. eapply out_short; [exact R|look].
Qed.

Lemma noise_field x l : vector_field r (str "noise_at_freq") BF64 (x :: l) -> 0 <= x < 2 ^ 64 -> f64_exp x <> 2047 ->
  exists y, nearest_single x y /\ out_scalar o (str "noise.search") (VF32 y).
Proof.
  intros N B F. open_common EC. match goal with G : get_vector r (str "noise_at_freq") BF64 = Ok ?v |- _ => pose proof (get_vector_det _ _ _ _ _ _ N G); subst v end.
  match goal with G : item_at (x :: l) 0 = Ok ?v |- _ => apply ok_inj in G; subst v end.
  exists (narrow x). split; [exact (FloatRoundProofs.narrow_nearest x B F)|]. eapply out_common; [exact R|look|reflexivity|eexists; reflexivity].
Qed.

Lemma azimuth_field x l : vector_field r (str "beam_azms") BF64 l -> nth_error l b = Some x -> 0 <= x < 2 ^ 64 -> f64_exp x <> 2047 ->
  exists y, nearest_single x y /\ out_scalar o (str "bmazm") (VF32 y).
Proof.
  intros N NX B F. open_common EC. match goal with G : get_vector r (str "beam_azms") BF64 = Ok ?v |- _ => pose proof (get_vector_det _ _ _ _ _ _ N G); subst v end.
  match goal with G : item_at l b = Ok ?v |- _ => unfold item_at in G; rewrite NX in G; apply ok_inj in G; subst v end.
  exists (narrow x). split; [exact (FloatRoundProofs.narrow_nearest x B F)|]. eapply out_common; [exact R|look|reflexivity|eexists; reflexivity].
Qed.

(** ** Texts *)

Lemma command_field h n : text_field r (str "borealis_git_hash") h -> text_field r (str "experiment_name") n ->
  out_scalar o (str "origin.command") (VStr (str "Borealis " ++ h ++ str " " ++ n)).
Proof.
  intros H N. open_common EC. unfold s_hash in *.
  match goal with G : get_text r (str "borealis_git_hash") = Ok ?v |- _ => pose proof (get_text_det _ _ _ _ H G); subst v end.
  match goal with G : get_text r (str "experiment_name") = Ok ?v |- _ => pose proof (get_text_det _ _ _ _ N G); subst v end.
  eapply out_common; [exact R|look|reflexivity|eexists; reflexivity].
Qed.

(** ** Time *)

Lemma time_field t0 l : vector_field r (str "sqn_timestamps") BF64 (t0 :: l) ->
  exists m yr mo dy hr mt sc us, micros t0 = Ok m /\ is_time m yr mo dy hr mt sc us /\
    out_scalar o (str "origin.time") (VStr (ctime m)) /\
    out_scalar o (str "time.yr") (VNpInt NI16 yr) /\ out_scalar o (str "time.mo") (VNpInt NI16 mo) /\
    out_scalar o (str "time.dy") (VNpInt NI16 dy) /\ out_scalar o (str "time.hr") (VNpInt NI16 hr) /\
    out_scalar o (str "time.mt") (VNpInt NI16 mt) /\ out_scalar o (str "time.sc") (VNpInt NI16 sc) /\
    out_scalar o (str "time.us") (VNpInt NI32 us).
Proof.
  intros N. open_common EC. match goal with G : get_vector r (str "sqn_timestamps") BF64 = Ok ?v |- _ => pose proof (get_vector_det _ _ _ _ _ _ N G); subst v end.
  match goal with G : item_at (t0 :: l) 0 = Ok ?v |- _ => apply ok_inj in G; subst v end.
  match goal with G : micros t0 = Ok ?v |- _ => rename v into m; rename G into EM end.
  pose proof (civil_date (m / 86400000000)) as CD. pose proof (civil_year (m / 86400000000)) as CY.
  pose proof (date_valid _ _ CD) as CV.
  destruct (civil (m / 86400000000)) as [[yr mo] dy] eqn:ED.
  assert (YB : -2 ^ 15 <= yr < 2 ^ 15).
  { apply micros_range in EM. apply CY. split; [apply Z.div_le_lower_bound; lia|apply Z.lt_succ_r, Z.div_lt_upper_bound; lia]. }
  assert (MD : forall y m', month_days y m' <= 31) by (intros y m'; unfold month_days; destruct (m' =? 2), (leap y), (existsb (Z.eqb m') [4; 6; 9; 11]); lia).
  destruct CV as [CV1 CV2]. pose proof (MD yr mo) as MD'. clear CY MD.
  pose proof (Z.div_mod m 86400000000 ltac:(lia)) as DM. pose proof (Z.mod_pos_bound m 86400000000 ltac:(lia)) as DB.
  set (x := m mod 86400000000) in *.
  exists m, yr, mo, dy, (x / 3600000000), (x / 60000000 mod 60), (x / 1000000 mod 60), (x mod 1000000).
  split; [exact EM|].
  assert (B1 : 0 <= x / 3600000000 < 24) by lia.
  assert (B2 : 0 <= x / 60000000 mod 60 < 60) by (apply Z.mod_pos_bound; lia).
  assert (B3 : 0 <= x / 1000000 mod 60 < 60) by (apply Z.mod_pos_bound; lia).
  assert (B4 : 0 <= x mod 1000000 < 1000000) by (apply Z.mod_pos_bound; lia).
  split.
  { exists (m / 86400000000). split; [exact CD|]. split; [exact B1|]. split; [exact B2|]. split; [exact B3|]. split; [exact B4|]. clear - DM DB. lia. }
  assert (TG : forall k it v, dict_get (time_fields m) k = Some it -> it = IPlain v -> (exists f, Conversions.value_format v = Some f) ->
     str_mem k (map str ["time.yr"; "time.mo"; "time.dy"; "time.hr"; "time.mt"; "time.sc"; "time.us"]%string) = true -> out_scalar o k v).
  { intros k it v' G EI V HI. eapply out_common; [exact R| |exact EI|exact V]. rewrite !dict_get_app. rewrite G.
    apply str_mem_In in HI. cbn [map In] in HI. repeat (destruct HI as [HI|HI]; [subst k; reflexivity|]). destruct HI. }
  unfold time_fields in TG. cbv zeta in TG. rewrite ED in TG. fold x in TG.
  pose proof small16 as S15.
  split; [eapply out_common; [exact R|look|reflexivity|eexists; reflexivity]|].
  split; [eapply TG; [reflexivity|rewrite wrap16_small by exact YB; reflexivity|eexists; reflexivity|reflexivity]|].
  split; [eapply TG; [reflexivity|apply S15; lia|eexists; reflexivity|reflexivity]|].
  split; [eapply TG; [reflexivity|apply S15; lia|eexists; reflexivity|reflexivity]|].
  split; [eapply TG; [reflexivity|apply S15; lia|eexists; reflexivity|reflexivity]|].
  split; [eapply TG; [reflexivity|apply S15; lia|eexists; reflexivity|reflexivity]|].
  split; [eapply TG; [reflexivity|apply S15; lia|eexists; reflexivity|reflexivity]|].
  eapply TG; [reflexivity|rewrite wrap32_small by (change (2 ^ 31) with 2147483648; lia); reflexivity|eexists; reflexivity|reflexivity].
Qed.
End Fields.
