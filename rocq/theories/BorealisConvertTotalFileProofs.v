(** Proofs about the files that the conversion of Borealis files writes, and the range of
    scaled values. *)
From Coq Require Import String ZArith List Bool Lia Arith.
From Verif Require Import Base Bytes BytesProofs FloatBits FloatSpec DmapTypes DmapSpec DmapRead DmapReadProps DmapWriteSpec DmapWriteFacts DmapWriteProofs SDarnFormats SDarn SDarnSpec SDarnProps
  SDarnObjectProps BorealisTypes BorealisFormats BorealisArrays BorealisFile BorealisTime BorealisTimeProofs BorealisConvert BorealisConvertSpec BorealisConvertFieldSpec
  BorealisConvertTotalSpec BorealisConvertProofs BorealisConvertRecordProofs BorealisConvertSampleProofs BorealisConvertFileProofs BorealisConvertNumberProofs BorealisConvertFieldProofs BorealisConvertTailProofs BorealisConvertTotalProofs
  BorealisScale BorealisScaleSpec BorealisScaleProofs.
From Verif Require Conversions.
Import ListNotations.
Open Scope list_scope.
Open Scope Z_scope.

Lemma blocks_back bl : Forall good_block bl -> Forall (fun b => block_bytes b < 2 ^ 31) bl -> exists bl', Forall2 block_back bl bl'.
Proof.
  induction 1 as [|b bl G F IH]; intros S; [exists []; constructor|]. inversion S as [|? ? S1 S2]; subst.
  destruct (G S1) as (b' & B). destruct (IH S2) as (bl' & B'). exists (b' :: bl'). now constructor.
Qed.
Lemma write_named t fs rs fn w w' fs' : fn <> [] -> sd_writer_new rs [] = Ok w -> sd_write t fs w fn = (Ok tt, w', fs') ->
  write_to_sdarn t fs rs fn = (fs', Ok tt).
Proof.
  intros N W S. unfold write_to_sdarn. unfold sd_writer_new, Conversions.writer_new in *.
  destruct (Conversions.check_dmap_dict rs) as [rs'|e]; [|discriminate W]. cbn [rbind] in *.
  unfold Conversions.empty_record_check in *. cbn [Conversions.wr_records] in *. destruct rs' as [|r0 rs']; [discriminate W|].
  cbn [rbind] in *. apply ok_inj in W as <-.
  unfold sd_write in *. unfold Conversions.filename_check in *. cbn [Conversions.wr_filename Conversions.wr_records Conversions.wr_bytearr] in *.
  destruct fn as [|c fn]; [congruence|]. 
  destruct (Conversions.empty_record_check _); [|discriminate S].
  destruct (superDARN_file_structure_to_bytes _ _ _) as [[u|e] w2]; [|discriminate S]. injection S as _ <-. reflexivity.
Qed.

Lemma convert_reads scale_iq scale_acf power ctime hf fs fn ft t sd sfn sid i st k rd rs :
  borealis_read hf fn ft st = Ok rd -> reader_records rd = Ok rs -> find_slice_id rs sid = Ok i ->
  filetype_of ft = Some t -> sdarn_type t = Some sd -> fn <> sfn -> sfn <> [] ->
  Forall (fun p => plain_text (fst p) /\ able t (snd p)) rs -> plain_text fn -> (forall m, plain_text (ctime m)) ->
  (t = BRawacf -> (forall norm z, pair32 (scale_acf norm k z)) /\ (forall z, pair32 z -> 0 <= power z < 2 ^ 32)) ->
  exists bl, converted_records scale_iq scale_acf power ctime t i rs fn k = Ok (map block_fields bl) /\
    (Forall (fun b => block_bytes b < 2 ^ 31) bl -> file_bytes bl <= 2 ^ 63 - 1 ->
     exists fs' bl' rdr ds rdr',
       borealis_convert scale_iq scale_acf power ctime hf fs fn ft sfn sid st k = (fs', Ok tt) /\
       Forall2 block_back bl bl' /\
       sd_reader_init fs' (FromFile sfn) = Ok rdr /\ sd_read sd rdr = (Ok ds, rdr') /\
       rdr_records rdr' = map block_fields bl' /\ Forall2 shown (map block_fields bl') ds).
Proof.
  intros E1 E2 E3 E4 E5 N1 N2 F PF HC HS.
  assert (NR : rs <> []) by (intros ->; discriminate E3).
  destruct (converted_total scale_iq scale_acf power ctime t i rs fn k NR F PF HC HS) as (bl & EC & GB & NB).
  exists bl. split; [exact EC|]. intros SZ FS. destruct (blocks_back _ GB SZ) as (bl' & BB).
  pose proof (converted_acceptable _ _ _ _ _ _ _ _ _ _ _ EC E5) as AC.
  destruct (C29_round_trip sd fs sfn bl bl' NB N2 BB FS AC) as (w & w' & fs' & rdr & ds & rdr' & W & S & R1 & R2 & R3 & R4).
  exists fs', bl', rdr, ds, rdr'. split; [|auto 6].
  unfold borealis_convert. rewrite E1. cbn [rbind]. rewrite E2. cbn [rbind]. rewrite E3. cbn [rbind]. rewrite E4, E5.
  apply str_eqb_neq in N1. rewrite N1, EC. cbn [rbind]. eapply write_named; eassumption.
Qed.

(** ** The range of scaled values *)

Definition in32 (b : Z) : Prop := 0 <= b < 2 ^ 32.
Lemma in32_nan : in32 a_nan.
Proof. split; vm_compute; congruence. Qed.
Lemma in32_zero : in32 0.
Proof. split; vm_compute; congruence. Qed.
Lemma in32_minus : in32 (2 ^ 31).
Proof. split; vm_compute; congruence. Qed.
Lemma in32_inf s : 0 <= s < 2 -> in32 (infinity s).
Proof. intros H. unfold infinity, in32. lia. Qed.
Lemma xor_range x y : 0 <= sign_xor x y < 2.
Proof. unfold sign_xor. apply Z.mod_pos_bound. lia. Qed.
Lemma round_div_nonneg n d : 0 <= n -> 0 < d -> 0 <= round_div n d.
Proof.
  intros N D. unfold round_div. cbv zeta. pose proof (Z.div_pos n d N D). pose proof (Z.mod_pos_bound (n / d) 2 eq_refl).
  destruct (_ <? _); [lia|]. destruct (_ <? _); lia.
Qed.
Lemma make32_in s n d : 0 <= s < 2 -> 0 <= n -> 0 < d -> in32 (make32 s n d).
Proof.
  intros S N D. unfold make32, in32. cbv zeta. set (e := Z.max 0 _). assert (E : 0 <= e) by (unfold e; lia). clearbody e.
  pose proof (round_div_nonneg n (d * 2 ^ e) N ltac:(pose proof (pow_pos e E); nia)).
  set (r := round_div _ _) in *. clearbody r. lia.
Qed.
Lemma units_nonneg b : 0 <= units b.
Proof. unfold units. pose proof (sig32_nonneg b). pose proof (pos32_max b). pose proof (pow_pos (149 - pos32 b) ltac:(lia)). nia. Qed.
Lemma mul32_in x y : in32 (mul32 x y).
Proof.
  unfold mul32. destruct (_ || _); [apply in32_nan|]. destruct (_ || _).
  - destruct (_ || _); [apply in32_nan|apply in32_inf, xor_range].
  - apply make32_in; [apply xor_range| |apply pow_pos; lia]. pose proof (units_nonneg x). pose proof (units_nonneg y). nia.
Qed.
Lemma neg32_in x : in32 x -> in32 (neg32 x).
Proof.
  unfold neg32, in32, f32_sign. change (2 ^ 31) with 2147483648. change (2 ^ 32) with 4294967296. intros H.
  destruct (Z.eqb_spec (x / 2147483648) 0); [|]; Z.div_mod_to_equations; lia.
Qed.
Lemma add32_in x y : in32 x -> in32 y -> in32 (add32 x y).
Proof.
  intros X Y. unfold add32. destruct (_ || _); [apply in32_nan|]. destruct (is_inf x).
  - destruct (_ && _); [apply in32_nan|exact X].
  - destruct (is_inf y); [exact Y|]. cbv zeta. set (t := _ + _). destruct (Z.eqb_spec t 0).
    + destruct (_ && _); [apply in32_minus|apply in32_zero].
    + apply make32_in; [destruct (t <? 0); lia|lia|lia].
Qed.
Lemma times_in z c : pair32 (complex_times z c).
Proof.
  destruct z as [a b]. cbn [complex_times]. unfold sub32. split; cbn [fst snd]; apply add32_in; try apply neg32_in; apply mul32_in.
Qed.
Lemma acf_in square norm k z : pair32 (scaled_acf square norm k z).
Proof. apply times_in. Qed.
Lemma sqrt32_in x : in32 x -> in32 (sqrt32 x).
Proof.
  intros X. unfold sqrt32. destruct (is_nan x) eqn:N; [apply in32_nan|]. destruct (is_zero x); [exact X|]. destruct (_ =? 1); [apply in32_nan|].
  destruct (is_inf x) eqn:I; [exact X|]. cbv zeta.
  assert (FX : finite32 x).
  { split; [exact X|]. intros C. unfold is_nan, is_inf, special32 in *. rewrite C in *. cbn [Z.eqb Pos.eqb andb] in *.
    destruct (f32_man x =? 0); discriminate. }
  pose proof (units_range x FX) as [U1 U2]. set (n := units x * 2 ^ 149).
  assert (NB : 0 <= n < 2 ^ 426).
  { unfold n. replace (2 ^ 426) with (2 ^ 277 * 2 ^ 149) by (rewrite <- Z.pow_add_r by lia; reflexivity). pose proof (pow_pos 149 ltac:(lia)).
    split; [apply Z.mul_nonneg_nonneg; lia|apply Z.mul_lt_mono_pos_r; lia]. }
  clearbody n. assert (S : 0 <= Z.sqrt n < 2 ^ 213).
  { split; [apply Z.sqrt_nonneg|]. apply Z.sqrt_lt_square; [lia|lia|]. rewrite <- Z.pow_add_r by lia. exact (proj2 NB). }
  set (q := Z.sqrt n) in *. clearbody q. set (e := Z.max 0 (Z.log2 q - 23)).
  assert (E : 0 <= e <= 189).
  { unfold e. assert (Z.log2 q < 213); [|lia]. destruct (Z.eq_dec q 0) as [->|]; [reflexivity|]. apply Z.log2_lt_pow2; lia. }
  assert (R : 0 <= q / 2 ^ e < 2 ^ 24).
  { pose proof (pow_pos e ltac:(lia)) as PE. split; [apply Z.div_pos; lia|]. apply Z.div_lt_upper_bound; [lia|]. rewrite <- Z.pow_add_r by lia.
    destruct (Z.eq_dec q 0) as [->|Q]; [apply pow_pos; lia|]. eapply Z.lt_le_trans; [apply (log2_bounds q ltac:(lia))|].
    replace (2 * 2 ^ Z.log2 q) with (2 ^ (1 + Z.log2 q)) by (rewrite Z.pow_add_r; [reflexivity|lia|apply Z.log2_nonneg]).
    apply Z.pow_le_mono_r; unfold e; lia. }
  set (r := q / 2 ^ e) in *. clearbody r. pose proof (Z.mod_pos_bound r 2 eq_refl).
  unfold in32. change (2 ^ 24) with 16777216 in *. change (2 ^ 23) with 8388608. change (2 ^ 32) with 4294967296.
  destruct (_ <? _); [lia|]. destruct (_ <? _); lia.
Qed.
Lemma magnitude_in z : in32 (magnitude z).
Proof. apply sqrt32_in, add32_in; apply mul32_in. Qed.

(** ** Versions and missing texts *)

Lemma version_field ctime sid r b beam tx nr x c rest o major minor tail :
  common_fields ctime r sid b beam tx nr x = Ok c -> Conversions.record2dmap (c ++ rest) = Ok o ->
  text_field r (str "borealis_git_hash") (118 :: major ++ 46 :: minor ++ tail) ->
  small_number major -> small_number minor -> (tail = [] \/ exists c s, tail = c :: s /\ (c = 45 \/ c = 46)) ->
  out_scalar o (str "radar.revision.major") (VNpInt NI8 (digits_value major)) /\
  out_scalar o (str "radar.revision.minor") (VNpInt NI8 (digits_value minor)).
Proof.
  intros EC R H S1 S2 T. pose proof (small_revisions_of major minor tail S1 S2 T) as V.
  destruct (small_int8_value _ S1) as (Z1 & B1). destruct (small_int8_value _ S2) as (Z2 & B2).
  open_common EC. unfold s_hash in *.
  match goal with G : get_text r (str "borealis_git_hash") = Ok ?v |- _ => pose proof (get_text_det _ _ _ _ H G); subst v end.
  match goal with G : revisions _ = Ok ?v |- _ => rewrite V in G; apply ok_inj in G; subst v end. cbn [fst snd] in *.
  repeat match goal with G : revision_int8 (RText ?m) = Ok ?v |- _ => lazymatch v with digits_value _ => fail | _ => rewrite ?Z1, ?Z2 in G; apply ok_inj in G; subst v end end.
  assert (W : forall z, 0 <= z <= 127 -> wrap8 z = z).
  { intros z Hz. unfold wrap8, to_signed. change (2 ^ 8) with 256. change (wrap_mod 1 / 2) with 128. rewrite Z.mod_small by lia. destruct (Z.ltb_spec z 128); lia. }
  split; (eapply out_common; [exact R|look|unfold BorealisConvert.v8; rewrite W by assumption; reflexivity|eexists; reflexivity]).
Qed.

Lemma needs_texts scale_iq scale_acf power ctime t sid rs origin k recs :
  converted_records scale_iq scale_acf power ctime t sid rs origin k = Ok recs ->
  each_beam rs recs (fun key r b beam o => forall f,
    In f [str "borealis_git_hash"; str "experiment_name"; str "station"; str "experiment_comment"; str "slice_comment"] ->
    exists s, text_field r f s).
Proof.
  intros H. apply converted_beams in H. revert H. apply each_beam_impl. intros key r b beam o (raw & BR & R) f HF.
  assert (G : forall f s, get_text r f = Ok s -> exists s, text_field r f s).
  { intros f' s G. exists s. unfold get_text, dict_item, text_field in *. destruct (dict_get r f') as [v|]; [|discriminate G]. cbn [rbind] in G. destruct v; try discriminate G.
    all: repeat match type of G with context [match ?x with _ => _ end] => destruct x; try discriminate G end; apply ok_inj in G; subst; auto. }
  assert (C : exists tx nr x c, common_fields ctime r sid b beam tx nr x = Ok c).
  { destruct t; try contradiction.
    - destruct BR as (sh & d & E). apply BorealisConvertFileProofs.iqdat_common in E as (tx & nr & x & c & rest & EC & ->). eauto.
    - destruct BR as (sh & m & x' & E). apply BorealisConvertFileProofs.rawacf_common in E as (tx & nr & x & c & rest & EC & ->). eauto. }
  assert (CM : exists text, comment r key origin k = Ok text).
  { destruct t; try contradiction.
    - destruct BR as (sh & d & E). unfold iqdat_record in E. unwind E. eauto.
    - destruct BR as (sh & m & x' & E). unfold rawacf_record in E. destruct sh as [|nb [|nr [|nl [|]]]]; try discriminate E.
      destruct (negb (Nat.ltb b nb) || Nat.eqb nl 0); [discriminate E|]. cbv zeta in E. unwind E. eauto. }
  destruct C as (tx & nr & x & c & EC). destruct CM as (text & EM). open_common EC. unfold comment in EM. unwind EM. unfold s_hash in *.
  repeat (destruct HF as [<-|HF]; [eapply G; eassumption|]). destruct HF.
Qed.
