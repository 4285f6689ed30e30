(** Proofs about the sizes of converted records and files. *)
From Coq Require Import String ZArith List Bool Lia Arith.
From Verif Require Import Base Bytes BytesProofs FloatBits FloatSpec DmapTypes DmapSpec DmapRead DmapReadProps DmapWriteSpec DmapWriteFacts DmapWriteProofs SDarnFormats SDarn SDarnSpec SDarnProps
  SDarnObjectProps BorealisTypes BorealisFormats BorealisArrays BorealisFile BorealisTime BorealisTimeProofs BorealisFillProofs BorealisConvert BorealisConvertSpec BorealisConvertFieldSpec
  BorealisConvertTotalSpec BorealisConvertProofs BorealisConvertRecordProofs BorealisConvertSampleProofs BorealisConvertFileProofs BorealisConvertNumberProofs BorealisConvertFieldProofs BorealisConvertTailProofs BorealisConvertTotalProofs
  BorealisConvertTotalFileProofs.
From Verif Require Conversions.
Import ListNotations.
Open Scope list_scope.
Open Scope Z_scope.

(** ** The size of a field and of a record *)

Definition item_bytes (it : item) : Z := match it with IScalar s => scalar_bytes s | IArray a => array_bytes a | IPlain _ => 0 end.
Definition record_bytes (r : record) : Z := total (map (fun p => item_bytes (snd p)) r).
(** A bound for a field before the conversion to DMAP. *)
Definition raw_bytes (p : pystr * item) : Z :=
  match snd p with
  | IPlain (VStr t) => zlen (fst p) + 3 + zlen t
  | IPlain (VArr a) => zlen (fst p) + 6 + 4 * zlen (nd_shape a) + Z.of_nat (dtype_size (nd_dtype a)) * zlen (nd_data a)
  | IPlain (VIntList l) => zlen (fst p) + 10 + 8 * zlen l
  | _ => zlen (fst p) + 10
  end.
Definition raw_total (r : record) : Z := total (map raw_bytes r).

Lemma total_app a b : total (a ++ b) = total a + total b.
Proof. unfold total. induction a as [|x a IH]; cbn [app fold_right]; lia. Qed.
Lemma raw_total_app a b : raw_total (a ++ b) = raw_total a + raw_total b.
Proof. unfold raw_total. rewrite map_app. apply total_app. Qed.

Lemma block_total b : block_bytes b = 16 + record_bytes (block_fields b).
Proof.
  unfold block_bytes, record_bytes, block_fields. rewrite map_app, total_app, !map_map. cbn [snd item_bytes].
  change (map (fun x => scalar_bytes x) (fst b)) with (map scalar_bytes (fst b)). change (map (fun x => array_bytes x) (snd b)) with (map array_bytes (snd b)). lia.
Qed.
Lemma wire_le f : Z.of_nat (wire_size f) <= 8.
Proof. destruct f; cbn; lia. Qed.
Lemma field_size k it it' : Conversions.field2dmap k it = Ok it' -> item_bytes it' <= raw_bytes (k, it).
Proof.
  intros H. destruct it as [s|a|v]; [discriminate H|discriminate H|].
  assert (A : forall a, Conversions.array_item k a = Ok it' ->
    item_bytes it' = zlen k + 6 + 4 * zlen (nd_shape a) + Z.of_nat (dtype_size (nd_dtype a)) * zlen (nd_data a)).
  { intros a E. unfold Conversions.array_item in E. destruct (Conversions.dtype_format (nd_dtype a)) as [f|] eqn:F; [|discriminate E]. apply ok_inj in E as <-.
    cbn [item_bytes]. unfold array_bytes. cbn [ar_name ar_shape ar_fmt ar_value].
    assert (S : wire_size f = dtype_size (nd_dtype a)) by (destruct (nd_dtype a); cbn in F; try discriminate F; injection F as <-; reflexivity).
    rewrite S. lia. }
  destruct v; cbn [Conversions.field2dmap Conversions.value_format] in H; try discriminate H;
    try (apply ok_inj in H as <-; cbn [item_bytes raw_bytes snd fst]; unfold scalar_bytes; cbn [sc_name sc_value sc_fmt];
         try match goal with |- context [wire_size ?f] => pose proof (wire_le f) end; lia).
  - rewrite (A _ H). cbn [raw_bytes snd fst]. lia.
  - destruct (_ =? _) eqn:Z0.
    { rewrite (A _ H). cbn [raw_bytes snd fst nd_shape nd_dtype nd_data dtype_size]. apply Z.eqb_eq in Z0. rewrite Z0.
      change (zlen [0]) with 1. change (zlen (@nil Z)) with 0. lia. }
    destruct (forallb _ _); [|destruct (forallb _ _); discriminate H]. rewrite (A _ H). cbn [raw_bytes snd fst nd_shape nd_dtype nd_data dtype_size].
    change (zlen [zlen l]) with 1. lia.
Qed.
Lemma record_size r o : Conversions.record2dmap r = Ok o -> record_bytes o <= raw_total r.
Proof.
  revert o. induction r as [|[k it] r IH]; intros o H; cbn [Conversions.record2dmap] in H.
  - apply ok_inj in H as <-. unfold record_bytes, raw_total. cbn. lia.
  - apply rbind_ok in H as (it' & E & H). apply rbind_ok in H as (rest & E' & H). apply ok_inj in H as <-.
    apply field_size in E. apply IH in E'. unfold record_bytes, raw_total in *. cbn [map total fold_right snd]. unfold total in *. lia.
Qed.

(** ** Texts *)

Lemma zlen_app {A} (a b : list A) : zlen (a ++ b) = zlen a + zlen b.
Proof. unfold zlen. rewrite app_length. lia. Qed.
Lemma zlen_nonneg {A} (l : list A) : 0 <= zlen l.
Proof. unfold zlen. lia. Qed.
Lemma natural_size z s : natural_numeral z s -> z <= 2 ^ 64 -> zlen s <= 65.
Proof.
  intros (D & V & [->|(c & s' & -> & N)]) B; [cbn; lia|].
  change (digits_value (c :: s')) with (fold_left (fun a c => 10 * a + (c - 48)) s' (10 * 0 + (c - 48))) in V. rewrite fold_digits in V.
  inversion D as [|? ? D1 D2]; subst. pose proof (digits_bound _ D2) as [B1 _]. unfold digit in D1.
  unfold zlen. cbn [length]. rewrite Nat2Z.inj_succ. set (n := Z.of_nat (length s')) in *. assert (HN : 0 <= n) by (unfold n; lia). clearbody n.
  destruct (Z.le_gt_cases n 64) as [|G]; [lia|exfalso].
  assert (P : 2 ^ 65 <= 2 ^ n) by (apply Z.pow_le_mono_r; lia).
  assert (Q : 2 ^ n <= 10 ^ n) by (apply Z.pow_le_mono_l; lia).
  assert (R : 10 ^ n <= (10 * 0 + (c - 48)) * 10 ^ n) by nia.
  change (2 ^ 65) with (2 * 2 ^ 64) in P. pose proof (pow_pos 64 ltac:(lia)). lia.
Qed.
Lemma dec_size z : Z.abs z <= 2 ^ 64 -> zlen (dec z) <= 66.
Proof.
  intros B. destruct (dec_numeral z) as [[P N]|[P (s & -> & N)]].
  - apply natural_size in N; lia.
  - apply natural_size in N; [|lia]. unfold zlen in *. cbn [length]. lia.
Qed.

(** ** The fields *)

Ltac closed_lengths :=
  repeat match goal with |- context [zlen (str ?s)] => let v := eval vm_compute in (zlen (str s)) in change (zlen (str s)) with v end.

Lemma time_size m : raw_total (time_fields m) <= 150.
Proof.
  unfold time_fields. destruct (civil _) as [[yr mo] dy]. unfold raw_total. cbn [map total fold_right]. unfold total, raw_bytes. cbn [fold_right snd fst].
  closed_lengths. lia.
Qed.
Lemma text_size r f s : moderate r -> get_text r f = Ok s -> zlen s <= 2 ^ 25.
Proof.
  intros [M _] G. unfold get_text, dict_item in G. destruct (dict_get r f) as [v|] eqn:E; [|discriminate G]. cbn [rbind] in G. specialize (M f v E).
  destruct v as [t c|s0|t sh l|t|]; try discriminate G;
  repeat match type of G with context [match ?x with _ => _ end] => destruct x; try discriminate G end; apply ok_inj in G; subst; exact M.
Qed.
Lemma common_size ctime r sid b beam tx nr x c : common_fields ctime r sid b beam tx nr x = Ok c -> moderate r -> (forall m, zlen (ctime m) <= 2 ^ 25) ->
  raw_total c <= 3 * 2 ^ 25 + 1000.
Proof.
  intros EC M HC. open_common EC.
  repeat match goal with G : get_text r ?f = Ok ?s |- _ => apply (text_size _ _ _ M) in G end.
  rewrite !raw_total_app. 
  match goal with |- context [time_fields ?m] => pose proof (time_size m); pose proof (HC m); set (tt := raw_total (time_fields m)) in *; clearbody tt end.
  unfold raw_total, BorealisConvert.v8, BorealisConvert.v16, BorealisConvert.v32, vf, vt. cbn [map]. unfold raw_bytes. cbn [snd fst]. unfold total. cbn [fold_right]. rewrite !zlen_app. closed_lengths. lia.
Qed.
Lemma comment_size r key origin k text : comment r key origin k = Ok text -> moderate r -> zlen key <= 2 ^ 25 -> zlen origin <= 2 ^ 25 -> Z.abs k <= 2 ^ 64 ->
  (exists n, array_length r (str "beam_nums") n /\ Z.of_nat n <= 2 ^ 12) -> zlen text <= 4 * 2 ^ 25 + 500.
Proof.
  intros H M HK HO HF (n & AL & NB). unfold comment in H. unwind H. apply ok_inj in H as <-.
  repeat match goal with G : get_text r ?f = Ok ?s |- _ => apply (text_size _ _ _ M) in G end.
  match goal with G : first_length r _ = Ok ?v |- _ => apply (first_length_det _ _ _ _ AL) in G; subst v end.
  pose proof (dec_size k HF). pose proof (dec_size (Z.of_nat n) ltac:(lia)). rewrite !zlen_app. closed_lengths. lia.
Qed.
Lemma array_size r f t shape l : moderate r -> dict_get r f = Some (BArr t shape l) -> zlen l <= 2 ^ 25.
Proof. intros [M _] E. exact (M _ _ E). Qed.
Lemma tables_size r tabs nbeams : common_source r nbeams -> tables r = Ok tabs -> moderate r ->
  raw_bytes (str "ptab", fst tabs) + raw_bytes (str "ltab", snd tabs) <= 4 * 2 ^ 25 + 300.
Proof.
  intros C E M. destruct C as [_ _ _ _ _ _ _ _ _ _ _ (p & l & VP) (n & shape & ll & DL & _ & R & _)].
  unfold tables in E. rewrite (get_vector_ok _ _ _ _ VP eq_refl) in E. cbn [rbind] in E. rewrite (dict_item_get _ _ _ DL) in E. cbn [rbind] in E.
  rewrite numbers_map in E. cbn [rbind] in E. apply ok_inj in E as <-. unfold vector_field in VP.
  apply (array_size _ _ _ _ _ M) in VP. apply (array_size _ _ _ _ _ M) in DL. unfold raw_bytes, va, zlen in *. cbn [fst snd nd_shape nd_dtype nd_data dtype_size map] in *.
  cbn [length] in *. rewrite ?map_length in *. change (Z.of_nat (length (str "ptab"))) with 4. change (Z.of_nat (length (str "ltab"))) with 4. lia.
Qed.

Lemma array_raw name d shape l : raw_bytes (name, va d shape l) = zlen name + 6 + 4 * zlen shape + Z.of_nat (dtype_size d) * zlen l.
Proof. unfold raw_bytes, va, zlen. cbn [fst snd nd_shape nd_dtype nd_data]. now rewrite map_length. Qed.

Lemma iqdat_size ctime sid key origin k r (scale : Z * Z -> Z * Z) beams nseq arrays samps norm na ns nb n data b beam raw :
  bfiq_source r beams nseq arrays samps norm na ns nb n data -> common_source r (length beams) -> moderate r ->
  (1 <= nb)%nat -> (1 <= nseq <= ns)%nat -> (1 <= na)%nat -> (1 <= n)%nat ->
  zlen key <= 2 ^ 25 -> zlen origin <= 2 ^ 25 -> Z.abs k <= 2 ^ 64 -> (forall m, zlen (ctime m) <= 2 ^ 25) ->
  iqdat_record ctime sid key origin k r [na; ns; nb; n] (map scale data) b beam = Ok raw -> raw_total raw < 2 ^ 31 - 16.
Proof.
  intros BS C M HB HQ HA HM HK HO HF HC E. pose proof BS as [SB SS (t & nms & SA) SP SN (SD1 & (shd & SD2) & SD3)].
  pose proof C as [_ _ _ _ _ (t0 & tl0 & VT & _) (x0 & nl & VN & RN) _ _ _ RG _ _].
  assert (AL : exists n, array_length r (str "beam_nums") n /\ Z.of_nat n <= 2 ^ 12).
  { exists (length beams). split; [do 3 eexists; exact SB|]. exact (proj2 M _ SB). }
  unfold iqdat_record in E. rewrite (get_int_ok _ _ _ _ SS eq_refl) in E. cbn [rbind] in E. rewrite Nat2Z.id in E. cbv zeta in E.
  rewrite (get_vector_ok _ _ _ _ VT eq_refl), (get_vector_ok _ _ _ _ VN eq_refl) in E. unwind E. apply ok_inj in E as <-.
  repeat match goal with X : Ok ?l = Ok ?v |- _ => apply ok_inj in X; subst v end.
  match goal with X : common_fields _ _ _ _ _ _ _ _ = Ok _ |- _ => apply common_size in X; [|exact M|exact HC] end.
  match goal with X : comment _ _ _ _ = Ok _ |- _ => apply comment_size in X; [|exact M|exact HK|exact HO|exact HF|exact AL] end.
  match goal with X : tables _ = Ok _ |- _ => apply (tables_size _ _ _ C) in X; [|exact M] end.
  match goal with X : beam_samples _ _ _ _ = Ok ?s |- _ => destruct (samples_nth _ _ _ _ _ _ _ _ _ SD3 X) as [LV _]; set (iq := map clip16 (parts s)) in *; clearbody iq end.
  apply (array_size _ _ _ _ _ M) in SD2. unfold vector_field in VT, VN. apply (array_size _ _ _ _ _ M) in VT. apply (array_size _ _ _ _ _ M) in VN.
  unfold zlen in SD2, VT, VN. rewrite map_length in SD2, VT, VN. rewrite SD3 in SD2. cbn [size fold_right] in SD2.
  assert (D1 : (nseq * na * n <= na * (ns * (nb * (n * 1))))%nat).
  { replace (na * (ns * (nb * (n * 1))))%nat with (ns * nb * (na * n))%nat by ring. replace (nseq * na * n)%nat with (nseq * (na * n))%nat by ring.
    apply Nat.mul_le_mono_r. clear - HB HQ. nia. }
  assert (D2 : (nseq <= nseq * na * n)%nat).
  { clear - HQ HA HM. assert (1 <= na * n)%nat by nia. rewrite <- Nat.mul_assoc. set (m := (na * n)%nat) in *. clearbody m. nia. }
  rewrite raw_total_app. unfold raw_total at 2. cbn [map total fold_right]. unfold total. cbn [fold_right].
  rewrite !array_raw. unfold raw_bytes at 1 2 3 4 5 6 7. unfold BorealisConvert.v32, vt. cbn [fst snd]. closed_lengths.
  unfold zlen in *. rewrite !map_length, !repeat_length, !seq_length. cbn [length dtype_size].
  rewrite LV. rewrite ?map_length. cbn [length] in *. set (M0 := (nseq * na * n)%nat) in *. clearbody M0. set (T := length tl0) in *. set (Nn := length nl) in *. clearbody T Nn. lia.
Qed.
Lemma rawacf_size power ctime sid key origin k r (scale : Z * Z -> Z * Z) nbeams nb nr nl (main xcfs : list (Z * Z)) b beam raw :
  common_source r nbeams -> array_length r (str "beam_nums") nbeams -> Z.of_nat nbeams <= 2 ^ 12 -> moderate r ->
  length main = size [nb; nr; nl] -> length xcfs = size [nb; nr; nl] -> zlen main <= 2 ^ 25 ->
  (b < nb)%nat -> (1 <= nr)%nat -> (2 <= nl)%nat ->
  zlen key <= 2 ^ 25 -> zlen origin <= 2 ^ 25 -> Z.abs k <= 2 ^ 64 -> (forall m, zlen (ctime m) <= 2 ^ 25) ->
  rawacf_record power ctime sid key origin k r [nb; nr; nl] (map scale main) (Some (map scale xcfs)) b beam = Ok raw -> raw_total raw < 2 ^ 31 - 16.
Proof.
  intros C AL NB M LM LX LE HB HR HL HK HO HF HC E. assert (NL : (nl <> 0)%nat) by lia.
  pose proof (proj1 (lags_nth scale nb nr nl main b LM HB NL)) as N1.
  pose proof (proj1 (lags_nth scale nb nr nl xcfs b LX HB NL)) as N2.
  pose proof (proj1 (lag0_nth scale power nb nr nl main b LM HB NL)) as N3.
  unfold rawacf_record in E. destruct (_ || _); [discriminate E|]. cbv zeta in E. unwind E. apply ok_inj in E as <-.
  repeat match goal with X : Ok ?l = Ok ?v |- _ => apply ok_inj in X; subst v end.
  match goal with X : common_fields _ _ _ _ _ _ _ _ = Ok _ |- _ => apply common_size in X; [|exact M|exact HC] end.
  match goal with X : comment _ _ _ _ = Ok _ |- _ => apply comment_size in X; [|exact M|exact HK|exact HO|exact HF|eauto] end.
  match goal with X : tables _ = Ok _ |- _ => apply (tables_size _ _ _ C) in X; [|exact M] end.
  unfold zlen in LE. rewrite LM in LE. cbn [size fold_right] in LE.
  assert (D1 : (nr * nl <= nb * (nr * (nl * 1)))%nat).
  { clear - HB. replace (nb * (nr * (nl * 1)))%nat with (nb * (nr * nl))%nat by ring. set (m := (nr * nl)%nat). clearbody m. nia. }
  assert (D2 : (nr <= nr * nl)%nat) by (clear - HL HR; nia).
  assert (D3 : (nr * (nl - 1) * 2 <= 2 * (nr * nl))%nat) by (clear - HL HR; nia).
  set (p0 := map power _) in *. set (p1 := parts _) in *. set (p2 := parts _) in *. clearbody p0 p1 p2.
  rewrite raw_total_app. unfold raw_total at 2. cbn [map total fold_right]. unfold total. cbn [fold_right].
  rewrite !array_raw. unfold raw_bytes at 1 2 3 4. unfold BorealisConvert.v32, vt, vf. cbn [fst snd]. closed_lengths.
  unfold zlen in *. rewrite !map_length, !seq_length. cbn [length dtype_size]. rewrite N1, N2, N3.
  set (m := (nr * nl)%nat) in *. set (m2 := (nr * (nl - 1) * 2)%nat) in *. clearbody m m2. lia.
Qed.

(** ** Records and files *)

Lemma mapM_Forall {A B} (f : A -> res B) (P : B -> Prop) l m : (forall a b, In a l -> f a = Ok b -> P b) -> mapM f l = Ok m -> Forall P m.
Proof.
  revert m. induction l as [|a l IH]; intros m H E; cbn [mapM] in E.
  - apply ok_inj in E as <-. constructor.
  - apply rbind_ok in E as (b & E1 & E). apply rbind_ok in E as (m' & E2 & E). apply ok_inj in E as <-.
    constructor; [exact (H a b (or_introl eq_refl) E1)|]. apply IH; [|exact E2]. intros a' b' I. apply H. now right.
Qed.
Lemma mapM_length {A B} (f : A -> res B) l m : mapM f l = Ok m -> length m = length l.
Proof.
  revert m. induction l as [|a l IH]; intros m E; cbn [mapM] in E; [apply ok_inj in E as <-; reflexivity|].
  apply rbind_ok in E as (b & E1 & E). apply rbind_ok in E as (m' & E2 & E). apply ok_inj in E as <-. cbn. now rewrite (IH _ E2).
Qed.
Definition sized (ls : list record) : Prop := Forall (fun r => raw_total r < 2 ^ 31 - 16) ls /\ zlen ls <= 2 ^ 12.

Lemma bfiq_record_size scale_iq ctime sid key r origin k ls : iqdat_able r -> moderate r ->
  zlen key <= 2 ^ 25 -> zlen origin <= 2 ^ 25 -> Z.abs k <= 2 ^ 64 -> (forall m, zlen (ctime m) <= 2 ^ 25) ->
  convert_bfiq_record scale_iq ctime sid (key, r) origin k = Ok ls -> sized ls.
Proof.
  intros (beams & nseq & arrays & samps & norm & na & ns & nb & n & data & BS & C & HB & HQ & HA & HM & _) M HK HO HF HC E.
  pose proof BS as [SB SS (t & nms & SA) SP SN SD]. destruct (shaped_ok _ _ _ _ _ SD) as (d & ED & ESH).
  unfold convert_bfiq_record in E. rewrite (dict_item_get _ _ _ ED) in E. cbn [rbind] in E. rewrite ESH in E. cbn [rbind] in E.
  rewrite (get_float_ok _ _ _ _ SN eq_refl) in E. cbn [rbind] in E. cbv zeta in E.
  unfold beams_of in E. rewrite (get_vector_ok _ _ _ _ SB eq_refl) in E. cbn [rbind fst snd] in E. unwind E. 
  split.
  - eapply mapM_Forall; [|exact E]. cbn beta. intros q raw _ ER.
    eapply (iqdat_size ctime sid key origin k r (scale_iq norm k) beams nseq arrays samps norm na ns nb n data); try eassumption; lia.
  - unfold zlen. rewrite (mapM_length _ _ _ E), combine_length, seq_length, Nat.min_id. exact (proj2 M _ SB).
Qed.
Lemma rawacf_record_size scale_acf power ctime sid key r origin k ls : rawacf_able r -> moderate r ->
  zlen key <= 2 ^ 25 -> zlen origin <= 2 ^ 25 -> Z.abs k <= 2 ^ 64 -> (forall m, zlen (ctime m) <= 2 ^ 25) ->
  convert_rawacf_record scale_acf power ctime sid (key, r) origin k = Ok ls -> sized ls.
Proof.
  intros (beams & norm & nb & nr & nl & main & xcfs & [SB SN (dk & DK & SM & SX)] & C & HB & HR & HL & _) M HK HO HF HC E.
  destruct (shaped_ok _ _ _ _ _ SM) as (d & ED & ESM). destruct (shaped_ok _ _ _ _ _ SX) as (d' & ED' & ESX).
  assert (d' = d) by congruence. subst d'.
  assert (EX : shaped_if r d (str "xcfs") = Ok (Some ([nb; nr; nl], xcfs))).
  { unfold shaped_if. destruct SX as (_ & (sh & DX) & _). rewrite DX, ESX. reflexivity. }
  unfold convert_rawacf_record in E.
  match type of E with rbind ?x _ = _ => assert (ex : x = Ok d) end.
  { destruct DK as [->|[DN ->]]; [now rewrite ED|]. rewrite DN, ED. reflexivity. }
  rewrite ex in E. clear ex. cbn [rbind] in E. rewrite (get_float_ok _ _ _ _ SN eq_refl) in E. cbn [rbind] in E. cbv zeta in E. rewrite ESM in E. cbn [rbind] in E.
  rewrite EX in E. cbn [rbind] in E.
  unfold beams_of in E. rewrite (get_vector_ok _ _ _ _ SB eq_refl) in E. cbn [rbind fst snd] in E. unwind E.
  destruct SM as (_ & (sm & DM) & LM). destruct SX as (_ & _ & LX). apply (array_size _ _ _ _ _ M) in DM. unfold zlen in DM. rewrite map_length in DM.
  split.
  - eapply mapM_Forall; [|exact E]. cbn beta. intros q raw HI ER. apply combine_seq_in in HI.
    eapply (rawacf_size power ctime sid key origin k r (scale_acf norm k) (length beams) nb nr nl main xcfs); try eassumption; try lia; [|exact (proj2 M _ SB)].
    do 3 eexists. exact SB.
  - unfold zlen. rewrite (mapM_length _ _ _ E), combine_length, seq_length, Nat.min_id. exact (proj2 M _ SB).
Qed.

Lemma split_sizes (rs : brecords) outs bl : map block_fields bl = concat outs ->
  Forall2 (fun _ os => exists ls, sized ls /\ Forall2 (fun a b => Conversions.record2dmap a = Ok b) ls os) rs outs ->
  Forall (fun b => block_bytes b < 2 ^ 31) bl /\ zlen bl <= zlen rs * 2 ^ 12.
Proof.
  intros E F. split.
  - assert (G : Forall (fun o => record_bytes o < 2 ^ 31 - 16) (map block_fields bl)).
    { rewrite E. clear E. induction F as [|p os rs outs (ls & [S _] & H) F IH]; [constructor|]. cbn [concat]. apply Forall_app. split; [|exact IH].
      clear -S H. induction H as [|a b ls os R H IH]; [constructor|]. inversion S; subst. constructor; [|auto]. apply record_size in R. lia. }
    clear -G. induction bl as [|b bl IH]; [constructor|]. inversion G; subst. constructor; [|auto]. rewrite block_total. lia.
  - replace (zlen bl) with (zlen (map block_fields bl)) by (unfold zlen; now rewrite map_length). rewrite E. clear E.
    induction F as [|p os rs outs (ls & [_ S] & H) F IH]; [cbn; lia|]. cbn [concat]. rewrite zlen_app.
    assert (L : zlen os = zlen ls) by (unfold zlen; f_equal; clear -H; induction H; cbn; congruence).
    unfold zlen, record, dict in *. cbn [length]. lia.
Qed.
Lemma file_size bl : Forall (fun b => block_bytes b < 2 ^ 31) bl -> file_bytes bl <= zlen bl * (2 ^ 31 - 1).
Proof.
  unfold file_bytes. induction 1 as [|b bl H F IH]; [cbn; lia|]. cbn [map total fold_right]. unfold total in *.
  unfold zlen in *. cbn [length]. lia.
Qed.

Lemma converted_sizes scale_iq scale_acf power ctime t sid (rs : brecords) origin k bl :
  converted_records scale_iq scale_acf power ctime t sid rs origin k = Ok (map block_fields bl) ->
  Forall (fun p => zlen (fst p) <= 2 ^ 25 /\ able t (snd p) /\ moderate (snd p)) rs -> zlen rs <= 2 ^ 20 ->
  zlen origin <= 2 ^ 25 -> Z.abs k <= 2 ^ 64 -> (forall m, zlen (ctime m) <= 2 ^ 25) ->
  Forall (fun b => block_bytes b < 2 ^ 31) bl /\ file_bytes bl <= 2 ^ 63 - 1.
Proof.
  intros H F HR HO HF HC. assert (G : Forall (fun b => block_bytes b < 2 ^ 31) bl /\ zlen bl <= zlen rs * 2 ^ 12).
  { destruct t; try discriminate; cbn [converted_records] in H;
    apply rbind_ok in H as (u & _ & H); apply wrap_convert_ok in H;
    apply convert_all_split in H as (outs & E & H); apply (split_sizes _ outs); try exact E; clear E.
    all: revert F; clear -H HO HF HC; induction H as [|[key r] os rs outs (ls & E & R) H IH]; intros F; [constructor|];
      inversion F as [|? ? (K & A & M) F']; subst; (constructor; [|exact (IH F')]); exists ls; (split; [|exact R]).
    - exact (bfiq_record_size scale_iq ctime sid key r origin k ls A M K HO HF HC E).
    - exact (rawacf_record_size scale_acf power ctime sid key r origin k ls A M K HO HF HC E). }
  destruct G as [G L]. split; [exact G|]. pose proof (file_size _ G). pose proof (zlen_nonneg bl). lia.
Qed.
