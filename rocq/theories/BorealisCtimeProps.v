(** The property C74: the text origin.time of the converted records. *)
From Coq Require Import String ZArith List Bool Lia.
From Verif Require Import Base FloatBits FloatSpec DmapTypes DmapRead DmapWriteSpec DmapSpec SDarnFormats SDarn SDarnSpec BorealisTypes BorealisFormats BorealisTime
  BorealisFile BorealisConvert BorealisConvertSpec BorealisConvertProps BorealisConvertFieldSpec BorealisConvertFieldProofs BorealisConvertFieldProps
  BorealisConvertNumberProofs BorealisCases BorealisArrayProps BorealisConvertTotalSpec BorealisConvertTotalProofs BorealisConvertTotalProps BorealisScale BorealisDateProofs
  BorealisCtime BorealisCtimeSpec BorealisCtimeProofs.
Import ListNotations.
Open Scope list_scope.
Open Scope Z_scope.

(** ** C74 The text of the time *)

(** origin.time gives the day of the week, the month, the day, the hour, the minute, the
    second and the year, the numbers being those in the fields time.mo to time.yr. *)
Theorem C74_text : forall scale_iq scale_acf power t sid rs origin k recs,
  converted_records scale_iq scale_acf power c_time t sid rs origin k = Ok recs ->
  each_beam rs recs (fun key r b beam o =>
    forall t0 l, vector_field r (str "sqn_timestamps") BF64 (t0 :: l) ->
    exists m yr mo dy hr mt sc us w mon year, micros_of t0 m /\ is_time m yr mo dy hr mt sc us /\
      falls_on (m / 86400000000) w /\ month_name mo mon /\ numeral yr year /\ 1 <= yr <= 9999 /\
      out_scalar o (str "origin.time")
        (VStr (w ++ str " " ++ mon ++ str " " ++ two 32 dy ++ str " " ++
               two 48 hr ++ str ":" ++ two 48 mt ++ str ":" ++ two 48 sc ++ str " " ++ year)) /\
      out_scalar o (str "time.yr") (VNpInt NI16 yr) /\ out_scalar o (str "time.mo") (VNpInt NI16 mo) /\
      out_scalar o (str "time.dy") (VNpInt NI16 dy) /\ out_scalar o (str "time.hr") (VNpInt NI16 hr) /\
      out_scalar o (str "time.mt") (VNpInt NI16 mt) /\ out_scalar o (str "time.sc") (VNpInt NI16 sc)).
Proof.
  intros scale_iq scale_acf power t sid rs origin k recs. apply each_common.
  intros key r b beam tx nr x c rest o E R t0 l N.
  destruct (time_field _ _ _ _ _ _ _ _ _ _ _ E R t0 l N) as (m & yr & mo & dy & hr & mt & sc & us & EM & T & H0 & H1 & H2 & H3 & H4 & H5 & H6 & _).
  pose proof (micros_range _ _ EM) as B. pose proof (time_parts _ _ _ _ _ _ _ _ T) as (D & E1 & E2 & E3 & _). apply date_civil in D.
  pose proof (civil_years _ (date_years m B)) as Y. rewrite <- D in Y.
  destruct (c_time_text m B) as (yr' & mo' & dy' & hr' & mt' & sc' & us' & w & mon & year & T' & F & M & G & S).
  apply time_parts in T' as (D' & E1' & E2' & E3' & _). apply date_civil in D'. rewrite <- D in D'. injection D' as -> -> ->.
  rewrite <- E1 in E1'. rewrite <- E2 in E2'. rewrite <- E3 in E3'. subst hr' mt' sc'. rewrite S in H0.
  exists m, yr, mo, dy, hr, mt, sc, us, w, mon, year. split; [exact (micros_near _ _ EM)|]. auto 20.
Qed.
Print Assumptions C74_text.

(** Every day falls on one day of the week, seven days later on the same one and in
    between on others. *)
Theorem C74_weekdays : forall n, exists w, falls_on n w /\ (forall w', falls_on n w' -> w' = w) /\
  forall i w', falls_on (n + i) w' -> (w' = w <-> i mod 7 = 0).
Proof.
  intros n. exists (week_day n). split; [apply week_falls|]. split; [intros w'; apply falls_week|].
  intros i w' F. apply falls_week in F. subst w'. pose proof (Z.div_mod i 7 ltac:(lia)) as DM. pose proof (Z.mod_pos_bound i 7 ltac:(lia)) as B.
  split; intros H.
  - destruct (Z.eq_dec (i mod 7) 0) as [|N]; [assumption|exfalso]. apply (week_differ n (i mod 7)); [lia|].
    rewrite <- H. rewrite DM at 1. rewrite Z.add_comm with (n := 7 * (i / 7)). rewrite Z.add_assoc. apply week_period.
  - rewrite DM, H, Z.add_0_r. apply week_period.
Qed.
Print Assumptions C74_weekdays.

(** Every time has one text; two times have the same text exactly if they are in the same
    second; it has 24 characters from the year 1000 on. *)
Theorem C74_second : forall m, -62135596800000000 <= m < 253402300800000000 ->
  exists s, time_text m s /\
    (forall m' s', time_text m' s' -> (s' = s <-> m / 1000000 = m' / 1000000)) /\
    (forall yr mo dy hr mt sc us, is_time m yr mo dy hr mt sc us -> 1000 <= yr -> length s = 24%nat).
Proof.
  intros m B. exists (c_time m). pose proof (c_time_text m B) as T. split; [exact T|]. split.
  - intros m' s' T'. split; [intros ->; exact (text_second _ _ _ T T')|]. intros E. symmetry. exact (same_second _ _ _ _ E T T').
  - intros yr mo dy hr mt sc us H Y. eapply text_length; [exact T|exact H|]. split; [exact Y|].
    apply time_parts in H as (D & _). apply date_civil in D. pose proof (civil_years _ (date_years m B)) as Z. rewrite <- D in Z. lia.
Qed.
Print Assumptions C74_second.

(** C70 without a condition on the text of the time. *)
Theorem C74_reads : forall square hf fs fn ft t sd sfn sid i st k rd rs,
  borealis_read hf fn ft st = Ok rd -> reader_records rd = Ok rs -> find_slice_id rs sid = Ok i ->
  filetype_of ft = Some t -> sdarn_type t = Some sd -> fn <> sfn -> sfn <> [] ->
  Forall (fun p => plain_text (fst p) /\ able t (snd p)) rs -> plain_text fn ->
  Forall (fun p => zlen (fst p) <= 2 ^ 25 /\ moderate (snd p)) rs -> zlen rs <= 2 ^ 20 ->
  zlen fn <= 2 ^ 25 -> Z.abs k <= 2 ^ 64 ->
  exists fs' bl' rdr ds rdr',
    borealis_convert scaled_sample (scaled_acf square) magnitude c_time hf fs fn ft sfn sid st k = (fs', Ok tt) /\
    sd_reader_init fs' (FromFile sfn) = Ok rdr /\ sd_read sd rdr = (Ok ds, rdr') /\
    rdr_records rdr' = map block_fields bl' /\ Forall2 shown (map block_fields bl') ds.
Proof.
  intros square hf fs fn ft t sd sfn sid i st k rd rs E1 E2 E3 E4 E5 N1 N2 F PF FM LR LO HK.
  apply (C70_moderate square c_time hf fs fn ft t sd sfn sid i st k rd rs E1 E2 E3 E4 E5 N1 N2 F PF plain_c_time FM LR LO HK).
  intros m. pose proof (c_time_length m). change (2 ^ 25) with 33554432. lia.
Qed.
Print Assumptions C74_reads.

(** 2019-05-23 03:59:51.06 and 0007-03-04; the records of C70_case meet the conditions of
    C74_reads. *)
Definition with_text (t : filetype) (r : brecord) : res (list record) :=
  converted_records same_scale same_scale fst c_time t 0 [(str "1558583991060", r)] (str "f") 1.
Example C74_case :
  vector_field rich_raw (str "sqn_timestamps") BF64 [t1; t1 + 1] /\
  scalars_of (str "origin.time") (with_text BRawacf rich_raw) = texts [str "Thu May 23 03:59:51 2019"; str "Thu May 23 03:59:51 2019"] /\
  scalars_of (str "origin.time") (with_text Bfiq rich_bfiq) = texts [str "Thu May 23 03:59:51 2019"; str "Thu May 23 03:59:51 2019"] /\
  c_time (-61940937600000000) = str "Sun Mar  4 00:00:00 7" /\ c_time (-1) = str "Wed Dec 31 23:59:59 1969".
Proof. repeat (split; [field|]). vm_compute. reflexivity. Qed.
Example C74_text_case : time_text 1558583991060000 (str "Thu May 23 03:59:51 2019").
Proof. exact (c_time_text 1558583991060000 ltac:(lia)). Qed.
