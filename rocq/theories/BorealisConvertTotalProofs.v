(** Proofs about which Borealis records can be converted. *)
From Coq Require Import String ZArith List Bool Lia Arith.
From Verif Require Import Base Bytes BytesSpec BytesProofs FloatBits FloatSpec FloatBitsProofs DmapTypes DmapSpec DmapFileProofs DmapWriteSpec DmapWriteFacts DmapWriteProofs
  DmapConvProofs SDarnFormats SDarn SDarnSpec SDarnChecks BorealisTypes BorealisFormats BorealisArrays BorealisFile BorealisFillProofs BorealisFileProofs
  BorealisCheckProofs BorealisTime BorealisTimeProofs BorealisConvert BorealisConvertSpec BorealisConvertFieldSpec BorealisConvertTotalSpec
  BorealisConvertProofs BorealisConvertRecordProofs BorealisConvertSampleProofs BorealisConvertFileProofs BorealisConvertNumberProofs
  BorealisConvertTailProofs BorealisConvertFieldProofs.
From Verif Require Conversions.
Import ListNotations.
Open Scope list_scope.
Open Scope Z_scope.

(** ** Numbers in range *)

Lemma wrap8_fits z : fits true 1 (wrap8 z).
Proof. unfold wrap8, to_signed, fits. cbn. pose proof (Z.mod_pos_bound z 256 eq_refl). destruct (Z.ltb_spec (z mod 256) 128); lia. Qed.
Lemma wrap16_fits z : fits true 2 (wrap16 z).
Proof. destruct (wrap16_is z) as [H _]. unfold fits. cbn in *. lia. Qed.
Lemma wrap32_fits z : fits true 4 (wrap32 z).
Proof. destruct (wrap32_is z) as [H _]. unfold fits. cbn in *. lia. Qed.
Lemma cast_fits s t : fits true 4 (cast_i32 s t).
Proof.
  unfold cast_i32, fits. change (2 ^ 31) with 2147483648. cbn.
  destruct s; cbn [orb]; [lia|]. destruct (Z.ltb_spec t (-2147483648)), (Z.leb_spec 2147483648 t); cbn; lia.
Qed.
Lemma seconds_fits b : fits true 4 (thousand_seconds b).
Proof. unfold thousand_seconds. destruct (ratio _ _ _ _ _). apply cast_fits. Qed.
Lemma rest_fits b : fits true 4 (thousand_rest b).
Proof. unfold thousand_rest. apply cast_fits. Qed.
Lemma clip_fits b : fits true 2 (clip16 b).
Proof. unfold clip16, fits. cbn. destruct (_ && _); lia. Qed.
Lemma small_wrap8 z : 0 <= z <= 127 -> wrap8 z = z.
Proof.
  intros H. unfold wrap8, to_signed. cbn. rewrite Z.mod_small by lia. destruct (Z.ltb_spec z 128); lia.
Qed.

(** ** Versions *)

Lemma digit_not s c : Forall digit s -> In c s -> 48 <= c <= 57.
Proof. intros H I. rewrite Forall_forall in H. exact (H c I). Qed.
Lemma small_int8_value s : small_number s -> revision_int8 (RText s) = Ok (digits_value s) /\ 0 <= digits_value s <= 127.
Proof.
  intros (N & D & V). pose proof (digits_bound s D). split; [|lia]. cbn [revision_int8].
  assert (forallb is_digit s = true) as ->.
  { apply forallb_forall. intros c I. unfold is_digit. pose proof (digit_not _ _ D I). lia. }
  destruct s as [|c s]; [congruence|]. cbn [length Nat.eqb negb andb]. fold (digits_value (c :: s)).
  unfold digits_value in *. destruct (Z.leb_spec (fold_left (fun a c => 10 * a + (c - 48)) (c :: s) 0) 127); [reflexivity|lia].
Qed.
Lemma small_int8 s : small_number s -> exists z, revision_int8 (RText s) = Ok z /\ 0 <= z <= 127.
Proof. intros H. exists (digits_value s). now apply small_int8_value. Qed.
Lemma small_revisions_of major minor rest : small_number major -> small_number minor -> (rest = [] \/ exists c s, rest = c :: s /\ (c = 45 \/ c = 46)) ->
  revisions (118 :: major ++ 46 :: minor ++ rest) = Ok (RText major, RText minor).
Proof.
  intros S1 S2 R.
  pose proof S1 as (N1 & D1 & _). pose proof S2 as (N2 & D2 & _).
  unfold revisions. change (118 =? 118) with true. cbv match.
  assert (M1 : ~ In 45 (118 :: major)) by (intros [C|C]; [discriminate|]; pose proof (digit_not _ _ D1 C); lia).
  assert (M2 : ~ In 46 (118 :: major)) by (intros [C|C]; [discriminate|]; pose proof (digit_not _ _ D1 C); lia).
  assert (M3 : ~ In 45 minor) by (intros C; pose proof (digit_not _ _ D2 C); lia).
  assert (M4 : ~ In 46 minor) by (intros C; pose proof (digit_not _ _ D2 C); lia).
  assert (E : hd [] (split_at 45 (118 :: major ++ 46 :: minor ++ rest)) = (118 :: major) ++ 46 :: minor ++ hd [] (split_at 45 rest)).
  { change (118 :: major ++ 46 :: minor ++ rest) with ((118 :: major) ++ [46] ++ minor ++ rest).
    rewrite hd_split_before by exact M1. rewrite hd_split_before by (intros [C|[]]; discriminate).
    rewrite hd_split_before by exact M3. reflexivity. }
  rewrite E. rewrite split_at_app by exact M2. cbn [nth_error hd tl].
  assert (F : exists l, split_at 46 (minor ++ hd [] (split_at 45 rest)) = minor :: l).
  { destruct R as [->|(c & s & -> & [-> | ->])].
    - cbn. rewrite app_nil_r. rewrite split_single by exact M4. eauto.
    - cbn. rewrite app_nil_r. rewrite split_single by exact M4. eauto.
    - cbn [split_at]. change (46 =? 45) with false. cbv match.
      destruct (split_at 45 s) as [|a l] eqn:ES; [now apply split_ne in ES|]. cbn [hd].
      rewrite split_at_app by exact M4. eauto. }
  destruct F as (l & ->). reflexivity.
Qed.
Lemma small_revisions h : small_version h -> exists major minor, revisions h = Ok (RText major, RText minor) /\ small_number major /\ small_number minor.
Proof. intros (major & minor & rest & -> & S1 & S2 & R). exists major, minor. split; [now apply small_revisions_of|auto]. Qed.

(** ** Fields that are there *)

Lemma integer_ok r k : integer_field r k -> exists z, get_int r k = Ok z.
Proof.
  intros (t & z & I & F). exists z. unfold get_int. rewrite (dict_item_get _ _ _ F). cbn [rbind].
  repeat (destruct I as [<-|I]; [reflexivity|]). destruct I.
Qed.
Lemma status_ok r k : dict_get r k = None \/ integer_field r k -> exists z, status_word r k = Ok z.
Proof.
  intros [H|H]; unfold status_word; [rewrite H; eauto|]. pose proof (integer_ok _ _ H) as (z & E).
  destruct (dict_get r k); eauto.
Qed.
Lemma roundable_ok b : roundable b -> exists z, round_f32 b = Ok z.
Proof.
  intros [E V]. unfold round_f32. unfold special32. destruct (Z.eqb_spec (f32_exp b) 255) as [C|_]; [contradiction|].
  rewrite f32_val_sig in V. pose proof (sig32_nonneg b) as S. pose proof (pos32_max b) as P.
  assert (SG : sig32 b * 2 ^ (149 - pos32 b) < 2 ^ 62 * 2 ^ 149).
  { unfold signed in V. destruct (f32_sign b =? 0); pose proof (pow_pos (149 - pos32 b) ltac:(lia)); nia. }
  clear V E. set (q := if pos32 b <=? 0 then sig32 b * 2 ^ (- pos32 b) else round_div (sig32 b) (2 ^ pos32 b)).
  assert (Q : 0 <= q <= 2 ^ 62).
  { unfold q. destruct (Z.leb_spec (pos32 b) 0) as [L|L].
    - replace (149 - pos32 b) with (149 + - pos32 b) in SG by lia. rewrite Z.pow_add_r in SG by lia.
      pose proof (pow_pos (- pos32 b) ltac:(lia)). split; [nia|]. 
      apply (Z.mul_le_mono_pos_r _ _ (2 ^ 149)); [lia|]. lia.
    - pose proof (round_div_near (sig32 b) (2 ^ pos32 b) (pow_pos (pos32 b) ltac:(lia))) as N. cbv zeta in N.
      set (d := round_div (sig32 b) (2 ^ pos32 b)) in *. pose proof (pow_pos (pos32 b) ltac:(lia)) as PP.
      assert (SB : sig32 b < 2 ^ 62 * 2 ^ pos32 b).
      { replace 149 with ((149 - pos32 b) + pos32 b) in SG at 2 by lia. rewrite Z.pow_add_r in SG by lia.
        pose proof (pow_pos (149 - pos32 b) ltac:(lia)). nia. }
      set (X := 2 ^ pos32 b) in *. clearbody X d. split; nia. }
  assert (B : - 2 ^ 63 <= signed (f32_sign b) q < 2 ^ 63).
  { unfold signed. destruct (f32_sign b =? 0); lia. }
  destruct (Z.ltb_spec (signed (f32_sign b) q) (- 2 ^ 63)); [lia|]. destruct (Z.leb_spec (2 ^ 63) (signed (f32_sign b) q)); [lia|].
  cbn [orb]. eauto.
Qed.
Lemma datable_ok b : datable b -> exists m, micros b = Ok m.
Proof.
  intros [E V]. rewrite f64_val_sig in V. unfold micros. destruct (Z.eqb_spec (f64_exp b) 2047); [contradiction|]. cbv zeta.
  change (if f64_exp b =? 0 then f64_man b else f64_man b + 2 ^ 52) with (sig64 b). change (1075 - Z.max (f64_exp b) 1) with (pos64 b).
  pose proof (sig64_nonneg b) as SG. pose proof (pos64_max b) as PM. set (s := sig64 b) in *. set (p := pos64 b) in *.
  set (w := if p <=? 0 then s * 2 ^ (- p) else s / 2 ^ p). set (u := if p <=? 0 then 0 else round_div _ _).
  assert (U : 0 <= u <= 1000001).
  { unfold u. destruct (Z.leb_spec p 0); [lia|]. pose proof (pow_pos p ltac:(lia)) as PP.
    pose proof (Z.mod_pos_bound s (2 ^ p) PP) as MB. set (fr := s mod 2 ^ p) in *.
    assert (C : cut_quotient 53 (fr * 1000000) (2 ^ p) (round53 (fr * 1000000) / 2 ^ p)).
    { apply round53_cut; [lia|]. change (2 ^ 53) with 9007199254740992. lia. }
    set (R := round53 (fr * 1000000)) in *.
    assert (B : 0 <= R / 2 ^ p <= 1000000).
    { split; [apply (cut_nonneg 53 (fr * 1000000) (2 ^ p)); [lia..|exact C]|].
      assert (fr * 1000000 / 2 ^ p < 1000000) by (apply Z.div_lt_upper_bound; lia). destruct C as [-> | [-> _]]; lia. }
    unfold round_div. cbv zeta. pose proof (Z.mod_pos_bound (R / 2 ^ p) 2 eq_refl).
    destruct (_ <? _); [lia|]. destruct (_ <? _); lia. }
  assert (W : forall B, s * 2 ^ (1074 - p) < B * 2 ^ 1074 -> 0 <= w < B).
  { intros B H. unfold w. destruct (Z.leb_spec p 0) as [L|L].
    - replace (1074 - p) with (- p + 1074) in H by lia. rewrite Z.pow_add_r in H by lia. pose proof (pow_pos (- p) ltac:(lia)).
      pose proof (pow_pos 1074 ltac:(lia)) as PX. set (X := 2 ^ 1074) in *. set (Y := 2 ^ (- p)) in *. clearbody X Y.
      split; [nia|]. apply (Z.mul_lt_mono_pos_r X); lia.
    - pose proof (pow_pos p ltac:(lia)) as PP. replace 1074 with ((1074 - p) + p) in H at 2 by lia. rewrite Z.pow_add_r in H by lia.
      pose proof (pow_pos (1074 - p) ltac:(lia)) as PX. set (X := 2 ^ (1074 - p)) in *. set (Y := 2 ^ p) in *. clearbody X Y.
      split; [apply Z.div_pos; lia|]. apply Z.div_lt_upper_bound; [lia|]. apply (Z.mul_lt_mono_pos_r X); lia. }
  unfold signed in V. clearbody w u. set (X := s * 2 ^ (1074 - p)) in *. clearbody X.
  destruct (f64_sign b =? 0).
  - pose proof (W _ (proj2 V)) as B. destruct (Z.leb_spec (2 ^ 55) w); [change (2 ^ 55) with 36028797018963968 in *; lia|].
    destruct (Z.ltb_spec (1 * (w * 1000000 + u)) (-62135596800000000)); [lia|].
    destruct (Z.leb_spec 253402300800000000 (1 * (w * 1000000 + u))); [lia|]. cbn [orb]. eauto.
  - assert (B : 0 <= w < 62135596799) by (apply W; lia). destruct (Z.leb_spec (2 ^ 55) w); [change (2 ^ 55) with 36028797018963968 in *; lia|].
    destruct (Z.ltb_spec (-1 * (w * 1000000 + u)) (-62135596800000000)); [lia|].
    destruct (Z.leb_spec 253402300800000000 (-1 * (w * 1000000 + u))); [lia|]. cbn [orb]. eauto.
Qed.

(** ** Fields that can be written *)

Definition good_scalar (p : pystr * item) : Prop := exists s, dict_scalar_back p s.
Definition good_array (p : pystr * item) : Prop := exists a, forall blk, dict_array_back blk p a.

Lemma plain_check s : forallb (fun c => (0 <? c) && (c <? 128)) s = true -> plain_text s.
Proof. intros H. apply Forall_forall. intros c Hc. rewrite forallb_forall in H. specialize (H c Hc). lia. Qed.
Lemma plain_app a b : plain_text a -> plain_text b -> plain_text (a ++ b).
Proof. intros A B. apply Forall_app. auto. Qed.
Lemma plain_dec z : plain_text (dec z).
Proof.
  destruct (dec_numeral z) as [[_ (D & _)]|[_ (s & -> & D & _)]].
  - eapply Forall_impl; [|exact D]. unfold digit. intros; lia.
  - constructor; [lia|]. eapply Forall_impl; [|exact D]. unfold digit. intros; lia.
Qed.
Lemma good8 k z : plain_text k -> 0 <= z <= 127 -> good_scalar (k, v8 z).
Proof.
  intros P H. eexists. apply (dsb_intro k (VNpInt NI8 (wrap8 z)) Fc (VInt (wrap8 z))); [exact P|reflexivity|].
  apply rb_char; [reflexivity|]. rewrite small_wrap8; lia.
Qed.
Lemma good16 k z : plain_text k -> good_scalar (k, v16 z).
Proof.
  intros P. eexists. apply (dsb_intro k (VNpInt NI16 (wrap16 z)) Fh (VInt (wrap16 z))); [exact P|reflexivity|].
  apply rb_int; [cbn; auto|reflexivity|apply wrap16_fits].
Qed.
Lemma good32 k z : plain_text k -> good_scalar (k, v32 z).
Proof.
  intros P. eexists. apply (dsb_intro k (VNpInt NI32 (wrap32 z)) Fi (VInt (wrap32 z))); [exact P|reflexivity|].
  apply rb_int; [cbn; auto|reflexivity|apply wrap32_fits].
Qed.
Lemma goodf k z : plain_text k -> 0 <= z < 2 ^ 32 -> f32_snan z = false -> good_scalar (k, vf z).
Proof.
  intros P H N. eexists. apply (dsb_intro k (VF32 z) Ff (VFloat (widen z))); [exact P|reflexivity|].
  apply rb_f32; [exact H|exact N|cbn; auto].
Qed.
Lemma goodt k s : plain_text k -> plain_text s -> good_scalar (k, vt s).
Proof. intros P H. eexists. apply (dsb_intro k (VStr s) Fs (VStr s)); [exact P|reflexivity|]. now apply rb_str. Qed.
Lemma gooda k d f shape data : plain_text k -> plain_dtype d = Some f -> (1 <= length shape <= 32)%nat ->
  Forall (fun m => (1 <= m)%nat) shape -> length data = size shape -> Forall (fits (wire_signed f) (wire_size f)) data ->
  good_array (k, va d shape data).
Proof.
  intros P D L S N F. eexists. intros blk. apply (dab_array blk k d f (map Z.of_nat shape) data); [exact P|exact D| | | |exact F].
  - unfold zlen. rewrite map_length. lia.
  - left. apply Forall_map. eapply Forall_impl; [|exact S]. cbn beta. intros; lia.
  - unfold zlen. rewrite N. clear. induction shape as [|n shape IH]; [reflexivity|]. cbn [map product size fold_right] in *.
    unfold size in *. cbn [fold_right]. rewrite Nat2Z.inj_mul, IH. reflexivity.
Qed.

Ltac plain := apply plain_check; vm_compute; reflexivity.

Lemma time_good m : Forall good_scalar (time_fields m).
Proof.
  unfold time_fields. destruct (civil _) as [[yr mo] dy].
  repeat (apply Forall_cons; [first [apply (good16 _ _)|apply (good32 _ _)]; plain|]). constructor.
Qed.

(** ** The fields in common *)

Lemma nonneg_snan : f32_snan 0 = false.
Proof. reflexivity. Qed.
Lemma common_total ctime r nbeams sid b beam txpow nrang xcf : common_source r nbeams -> (b < nbeams)%nat -> (forall m, plain_text (ctime m)) ->
  exists c, common_fields ctime r sid b beam txpow nrang xcf = Ok c /\ Forall good_scalar c.
Proof.
  intros [CV CT CS CI CA TI NO AZ FL RA RG PU LA] HB HC.
  destruct CV as (h & TH & PH & SV). destruct (small_revisions _ SV) as (major & minor & ER & SM & SN).
  destruct (small_int8 _ SM) as (zm & EM & BM). destruct (small_int8 _ SN) as (zn & EN & BN).
  destruct TI as (t0 & tl0 & VT & DT). destruct (datable_ok _ DT) as (m & EMI).
  destruct (CT (str "experiment_name") ltac:(apply str_mem_In; reflexivity)) as (name & TN & PN).
  destruct CS as (s & i & TS & DS).
  destruct (integer_ok _ _ (CI (str "experiment_id") ltac:(apply str_mem_In; reflexivity))) as (cp & ECP).
  destruct (integer_ok _ _ (CI (str "num_sequences") ltac:(apply str_mem_In; reflexivity))) as (nave & ENA).
  destruct (integer_ok _ _ (CI (str "scan_start_marker") ltac:(apply str_mem_In; reflexivity))) as (scan & ESC).
  destruct (integer_ok _ _ (CI (str "tx_pulse_len") ltac:(apply str_mem_In; reflexivity))) as (txpl & ETX).
  destruct (integer_ok _ _ (CI (str "tau_spacing") ltac:(apply str_mem_In; reflexivity))) as (mpinc & EMP).
  destruct (integer_ok _ _ (CI (str "freq") ltac:(apply str_mem_In; reflexivity))) as (freq & EFR).
  destruct (status_ok _ _ (CA (str "agc_status_word") ltac:(apply str_mem_In; reflexivity))) as (agc & EAG).
  destruct (status_ok _ _ (CA (str "lp_status_word") ltac:(apply str_mem_In; reflexivity))) as (lop & ELO).
  destruct (FL (str "first_range_rtt") ltac:(apply str_mem_In; reflexivity)) as (rtt & FRT). destruct (FL (str "int_time") ltac:(apply str_mem_In; reflexivity)) as (itm & FIT).
  destruct RA as (rate & FRA). destruct NO as (noise & nl & VN & RN). destruct AZ as (azms & VA & RAZ & LAZ).
  destruct (RG (str "first_range") ltac:(apply str_mem_In; reflexivity)) as (fr & FFR & RFR). destruct (RG (str "range_sep") ltac:(apply str_mem_In; reflexivity)) as (rs & FRS & RRS).
  destruct (roundable_ok _ RFR) as (frang & EFG). destruct (roundable_ok _ RRS) as (rsep & ERS).
  destruct PU as (p0 & pl & VP). destruct LA as (n0 & shape & ll & DL & _).
  destruct (nth_error azms b) as [azm|] eqn:EA; [|apply nth_error_None in EA; lia].
  assert (AR : 0 <= azm < 2 ^ 64). { rewrite Forall_forall in RAZ. apply RAZ. eapply nth_error_In. exact EA. }
  assert (NR : 0 <= noise < 2 ^ 64) by now inversion RN.
  destruct (narrow_range _ AR) as [AR1 AR2]. destruct (narrow_range _ NR) as [NR1 NR2].
  eexists. split.
  - unfold common_fields. unfold s_hash. rewrite (get_text_ok _ _ _ TH). cbn [rbind]. rewrite ER. cbn [rbind fst snd]. rewrite EM, EN. cbn [rbind].
    rewrite (get_vector_ok _ _ _ _ VT eq_refl). cbn [rbind item_at nth_error]. rewrite EMI. cbn [rbind].
    rewrite (get_text_ok _ _ _ TN), ECP, (get_text_ok _ _ _ TS). cbn [rbind]. rewrite (dict_item_get _ _ _ DS). cbn [rbind].
    rewrite ENA. cbn [rbind]. rewrite (get_float_ok _ _ _ _ FRT eq_refl), (get_float_ok _ _ _ _ FRA eq_refl). cbn [rbind]. rewrite EAG, ELO. cbn [rbind].
    rewrite (get_vector_ok _ _ _ _ VN eq_refl). cbn [rbind]. unfold item_at. cbn [nth_error rbind].
    rewrite (get_vector_ok _ _ _ _ VA eq_refl). cbn [rbind]. rewrite EA. cbn [rbind]. rewrite ESC, (get_float_ok _ _ _ _ FIT eq_refl). cbn [rbind].
    rewrite ETX, EMP. cbn [rbind]. rewrite (first_length_ok _ _ _ _ _ VP). cbn [rbind].
    unfold first_length. rewrite (dict_item_get _ _ _ DL). cbn [rbind].
    rewrite (get_float_ok _ _ _ _ FFR eq_refl). cbn [rbind]. rewrite EFG. cbn [rbind].
    rewrite (get_float_ok _ _ _ _ FRS eq_refl). cbn [rbind]. rewrite ERS. cbn [rbind]. rewrite EFR. cbn [rbind]. reflexivity.
  - apply Forall_app; split; [|apply Forall_app; split; [apply time_good|]].
    + apply Forall_cons; [apply good8; [plain|exact BM]|]. apply Forall_cons; [apply good8; [plain|exact BN]|].
      apply Forall_cons; [apply good8; [plain|lia]|]. apply Forall_cons; [apply goodt; [plain|apply HC]|].
      apply Forall_cons; [apply goodt; [plain|]|].
      { apply plain_app; [plain|]. apply plain_app; [exact PH|]. apply plain_app; [plain|exact PN]. }
      repeat (apply Forall_cons; [apply good16; plain|]). constructor.
    + do 8 (apply Forall_cons; [apply good16; plain|]).
      apply Forall_cons; [apply goodf; [plain|exact NR1|exact NR2]|]. apply Forall_cons; [apply goodf; [plain|lia|reflexivity]|].
      do 2 (apply Forall_cons; [apply good16; plain|]). apply Forall_cons; [apply goodf; [plain|exact AR1|exact AR2]|].
      repeat (apply Forall_cons; [first [apply good16; plain|apply good32; plain]|]). constructor.
Qed.
Lemma comment_total r key origin k n nbeams : common_source r nbeams -> array_length r (str "beam_nums") n -> plain_text key -> plain_text origin ->
  exists t, comment r key origin k = Ok t /\ plain_text t.
Proof.
  intros C (t & ds & l & DB) PK PO. destruct C as [_ CT _ _ _ _ _ _ _ _ _ _ _].
  destruct (CT (str "experiment_comment") ltac:(apply str_mem_In; reflexivity)) as (c & TC & PC). destruct (CT (str "slice_comment") ltac:(apply str_mem_In; reflexivity)) as (s & TS & PS).
  eexists. split.
  - unfold comment, first_length. rewrite (dict_item_get _ _ _ DB). cbn [rbind]. rewrite (get_text_ok _ _ _ TC), (get_text_ok _ _ _ TS). cbn [rbind]. reflexivity.
  - repeat first [apply plain_dec|assumption|apply plain_app; [first [assumption|apply plain_dec|plain]|]].
Qed.
Lemma tables_total r nbeams : common_source r nbeams ->
  exists t, tables r = Ok t /\ good_array (str "ptab", fst t) /\ good_array (str "ltab", snd t).
Proof.
  intros C. destruct C as [_ _ _ _ _ _ _ _ _ _ _ (p & l & VP) (n & shape & ll & DL & S & R & L)].
  eexists. split; [|split].
  - unfold tables. rewrite (get_vector_ok _ _ _ _ VP eq_refl). cbn [rbind]. rewrite (dict_item_get _ _ _ DL). cbn [rbind].
    rewrite numbers_map. cbn [rbind]. reflexivity.
  - cbn [fst]. apply (gooda _ _ Fh); [plain|reflexivity|cbn; lia|apply Forall_cons; [cbn; lia|apply Forall_nil]| |].
    + rewrite map_length. cbn [size fold_right]. lia.
    + apply Forall_map, Forall_forall. intros; apply wrap16_fits.
  - cbn [snd]. apply (gooda _ _ Fh); [plain|reflexivity|cbn [length]; lia|exact S| |].
    + now rewrite map_length.
    + apply Forall_map, Forall_forall. intros; apply wrap16_fits.
Qed.

(** ** Records *)

Definition good_record (raw : record) : Prop :=
  exists ss aa, raw = ss ++ aa /\ ss <> [] /\ aa <> [] /\ Forall good_scalar ss /\ Forall good_array aa /\ NoDup (map fst raw).

Lemma layout_names r l : layout r = map (fun p => (fst p, Some (snd p))) l -> nodupb (map fst l) = true -> NoDup (map fst r).
Proof.
  intros L N. apply (f_equal (map fst)) in L. unfold layout in L. rewrite !map_map in L. cbn [fst] in L.
  change (map fst r) with (map (fun x : pystr * item => fst x) r). rewrite L. apply nodupb_ok. exact N.
Qed.
Lemma Forall_repeat {A} (P : A -> Prop) x n : P x -> Forall P (repeat x n).
Proof. intros H. induction n; constructor; auto. Qed.

Lemma iqdat_total ctime sid key origin k r scale beams nseq arrays samps norm na ns nb n data b beam :
  bfiq_source r beams nseq arrays samps norm na ns nb n data -> common_source r (length beams) ->
  (b < length beams)%nat -> (length beams <= nb)%nat -> (1 <= nseq <= ns)%nat -> (1 <= na)%nat -> (1 <= n)%nat ->
  integer_field r (str "num_ranges") ->
  (exists t shape names, dict_get r (str "antenna_arrays_order") = Some (BArr t shape names) /\ (t = BNpStr \/ t = BBytes)) ->
  (forall m, plain_text (ctime m)) -> plain_text key -> plain_text origin ->
  exists raw, iqdat_record ctime sid key origin k r [na; ns; nb; n] (map scale data) b beam = Ok raw /\ good_record raw.
Proof.
  intros BS C HB HN [HQ1 HQ2] HA HM NR (ta & sha & nma & DA & TA) HC PK PO.
  pose proof BS as [SB SS (t & nms & SA) SP SN (SD1 & SD2 & SD3)].
  destruct (integer_ok _ _ NR) as (nrang & ENR).
  assert (EX : exists x, has_intf r = Ok x).
  { unfold has_intf. rewrite (dict_item_get _ _ _ DA). cbn [rbind]. destruct TA as [-> | ->]; eauto. }
  destruct EX as (xcf & EX).
  destruct (common_total ctime r (length beams) sid b beam (-1) nrang xcf C HB HC) as (c & EC & GC).
  assert (AL : array_length r (str "beam_nums") (length beams)) by (do 3 eexists; exact SB).
  destruct (comment_total r key origin k _ _ C AL PK PO) as (text & ET & PT).
  destruct (tables_total _ _ C) as (tabs & EB & G1 & G2).
  pose proof C as [_ _ _ _ _ (t0 & tl0 & VT & _) (x0 & nl & VN & RN) _ _ _ RG _ _].
  destruct (RG (str "first_range") ltac:(apply str_mem_In; reflexivity)) as (fr & FFR & _).
  destruct (RG (str "range_sep") ltac:(apply str_mem_In; reflexivity)) as (rs & FRS & _).
  assert (ES : exists samples, beam_samples [na; ns; nb; n] (map scale data) nseq b = Ok samples).
  { unfold beam_samples. destruct (Nat.ltb_spec b nb); [|lia]. cbn [negb]. destruct (Nat.ltb_spec ns nseq); [lia|]. cbn [andb]. eauto. }
  destruct ES as (samples & ES). destruct (samples_nth _ _ _ _ _ _ _ _ _ SD3 ES) as [LV _].
  match goal with |- exists raw, ?e = Ok raw /\ _ => destruct e as [raw|e'] eqn:ER end.
  - exists raw. split; [reflexivity|]. pose proof (iqdat_record_layout _ _ _ _ _ _ _ _ _ _ _ ER) as L.
    assert (ND : NoDup (map fst raw)) by (eapply layout_names; [exact L|vm_compute; reflexivity]).
    unfold iqdat_record in ER. rewrite (get_int_ok _ _ _ _ SS eq_refl) in ER. cbn [rbind] in ER. rewrite Nat2Z.id in ER.
    rewrite (first_length_ok _ _ _ _ _ SA) in ER. cbn [rbind] in ER. rewrite (get_int_ok _ _ _ _ SP eq_refl) in ER. cbn [rbind] in ER. cbv zeta in ER.
    rewrite ES, ENR, EX in ER. cbn [rbind] in ER. rewrite EC, ET in ER. cbn [rbind] in ER.
    rewrite (get_float_ok _ _ _ _ FFR eq_refl), (get_float_ok _ _ _ _ FRS eq_refl), EB in ER. cbn [rbind] in ER.
    rewrite (get_vector_ok _ _ _ _ VT eq_refl), (get_vector_ok _ _ _ _ VN eq_refl) in ER. cbn [rbind] in ER. apply ok_inj in ER.
    match type of ER with c ++ (?a1 :: ?a2 :: ?a3 :: ?a4 :: ?a5 :: ?a6 :: ?a7 :: ?rest) = raw =>
      exists (c ++ [a1; a2; a3; a4; a5; a6; a7]), rest end.
    split; [rewrite <- ER, <- app_assoc; reflexivity|]. split; [destruct c; discriminate|]. split; [discriminate|]. split; [|split; [|exact ND]].
    + apply Forall_app. split; [exact GC|]. do 2 (apply Forall_cons; [apply good32; plain|]).
      apply Forall_cons; [apply goodt; [plain|exact PT]|]. do 4 (apply Forall_cons; [apply good32; plain|]). constructor.
    + apply Forall_cons; [exact G1|]. apply Forall_cons; [exact G2|].
      assert (T1 : (1 <= length (t0 :: tl0))%nat) by (cbn; lia). assert (T2 : (1 <= length (x0 :: nl))%nat) by (cbn; lia).
      apply Forall_cons. { apply (gooda _ _ Fi); [plain|reflexivity|cbn; lia|apply Forall_cons; [exact T1|apply Forall_nil]|rewrite map_length; cbn; lia|].
        apply Forall_map, Forall_forall. intros; apply seconds_fits. }
      apply Forall_cons. { apply (gooda _ _ Fi); [plain|reflexivity|cbn; lia|apply Forall_cons; [exact T1|apply Forall_nil]|rewrite map_length; cbn; lia|].
        apply Forall_map, Forall_forall. intros; apply rest_fits. }
      apply Forall_cons. { apply (gooda _ _ Fh); [plain|reflexivity|cbn; lia|apply Forall_cons; [exact HQ1|apply Forall_nil]|rewrite repeat_length; cbn [size]; lia|].
        apply Forall_repeat. unfold fits; cbn; lia. }
      apply Forall_cons. { apply (gooda _ _ Ff); [plain|reflexivity|cbn; lia|apply Forall_cons; [exact T2|apply Forall_nil]|rewrite map_length; cbn; lia|].
        apply Forall_map. eapply Forall_impl; [|exact RN]. intros x X. pose proof (narrow_range _ X) as [X1 _]. exact X1. }
      apply Forall_cons. { apply (gooda _ _ Fi); [plain|reflexivity|cbn; lia|apply Forall_cons; [exact HQ1|apply Forall_nil]|rewrite map_length, seq_length; cbn [size]; lia|].
        apply Forall_map, Forall_forall. intros; apply wrap32_fits. }
      apply Forall_cons. { apply (gooda _ _ Fi); [plain|reflexivity|cbn; lia|apply Forall_cons; [exact HQ1|apply Forall_nil]|rewrite repeat_length; cbn [size]; lia|].
        apply Forall_repeat, wrap32_fits. }
      apply Forall_cons; [|constructor]. apply (gooda _ _ Fh); [plain|reflexivity|cbn; lia|apply Forall_cons; [|apply Forall_nil]|cbn [size]; lia|].
      * rewrite LV. nia.
      * apply Forall_map, Forall_forall. intros; apply clip_fits.
  - exfalso. unfold iqdat_record in ER. rewrite (get_int_ok _ _ _ _ SS eq_refl) in ER. cbn [rbind] in ER. rewrite Nat2Z.id in ER.
    rewrite (first_length_ok _ _ _ _ _ SA) in ER. cbn [rbind] in ER. rewrite (get_int_ok _ _ _ _ SP eq_refl) in ER. cbn [rbind] in ER. cbv zeta in ER.
    rewrite ES, ENR, EX in ER. cbn [rbind] in ER. rewrite EC, ET in ER. cbn [rbind] in ER.
    rewrite (get_float_ok _ _ _ _ FFR eq_refl), (get_float_ok _ _ _ _ FRS eq_refl), EB in ER. cbn [rbind] in ER.
    rewrite (get_vector_ok _ _ _ _ VT eq_refl), (get_vector_ok _ _ _ _ VN eq_refl) in ER. discriminate ER.
Qed.

Lemma parts_range l : Forall pair32 l -> Forall (fun b => 0 <= b < 2 ^ 32) (parts l).
Proof. induction 1 as [|z l [H1 H2] H IH]; cbn; [constructor|]. apply Forall_cons; [exact H1|]. apply Forall_cons; [exact H2|exact IH]. Qed.
Lemma Forall_sub {A} (P : A -> Prop) (l m : list A) : (forall x, In x m -> In x l) -> Forall P l -> Forall P m.
Proof. rewrite !Forall_forall. auto. Qed.
Lemma firstn_skipn_in {A} n m (l : list A) x : In x (firstn n (skipn m l)) -> In x l.
Proof.
  intros H. rewrite <- (firstn_skipn m l). apply in_or_app. right. rewrite <- (firstn_skipn n (skipn m l)). apply in_or_app. now left.
Qed.
Lemma lags_in nr nl data b x : In x (beam_lags nr nl data b) -> In x data.
Proof. intros H. apply in_flat_map in H as (i & _ & H). eapply firstn_skipn_in. exact H. Qed.
Lemma lag0_in nr nl data b x : In x (beam_lag0 nr nl data b) -> In x data.
Proof. intros H. apply in_flat_map in H as (i & _ & H). eapply firstn_skipn_in. exact H. Qed.

Lemma tx_total r : dict_get r (str "tx_antenna_phases") = None \/ (exists l, antenna_phases r l /\ (length l <= 62)%nat) ->
  exists z, tx_power r = Ok z.
Proof.
  intros [H|(l & (H & _) & L)]; unfold tx_power; rewrite H; [eauto|]. rewrite map_length.
  destruct (Nat.leb_spec (length l) 62); [eauto|lia].
Qed.

Lemma rawacf_total power ctime sid key origin k r (scale : Z * Z -> Z * Z) nbeams nb nr nl (main xcfs : list (Z * Z)) b beam :
  common_source r nbeams -> array_length r (str "beam_nums") nbeams ->
  length main = size [nb; nr; nl] -> length xcfs = size [nb; nr; nl] ->
  (b < nbeams)%nat -> (nbeams <= nb)%nat -> (1 <= nr)%nat -> (2 <= nl)%nat ->
  (dict_get r (str "tx_antenna_phases") = None \/ exists l, antenna_phases r l /\ (length l <= 62)%nat) ->
  (forall z, pair32 (scale z)) -> (forall z, pair32 z -> 0 <= power z < 2 ^ 32) ->
  (forall m, plain_text (ctime m)) -> plain_text key -> plain_text origin ->
  exists raw, rawacf_record power ctime sid key origin k r [nb; nr; nl] (map scale main) (Some (map scale xcfs)) b beam = Ok raw /\ good_record raw.
Proof.
  intros C AL LM LX HB HN HR HL TX SC PW HC PK PO.
  destruct (tx_total _ TX) as (txpow & ETX).
  destruct (common_total ctime r nbeams sid b beam txpow (Z.of_nat nr) true C HB HC) as (c & EC & GC).
  destruct (comment_total r key origin k _ _ C AL PK PO) as (text & ET & PT).
  destruct (tables_total _ _ C) as (tabs & EB & G1 & G2).
  assert (RM : Forall pair32 (map scale main)) by (apply Forall_map, Forall_forall; auto).
  assert (RX : Forall pair32 (map scale xcfs)) by (apply Forall_map, Forall_forall; auto).
  assert (NL : (nl <> 0)%nat) by lia. assert (NB : (b < nb)%nat) by lia.
  pose proof (proj1 (lags_nth scale nb nr nl main b LM NB NL)) as N1.
  pose proof (proj1 (lags_nth scale nb nr nl xcfs b LX NB NL)) as N2.
  pose proof (proj1 (lag0_nth scale power nb nr nl main b LM NB NL)) as N3.
  match goal with |- exists raw, ?e = Ok raw /\ _ => destruct e as [raw|e'] eqn:ER end.
  - exists raw. split; [reflexivity|]. pose proof (rawacf_record_layout _ _ _ _ _ _ _ _ _ _ _ _ _ ER) as L.
    assert (ND : NoDup (map fst raw)).
    { apply (layout_names _ rawacf_written); [exact L|vm_compute; reflexivity]. }
    unfold rawacf_record in ER. destruct (Nat.ltb_spec b nb); [|lia]. cbn [negb orb] in ER. destruct (Nat.eqb_spec nl 0); [lia|].
    rewrite ETX in ER. cbn [rbind] in ER. rewrite EC, ET, EB in ER. cbn [rbind] in ER. cbv zeta in ER. apply ok_inj in ER.
    match type of ER with c ++ (?a1 :: ?a2 :: ?a3 :: ?a4 :: ?rest) = raw => exists (c ++ [a1; a2; a3; a4]), rest end.
    split; [rewrite <- ER, <- app_assoc; reflexivity|]. split; [destruct c; discriminate|]. split; [discriminate|]. split; [|split; [|exact ND]].
    + apply Forall_app. split; [exact GC|]. do 2 (apply Forall_cons; [apply good32; plain|]).
      apply Forall_cons; [apply goodt; [plain|exact PT]|]. apply Forall_cons; [apply goodf; [plain|lia|reflexivity]|]. constructor.
    + apply Forall_cons; [exact G1|]. apply Forall_cons; [exact G2|].
      assert (SH : Forall (fun m => (1 <= m)%nat) [nr; (nl - 1)%nat; 2%nat]) by (repeat (apply Forall_cons; [lia|]); constructor).
      apply Forall_cons. { apply (gooda _ _ Ff); [plain|reflexivity|cbn; lia|apply Forall_cons; [exact HR|apply Forall_nil]|cbn [size]; lia|].
        apply Forall_map. eapply Forall_impl; [|apply (Forall_sub _ _ _ (lag0_in nr nl (map scale main) b) RM)]. exact PW. }
      apply Forall_cons. { apply (gooda _ _ Fh); [plain|reflexivity|cbn; lia|apply Forall_cons; [exact HR|apply Forall_nil]|rewrite map_length, seq_length; cbn [size]; lia|].
        apply Forall_map, Forall_forall. intros; apply wrap16_fits. }
      apply Forall_cons. { apply (gooda _ _ Ff); [plain|reflexivity|cbn; lia|exact SH|rewrite N1; cbn [size]; lia|].
        apply parts_range. apply (Forall_sub _ _ _ (lags_in nr nl (map scale main) b) RM). }
      apply Forall_cons; [|constructor]. apply (gooda _ _ Ff); [plain|reflexivity|cbn; lia|exact SH|rewrite N2; cbn [size]; lia|].
      apply parts_range. apply (Forall_sub _ _ _ (lags_in nr nl (map scale xcfs) b) RX).
  - exfalso. unfold rawacf_record in ER. destruct (Nat.ltb_spec b nb); [|lia]. cbn [negb orb] in ER. destruct (Nat.eqb_spec nl 0); [lia|].
    rewrite ETX in ER. cbn [rbind] in ER. rewrite EC, ET, EB in ER. discriminate ER.
Qed.

(** ** Files *)

Lemma mapM_total {A B} (f : A -> res B) (P : B -> Prop) l : (forall a, In a l -> exists b, f a = Ok b /\ P b) ->
  exists m, mapM f l = Ok m /\ Forall P m /\ length m = length l.
Proof.
  induction l as [|a l IH]; intros H; [exists []; repeat split; constructor|].
  destruct (H a (or_introl eq_refl)) as (b & E & Q). destruct IH as (m & EM & FM & LM); [intros; apply H; now right|].
  exists (b :: m). cbn [mapM]. rewrite E. cbn [rbind]. rewrite EM. split; [reflexivity|]. split; [now constructor|cbn; lia].
Qed.
Lemma combine_seq_in {A} (l : list A) q n : In q (combine (seq n (length l)) l) -> (n <= fst q < n + length l)%nat.
Proof. intros H. destruct q as [i x]. apply in_combine_l in H. apply in_seq in H. exact H. Qed.

Lemma bfiq_record_total scale_iq ctime sid key r origin k : iqdat_able r -> (forall m, plain_text (ctime m)) -> plain_text key -> plain_text origin ->
  exists ls, convert_bfiq_record scale_iq ctime sid (key, r) origin k = Ok ls /\ Forall good_record ls /\ ls <> [].
Proof.
  intros (beams & nseq & arrays & samps & norm & na & ns & nb & n & data & BS & C & HB & HQ & HA & HM & NR & DA & CK & WB & ZP) HC PK PO.
  pose proof BS as [SB SS (t & nms & SA) SP SN SD]. destruct (shaped_ok _ _ _ _ _ SD) as (d & ED & ESH).
  pose proof C as [(h & TH & _ & SV) _ _ _ _ _ _ _ _ _ _ _ _]. destruct (small_revisions _ SV) as (major & minor & ER & _).
  unfold convert_bfiq_record. rewrite (dict_item_get _ _ _ ED). cbn [rbind]. rewrite ESH. cbn [rbind].
  rewrite (get_float_ok _ _ _ _ SN eq_refl). cbn [rbind]. cbv zeta. unfold s_hash. rewrite (get_text_ok _ _ _ TH). cbn [rbind]. rewrite ER. cbn [rbind].
  rewrite (first_length_ok _ _ _ _ _ SA). cbn [rbind]. rewrite (get_int_ok _ _ _ _ SP eq_refl). cbn [rbind].
  unfold beams_of. rewrite (get_vector_ok _ _ _ _ SB eq_refl). cbn [rbind fst snd].
  destruct (mapM_total (fun q => iqdat_record ctime sid key origin k r [na; ns; nb; n] (map (scale_iq norm k) data) (fst q) (snd q)) good_record
    (combine (seq 0 (length beams)) beams)) as (m & EM & FM & LM).
  - intros q HI. apply combine_seq_in in HI. apply (iqdat_total ctime sid key origin k r (scale_iq norm k) beams nseq arrays samps norm na ns nb n data); auto; lia.
  - exists m. split; [exact EM|]. split; [exact FM|]. rewrite combine_length, seq_length in LM. destruct m; [cbn in LM; lia|discriminate].
Qed.
Lemma shaped_at r d k dims shape l : dict_get r d = Some (BArr BU32 [length dims] (map (fun n => CZ (Z.of_nat n)) dims)) ->
  dict_get r k = Some (BArr BC64 shape (map (fun c => CC (fst c) (snd c)) l)) -> length l = size dims -> complex_field r d k dims l.
Proof. intros A B L. split; [exact A|]. split; [now exists shape|exact L]. Qed.
Lemma rawacf_record_total scale_acf power ctime sid key r origin k : rawacf_able r ->
  (forall norm z, pair32 (scale_acf norm k z)) -> (forall z, pair32 z -> 0 <= power z < 2 ^ 32) ->
  (forall m, plain_text (ctime m)) -> plain_text key -> plain_text origin ->
  exists ls, convert_rawacf_record scale_acf power ctime sid (key, r) origin k = Ok ls /\ Forall good_record ls /\ ls <> [].
Proof.
  intros (beams & norm & nb & nr & nl & main & xcfs & [SB SN (dk & DK & SM & SX)] & C & HB & HR & HL & HI & TX & CK & WB) SC PW HC PK PO.
  destruct (shaped_ok _ _ _ _ _ SM) as (d & ED & ESM). destruct (shaped_ok _ _ _ _ _ SX) as (d' & ED' & ESX).
  assert (d' = d) by congruence. subst d'.
  pose proof C as [(h & TH & _ & SV) _ _ _ _ _ _ _ _ _ _ _ _]. destruct (small_revisions _ SV) as (major & minor & ER & _).
  assert (EI : exists x, shaped_if r d (str "intf_acfs") = Ok x).
  { unfold shaped_if. destruct HI as [->|(sh & l & DI & LI)]; [eauto|]. pose proof SM as (SD & _ & _).
    destruct (shaped_ok _ _ _ _ _ (shaped_at _ _ _ _ _ _ SD DI LI)) as (d2 & E2 & E3). assert (d2 = d) by congruence. subst d2.
    rewrite DI, E3. cbn [rbind]. eauto. }
  destruct EI as (xi & EI).
  assert (EX : shaped_if r d (str "xcfs") = Ok (Some ([nb; nr; nl], xcfs))).
  { unfold shaped_if. destruct SX as (_ & (sh & DX) & _). rewrite DX, ESX. reflexivity. }
  unfold convert_rawacf_record.
  match goal with |- exists ls, rbind ?x _ = _ /\ _ => assert (ex : x = Ok d) end.
  { destruct DK as [->|[DN ->]]; [now rewrite ED|]. rewrite DN, ED. reflexivity. }
  rewrite ex. clear ex. cbn [rbind]. rewrite (get_float_ok _ _ _ _ SN eq_refl). cbn [rbind]. cbv zeta. rewrite ESM. cbn [rbind].
  rewrite EI, EX. cbn [rbind]. unfold s_hash. rewrite (get_text_ok _ _ _ TH). cbn [rbind]. rewrite ER. cbn [rbind].
  unfold beams_of. rewrite (get_vector_ok _ _ _ _ SB eq_refl). cbn [rbind fst snd].
  destruct (mapM_total (fun q => rawacf_record power ctime sid key origin k r [nb; nr; nl] (map (scale_acf norm k) main)
      (Some (map (scale_acf norm k) xcfs)) (fst q) (snd q)) good_record (combine (seq 0 (length beams)) beams)) as (m & EM & FM & LM).
  - intros q HQ. apply combine_seq_in in HQ. destruct SM as (_ & _ & LM). destruct SX as (_ & _ & LX).
    apply (rawacf_total power ctime sid key origin k r (scale_acf norm k) (length beams) nb nr nl main xcfs); auto; try lia.
    do 3 eexists. exact SB.
  - exists m. split; [exact EM|]. split; [exact FM|]. rewrite combine_length, seq_length in LM. destruct m; [cbn in LM; lia|discriminate].
Qed.

Definition good_block (b : DmapSpec.block) : Prop := block_bytes b < 2 ^ 31 -> exists b', block_back b b'.

Lemma good_scalars l : Forall good_scalar l -> exists ss, Forall2 dict_scalar_back l ss.
Proof. induction 1 as [|p l (s & H) F (ss & IH)]; [exists []; constructor|]. exists (s :: ss). now constructor. Qed.
Lemma good_arrays l : Forall good_array l -> exists aa, forall blk, Forall2 (dict_array_back blk) l aa.
Proof.
  induction 1 as [|p l (s & H) F (ss & IH)]; [exists []; constructor|]. exists (s :: ss). intros blk. constructor; auto.
Qed.
Lemma good_record_block r : good_record r -> exists b, Conversions.record2dmap r = Ok (block_fields b) /\ good_block b.
Proof.
  intros (rs & ra & -> & N1 & N2 & GS & GA & ND). destruct (good_scalars _ GS) as (ss & FS). destruct (good_arrays _ GA) as (aa & FA).
  destruct (dict_scalars_back _ _ FS) as (ss0 & S1 & S2 & S3 & S4).
  destruct (dict_arrays_back (block_bytes (ss, aa)) _ _ (FA _)) as (aa0 & A1 & A2 & A3 & A4).
  assert (HE : block_bytes (ss0, aa0) = block_bytes (ss, aa)) by (unfold block_bytes; cbn [fst snd]; now rewrite S3, A3).
  exists (ss0, aa0). split; [unfold block_fields; cbn [fst snd]; now apply record2dmap_app|].
  intros HL. exists (ss, aa). unfold block_back. cbn [fst snd]. split; [|split; [|split; [|split; [exact HL|split; [exact S2|]]]]].
  - intros ->. inversion S2; subst. inversion FS; congruence.
  - intros ->. inversion A2; subst. specialize (FA 0). inversion FA; congruence.
  - unfold block_fields. cbn [fst snd]. rewrite map_app, !map_map. cbn [fst].
    change (map (fun x => sc_name x) ss0) with (map sc_name ss0). change (map (fun x => ar_name x) aa0) with (map ar_name aa0).
    rewrite S4, A4, <- map_app. exact ND.
  - rewrite HE. exact A2.
Qed.
Lemma dict2dmap_total ls : Forall good_record ls ->
  exists bl, Conversions.dict2dmap ls = Ok (map block_fields bl) /\ Forall good_block bl /\ length bl = length ls.
Proof.
  induction 1 as [|r ls G F (bl & E & FB & L)]; [exists []; repeat split; constructor|].
  destruct (good_record_block _ G) as (b & EB & GB). exists (b :: bl). cbn [Conversions.dict2dmap]. rewrite EB. cbn [rbind].
  rewrite E. split; [reflexivity|]. split; [now constructor|cbn; lia].
Qed.
Lemma convert_all_total f rs : rs <> [] -> (forall p, In p rs -> exists ls, f p = Ok ls /\ Forall good_record ls /\ ls <> []) ->
  exists bl, convert_all f rs = Ok (map block_fields bl) /\ Forall good_block bl /\ bl <> [].
Proof.
  intros N H. destruct (mapM_total f (fun ls => Forall good_record ls /\ ls <> []) rs H) as (ls & E & F & L).
  assert (GR : Forall good_record (concat ls)) by (apply Forall_concat; eapply Forall_impl; [|exact F]; cbn; tauto).
  destruct (dict2dmap_total _ GR) as (bl & EB & FB & LB). exists bl. unfold convert_all. rewrite E. cbn [rbind]. split; [exact EB|].
  split; [exact FB|]. intros ->. destruct rs as [|p rs]; [congruence|]. destruct ls as [|l ls]; [discriminate|].
  inversion F as [|? ? [_ NE] _]; subst. destruct l; [congruence|discriminate LB].
Qed.
Lemma converted_total scale_iq scale_acf power ctime t sid rs origin k : rs <> [] ->
  Forall (fun p => plain_text (fst p) /\ able t (snd p)) rs -> plain_text origin -> (forall m, plain_text (ctime m)) ->
  (t = BRawacf -> (forall norm z, pair32 (scale_acf norm k z)) /\ (forall z, pair32 z -> 0 <= power z < 2 ^ 32)) ->
  exists bl, converted_records scale_iq scale_acf power ctime t sid rs origin k = Ok (map block_fields bl) /\ Forall good_block bl /\ bl <> [].
Proof.
  intros N F PO HC HS. assert (F2 : forall p, In p rs -> plain_text (fst p) /\ able t (snd p)) by now apply Forall_forall.
  assert (T : t = Bfiq \/ t = BRawacf).
  { destruct rs as [|p rs]; [congruence|]. destruct (F2 p (or_introl eq_refl)) as [_ A]. destruct t; auto; destruct A. }
  destruct T as [-> | ->]; cbn [converted_records able] in *.
  - assert (CI : convertible_iqdat rs = Ok tt).
    { apply convertible_iqdat_iff; (eapply Forall_impl; [|exact F]); intros p [_ (b1 & b2 & b3 & b4 & b5 & b6 & b7 & b8 & b9 & b10 & A)];
        decompose [and] A; [|auto]. split; [assumption|]. match goal with Z : all_zero_phases _ |- _ => destruct Z as (l & PL & _) end. eauto. }
    rewrite CI. cbn [rbind].
    destruct (convert_all_total (fun p => convert_bfiq_record scale_iq ctime sid p origin k) rs N) as (bl & E & FB & NB).
    { intros [key r] HI. destruct (F2 _ HI) as [PK A]. cbn [fst snd] in *. now apply bfiq_record_total. }
    exists bl. rewrite E. auto.
  - assert (CI : convertible_rawacf rs = Ok tt).
    { apply convertible_rawacf_iff; (eapply Forall_impl; [|exact F]); intros p [_ (b1 & b2 & b3 & b4 & b5 & b6 & b7 & A)];
        decompose [and] A; auto. }
    rewrite CI. cbn [rbind]. destruct (HS eq_refl) as [HS1 HS2].
    destruct (convert_all_total (fun p => convert_rawacf_record scale_acf power ctime sid p origin k) rs N) as (bl & E & FB & NB).
    { intros [key r] HI. destruct (F2 _ HI) as [PK A]. cbn [fst snd] in *. now apply rawacf_record_total. }
    exists bl. rewrite E. auto.
Qed.
