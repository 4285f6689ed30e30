(** Proofs about the errors of the conversion of Borealis files. *)
From Coq Require Import String ZArith List Bool Lia Arith.
From Verif Require Import Base Bytes BytesSpec BytesProofs FloatBits FloatSpec FloatBitsProofs DmapTypes DmapSpec DmapFileProofs DmapWriteSpec DmapWriteFacts DmapWriteProofs
  DmapConvProofs SDarnFormats SDarn SDarnSpec SDarnChecks BorealisTypes BorealisFormats BorealisArrays BorealisFile BorealisFillProofs BorealisFileProofs
  BorealisCheckProofs BorealisTime BorealisTimeProofs BorealisConvert BorealisConvertSpec BorealisConvertFieldSpec BorealisConvertTotalSpec
  BorealisConvertProofs BorealisConvertRecordProofs BorealisConvertSampleProofs BorealisConvertFileProofs BorealisConvertNumberProofs
  BorealisConvertTailProofs BorealisConvertFieldProofs BorealisConvertTotalProofs BorealisConvertFaultSpec.
From Verif Require Conversions.
Import ListNotations.
Open Scope list_scope.
Open Scope Z_scope.

(** ** The checks *)

Lemma cz_inj l l' : map CZ l = map CZ l' -> l = l'.
Proof.
  revert l'. induction l as [|x l IH]; destruct l' as [|y l']; cbn; intros E; try discriminate; auto. injection E as -> E. f_equal. auto.
Qed.
Lemma text_unique r k a b : text_field r k a -> text_field r k b -> a = b.
Proof. intros [A|A] [B|B]; rewrite A in B; try discriminate; now injection B. Qed.
Lemma timed_hash r h tau len pulses blanked h' tau' len' pulses' blanked' :
  timed r h tau len pulses blanked -> timed r h' tau' len' pulses' blanked' -> h = h'.
Proof. intros [A _ _ _ _] [B _ _ _ _]. eapply text_unique; eassumption. Qed.
Lemma phases_unique r l l' : phases r l -> phases r l' -> l = l'.
Proof. intros [A _] [B _]. unfold vector_field in *. rewrite A in B. injection B as _ B. now apply cz_inj. Qed.

Definition tagged_dec h : {tagged h \/ untagged h} + {~ tagged h /\ ~ untagged h}.
Proof.
  destruct (revisions h) as [v|e] eqn:E.
  - left. destruct h as [|c h]; [discriminate|]. destruct (Z.eq_dec c 118) as [->|N]; [|right; now exists c, h].
    left. unfold revisions in E. change (118 =? 118) with true in E. cbv match in E.
    destruct (in_dec Z.eq_dec 46 (hd [] (split_at 45 (118 :: h)))) as [I|I].
    + apply hd_split_in in I as (a & b & EE & H1 & H2).
      destruct a as [|y a]; [discriminate|]. injection EE as <- EE.
      destruct (first_dot (a ++ [46])) as (a1 & b1 & E1 & K). { apply in_or_app. right. now left. }
      exists a1. assert (exists b2, h = a1 ++ 46 :: b2) as (b2 & ->).
      { replace (a ++ 46 :: b) with ((a ++ [46]) ++ b) in EE by now rewrite <- app_assoc.
        rewrite E1 in EE. rewrite <- app_assoc in EE. eexists. exact EE. }
      exists b2. splits; auto. intros C. apply H1. right.
      assert (In 45 (a ++ [46])) as Y by (rewrite E1; apply in_or_app; now left).
      apply in_app_or in Y as [Y|[Y|[]]]; [auto|discriminate].
    + rewrite (split_single 46) in E by auto. discriminate.
  - right. split; intros C; [destruct (tagged_revisions h C) as (a & b & E'); congruence|rewrite (untagged_revisions h C) in E; congruence].
Qed.

(** One record: [check1] is what the two checks do with it. *)
Definition check1 (t : filetype) (r : brecord) : res unit :=
  rlet b := normal_blanking r in
  if negb b then Raise (convert_error t)
  else match t with
       | Bfiq => rlet z := no_phases r in if negb z then Raise BorealisConvert2IqdatError else Ok tt
       | _ => Ok tt
       end.
Lemma check1_cases t r : t = Bfiq \/ t = BRawacf -> checked_kind t r ->
  check1 t r = Ok tt /\ passes t r \/ exists e, check1 t r = Raise e /\ check_fault t r e.
Proof.
  intros HT ((h & tau & len & pulses & blanked & T & HL) & HP).
  destruct (Z.eq_dec len 0) as [->|NL].
  { right. unfold check1, normal_blanking, sample_spacing. pose proof T as [_ TT TL _ _].
    rewrite (get_int_ok _ _ _ _ TT eq_refl), (get_int_ok _ _ _ _ TL eq_refl). cbn [rbind]. change (0 =? 0) with true. cbv match.
    destruct (Z.eqb_spec tau 0) as [->|NT]; cbn [rbind]; eexists; (split; [reflexivity|]); [eapply cf_nothing|eapply cf_zero]; eassumption. }
  assert (LP : 0 < len) by lia.
  destruct (tagged_dec h) as [V|[V1 V2]].
  2:{ right. unfold check1, normal_blanking, sample_spacing, s_hash. pose proof T as [TH TT TL _ _].
      rewrite (get_int_ok _ _ _ _ TT eq_refl), (get_int_ok _ _ _ _ TL eq_refl). cbn [rbind].
      destruct (Z.eqb_spec len 0); [lia|]. cbn [rbind]. rewrite (get_text_ok _ _ _ TH). cbn [rbind].
      rewrite (no_revisions h V1 V2). cbn [rbind]. eexists. split; [reflexivity|]. eapply cf_version; eassumption. }
  assert (CK : checkable r) by (exists h, tau, len, pulses, blanked; auto).
  destruct (checkable_blanking _ CK) as (b & EB & HB). unfold check1. rewrite EB. cbn [rbind].
  destruct b; cbn [negb].
  2:{ right. eexists. split; [reflexivity|]. apply cf_blanked; [exact CK|]. intros C. apply HB in C. discriminate. }
  assert (WB : well_blanked r) by now apply HB.
  destruct HT as [-> | ->].
  2:{ left. split; [reflexivity|]. split; [exact CK|]. split; [exact WB|discriminate]. }
  destruct (HP eq_refl) as [(l & PL)|PT].
  - destruct (no_phases_ok _ _ PL) as [EP HZ]. rewrite EP. cbn [rbind]. destruct (forallb zero32 l); cbn [negb].
    + left. split; [reflexivity|]. split; [exact CK|]. split; [exact WB|]. intros _. exists l. split; [exact PL|now apply HZ].
    + right. eexists. split; [reflexivity|]. eapply cf_phases; [reflexivity|exact CK|exact WB|exact PL|]. intros C. apply HZ in C. discriminate.
  - pose proof PT as (n & w & data & E & L). rewrite (phases_matrix _ _ _ _ E L). cbn [rbind]. right. eexists. split; [reflexivity|].
    now apply cf_table.
Qed.
Lemma fault_not_passes t r e : check_fault t r e -> ~ passes t r.
Proof.
  intros F ((h & tau & len & pulses & blanked & T & HL & HV) & WB & ZP). destruct F.
  - destruct (timed_unique _ _ _ _ _ _ _ _ _ _ _ T H) as (_ & E & _). lia.
  - destruct (timed_unique _ _ _ _ _ _ _ _ _ _ _ T H) as (_ & E & _). lia.
  - rewrite (timed_hash _ _ _ _ _ _ _ _ _ _ _ T H) in HV. tauto.
  - auto.
  - destruct (ZP H) as (l' & P' & Z'). rewrite (phases_unique _ _ _ P' H2) in Z'. auto.
  - destruct (ZP H) as (l' & [P' _] & Z'). destruct H2 as (n & w & data & E & L). unfold vector_field in P'. congruence.
Qed.
Lemma passes_check1 t r : t = Bfiq \/ t = BRawacf -> passes t r -> check1 t r = Ok tt.
Proof.
  intros HT (CK & WB & ZP). destruct (checkable_blanking _ CK) as (b & EB & HB). unfold check1. rewrite EB. cbn [rbind].
  assert (b = true) as -> by now apply HB. cbn [negb]. destruct HT as [-> | ->]; [|reflexivity].
  destruct (ZP eq_refl) as (l & PL & ZL). destruct (no_phases_ok _ _ PL) as [EP HZ]. rewrite EP. cbn [rbind].
  assert (forallb zero32 l = true) as -> by now apply HZ. reflexivity.
Qed.
Lemma rbind_unit {A} (x : res A) : rbind x (fun a => Ok a) = x.
Proof. now destruct x. Qed.
Definition check_all (t : filetype) (rs : brecords) : res unit :=
  match t with Bfiq => convertible_iqdat rs | BRawacf => convertible_rawacf rs | _ => Ok tt end.
Lemma check_all_cons t key r rs : t = Bfiq \/ t = BRawacf ->
  check_all t ((key, r) :: rs) = rbind (check1 t r) (fun _ => check_all t rs).
Proof.
  intros [-> | ->]; cbn [check_all convertible_iqdat convertible_rawacf]; unfold check1; destruct (normal_blanking r) as [[]|]; cbn [rbind negb]; try reflexivity.
  destruct (no_phases r) as [[]|]; reflexivity.
Qed.
Lemma check_all_cases t rs : t = Bfiq \/ t = BRawacf -> Forall (fun p => checked_kind t (snd p)) rs ->
  Forall (fun p => passes t (snd p)) rs /\ check_all t rs = Ok tt \/
  exists pre key r post e, rs = pre ++ (key, r) :: post /\ Forall (fun p => passes t (snd p)) pre /\ check_fault t r e /\ check_all t rs = Raise e.
Proof.
  intros HT. induction 1 as [|[key r] rs HK HF IH]; [left; split; [constructor|destruct HT as [-> | ->]; reflexivity]|].
  rewrite check_all_cons by exact HT. cbn [snd] in HK.
  destruct (check1_cases _ _ HT HK) as [[E P]|(e & E & F)]; rewrite E; cbn [rbind].
  - destruct IH as [[FA EA]|(pre & key' & r' & post & e & -> & FP & CF & EA)].
    + left. split; [now constructor|exact EA].
    + right. exists ((key, r) :: pre), key', r', post, e. repeat split; auto.
  - right. exists [], key, r, rs, e. repeat split; auto.
Qed.
Lemma passes_all t rs : t = Bfiq \/ t = BRawacf -> Forall (fun p => passes t (snd p)) rs -> check_all t rs = Ok tt.
Proof.
  intros HT. induction 1 as [|[key r] rs HP HF IH]; [destruct HT as [-> | ->]; reflexivity|].
  rewrite check_all_cons by exact HT. cbn [snd] in HP. rewrite (passes_check1 _ _ HT HP). exact IH.
Qed.

(** ** Success or an error *)

(** [x] succeeds if and only if [P]; otherwise it raises something. *)
Definition sure {A} (x : res A) (P : Prop) : Prop :=
  (exists a, x = Ok a) /\ P \/ (exists e, x = Raise e /\ e <> OutOfModel) /\ ~ P.

Lemma sure_ok {A} (a : A) (P : Prop) : P -> sure (Ok a) P.
Proof. left. eauto. Qed.
Lemma sure_raise {A} e (P : Prop) : e <> OutOfModel -> ~ P -> sure (@Raise A e) P.
Proof. right. eauto. Qed.
Lemma sure_iff {A} (x : res A) (P Q : Prop) : sure x P -> (P <-> Q) -> sure x Q.
Proof. unfold sure. tauto. Qed.
Lemma sure_bind {A B} (x : res A) (k : A -> res B) (P Q : Prop) : sure x P -> (forall a, x = Ok a -> P -> sure (k a) Q) ->
  sure (rbind x k) (P /\ Q).
Proof.
  intros [[(a & E) HP]|[(e & E & N) HP]] H; rewrite E; cbn [rbind].
  - eapply sure_iff; [exact (H a E HP)|]. tauto.
  - apply sure_raise; [exact N|tauto].
Qed.
Lemma sure_mapM {A B} (f : A -> res B) (P : A -> Prop) l : (forall a, In a l -> sure (f a) (P a)) -> sure (mapM f l) (Forall P l).
Proof.
  induction l as [|a l IH]; intros H; cbn [mapM]; [apply sure_ok; constructor|].
  eapply sure_iff.
  - apply (sure_bind (f a) _ (P a) (Forall P l)); [apply H; now left|]. intros b _ _.
    eapply sure_iff; [apply (sure_bind (mapM f l) (fun m => Ok (b :: m)) (Forall P l) True); [apply IH; intros; apply H; now right|]|tauto].
    intros; now apply sure_ok.
  - split; [intros []; now constructor|]. intros HF. inversion HF; auto.
Qed.

(** ** Numbers *)

Lemma sig32_max b : sig32 b < 2 ^ 24.
Proof. unfold sig32. pose proof (f32_man_bound b). destruct (f32_exp b =? 0); lia. Qed.
Lemma round_sure b : sure (round_f32 b) (whole_able b).
Proof.
  unfold round_f32, whole_able, special32. destruct (Z.eqb_spec (f32_exp b) 255) as [E|E].
  { destruct (f32_man b =? 0); (apply sure_raise; [discriminate|tauto]). }
  cbv zeta. rewrite f32_val_sig. pose proof (sig32_nonneg b) as S0. pose proof (sig32_max b) as S1. pose proof (pos32_max b) as P.
  set (q := if pos32 b <=? 0 then sig32 b * 2 ^ (- pos32 b) else round_div (sig32 b) (2 ^ pos32 b)).
  assert (G : - 2 ^ 63 <= signed (f32_sign b) q < 2 ^ 63 <->
    - 2 ^ 63 * 2 ^ 149 <= signed (f32_sign b) (sig32 b * 2 ^ (149 - pos32 b)) < 2 ^ 63 * 2 ^ 149).
  { unfold q. destruct (Z.leb_spec (pos32 b) 0) as [L|L].
    - replace (149 - pos32 b) with (149 + - pos32 b) by lia. rewrite Z.pow_add_r by lia.
      set (y := 2 ^ - pos32 b). replace (sig32 b * (2 ^ 149 * y)) with ((sig32 b * y) * 2 ^ 149) by ring.
      set (s := sig32 b * y). clearbody s. unfold signed. destruct (f32_sign b =? 0); lia.
    - pose proof (round_div_near (sig32 b) (2 ^ pos32 b) (pow_pos (pos32 b) ltac:(lia))) as N. cbv zeta in N.
      set (d := round_div (sig32 b) (2 ^ pos32 b)) in *. pose proof (pow_pos (pos32 b) ltac:(lia)) as PP.
      assert (2 <= 2 ^ pos32 b) by (change 2 with (2 ^ 1) at 1; apply Z.pow_le_mono_r; lia).
      assert (D : 0 <= d < 2 ^ 25). { set (X := 2 ^ pos32 b) in *. change (2 ^ 24) with 16777216 in *. change (2 ^ 25) with 33554432. clearbody X d. split; nia. }
      assert (V : 0 <= sig32 b * 2 ^ (149 - pos32 b) < 2 ^ 24 * 2 ^ 149).
      { assert (2 ^ (149 - pos32 b) <= 2 ^ 149) by (apply Z.pow_le_mono_r; lia). pose proof (pow_pos (149 - pos32 b) ltac:(lia)).
        set (X := 2 ^ (149 - pos32 b)) in *. set (Y := 2 ^ 149) in *. set (W := 2 ^ 24) in *. assert (0 < W) by reflexivity. clearbody X Y W. split; nia. }
      set (s := sig32 b * _) in *. clearbody s d. clear - D V. unfold signed. destruct (f32_sign b =? 0); lia. }
  set (n := signed (f32_sign b) q) in *. set (v := signed (f32_sign b) (sig32 b * _)) in *. clearbody n v.
  destruct (Z.ltb_spec n (- 2 ^ 63)) as [A|A]; cbn [orb]; [apply sure_raise; [discriminate|lia]|].
  destruct (Z.leb_spec (2 ^ 63) n) as [B|B]; [apply sure_raise; [discriminate|lia]|].
  apply sure_ok. split; [exact E|]. apply G. lia.
Qed.
Lemma micros_undatable b : undatable b -> exists e, micros b = Raise e /\ e <> OutOfModel.
Proof.
  intros U. unfold micros. destruct (Z.eqb_spec (f64_exp b) 2047) as [E|E].
  { destruct (f64_man b =? 0); (eexists; split; [reflexivity|discriminate]). }
  destruct U as [C|[U1 U2]]; [contradiction|]. rewrite f64_val_sig in U1, U2. cbv zeta.
  change (if f64_exp b =? 0 then f64_man b else f64_man b + 2 ^ 52) with (sig64 b). change (1075 - Z.max (f64_exp b) 1) with (pos64 b).
  pose proof (sig64_nonneg b) as SG. pose proof (pos64_max b) as PM. set (s := sig64 b) in *. set (p := pos64 b) in *.
  set (w := if p <=? 0 then s * 2 ^ (- p) else s / 2 ^ p). set (u := if p <=? 0 then 0 else round_div _ _).
  assert (U : 0 <= u).
  { unfold u. destruct (Z.leb_spec p 0); [lia|]. pose proof (pow_pos p ltac:(lia)) as PP.
    pose proof (Z.mod_pos_bound s (2 ^ p) PP) as MB. set (fr := s mod 2 ^ p) in *.
    assert (R : 0 <= round53 (fr * 1000000) / 2 ^ p).
    { apply (cut_nonneg 53 (fr * 1000000) (2 ^ p)); [lia..|]. apply round53_cut; [lia|]. change (2 ^ 53) with 9007199254740992. lia. }
    unfold round_div. cbv zeta. pose proof (Z.mod_pos_bound (round53 (fr * 1000000) / 2 ^ p) 2 eq_refl).
    destruct (_ <? _); [lia|]. destruct (_ <? _); lia. }
  assert (W : forall B, s * 2 ^ (1074 - p) < B * 2 ^ 1074 -> 0 <= w < B).
  { intros B H. unfold w. destruct (Z.leb_spec p 0) as [L|L].
    - replace (1074 - p) with (- p + 1074) in H by lia. rewrite Z.pow_add_r in H by lia. pose proof (pow_pos (- p) ltac:(lia)).
      pose proof (pow_pos 1074 ltac:(lia)) as PX. set (X := 2 ^ 1074) in *. set (Y := 2 ^ (- p)) in *. clearbody X Y.
      split; [nia|]. apply (Z.mul_lt_mono_pos_r X); lia.
    - pose proof (pow_pos p ltac:(lia)) as PP. replace 1074 with ((1074 - p) + p) in H at 2 by lia. rewrite Z.pow_add_r in H by lia.
      pose proof (pow_pos (1074 - p) ltac:(lia)) as PX. set (X := 2 ^ (1074 - p)) in *. set (Y := 2 ^ p) in *. clearbody X Y.
      split; [apply Z.div_pos; lia|]. apply Z.div_lt_upper_bound; [lia|]. apply (Z.mul_lt_mono_pos_r X); lia. }
  assert (W2 : forall B, B * 2 ^ 1074 <= s * 2 ^ (1074 - p) -> B <= w).
  { intros B H. unfold w. destruct (Z.leb_spec p 0) as [L|L].
    - replace (1074 - p) with (- p + 1074) in H by lia. rewrite Z.pow_add_r in H by lia.
      pose proof (pow_pos 1074 ltac:(lia)) as PX. set (X := 2 ^ 1074) in *. set (Y := 2 ^ (- p)) in *. clearbody X Y.
      apply (Z.mul_le_mono_pos_r _ _ X); lia.
    - pose proof (pow_pos p ltac:(lia)) as PP. replace 1074 with ((1074 - p) + p) in H at 1 by lia. rewrite Z.pow_add_r in H by lia.
      pose proof (pow_pos (1074 - p) ltac:(lia)) as PX. set (X := 2 ^ (1074 - p)) in *. set (Y := 2 ^ p) in *. clearbody X Y.
      apply Z.div_le_lower_bound; [lia|]. apply (Z.mul_le_mono_pos_r _ _ X); lia. }
  assert (NN : 0 <= s * 2 ^ (1074 - p)) by (pose proof (pow_pos (1074 - p) ltac:(lia)); nia).
  clearbody w u. set (X := s * 2 ^ (1074 - p)) in *. clearbody X. unfold signed in U1, U2.
  assert (WB : 0 <= w < 2 ^ 55) by (apply W; destruct (f64_sign b =? 0); lia).
  destruct (Z.leb_spec (2 ^ 55) w); [lia|]. exists ValueError. split; [|discriminate].
  destruct (f64_sign b =? 0).
  - destruct U2 as [U2|U2]; [pose proof (pow_pos 1074 ltac:(lia)); lia|]. pose proof (W2 _ U2).
    destruct (Z.leb_spec 253402300800000000 (1 * (w * 1000000 + u))); [now rewrite orb_true_r|lia].
  - destruct U2 as [U2|U2]; [|pose proof (pow_pos 1074 ltac:(lia)); lia].
    assert (62135596801 <= w) by (apply W2; lia).
    destruct (Z.ltb_spec (-1 * (w * 1000000 + u)) (-62135596800000000)); [reflexivity|lia].
Qed.
Lemma micros_sure b : datable b \/ undatable b -> sure (micros b) (datable b).
Proof.
  intros [D|U].
  - destruct (datable_ok _ D) as (m & ->). now apply sure_ok.
  - destruct (micros_undatable _ U) as (e & E & N). right. split; [eauto|]. intros D. destruct (datable_ok _ D) as (m & EM). congruence.
Qed.

(** ** Versions *)

Lemma parts_revisions h major minor : version_parts h major minor -> revisions h = Ok (RText major, RText minor).
Proof.
  intros (M1 & M2 & M3 & M4 & rest & -> & R). unfold revisions. change (118 =? 118) with true. cbv match.
  assert (N1 : ~ In 45 (118 :: major)) by (intros [C|C]; [discriminate|auto]).
  assert (N2 : ~ In 46 (118 :: major)) by (intros [C|C]; [discriminate|auto]).
  assert (E : hd [] (split_at 45 (118 :: major ++ 46 :: minor ++ rest)) = (118 :: major) ++ 46 :: minor ++ hd [] (split_at 45 rest)).
  { change (118 :: major ++ 46 :: minor ++ rest) with ((118 :: major) ++ [46] ++ minor ++ rest).
    rewrite hd_split_before by exact N1. rewrite hd_split_before by (intros [C|[]]; discriminate).
    rewrite hd_split_before by exact M3. reflexivity. }
  rewrite E. rewrite split_at_app by exact N2. cbn [nth_error hd tl].
  assert (F : exists l, split_at 46 (minor ++ hd [] (split_at 45 rest)) = minor :: l).
  { destruct R as [->|(c & s & -> & [-> | ->])].
    - cbn. rewrite app_nil_r. rewrite split_single by exact M4. eauto.
    - cbn. rewrite app_nil_r. rewrite split_single by exact M4. eauto.
    - cbn [split_at]. change (46 =? 45) with false. cbv match.
      destruct (split_at 45 s) as [|a l] eqn:ES; [now apply split_ne in ES|]. cbn [hd].
      rewrite split_at_app by exact M4. eauto. }
  destruct F as (l & ->). reflexivity.
Qed.
Lemma small_parts h major minor : version_parts h major minor -> small_version h -> small_number major /\ small_number minor.
Proof.
  intros V (ma & mi & rest & -> & S1 & S2 & R). apply parts_revisions in V. rewrite (small_revisions_of _ _ _ S1 S2 R) in V.
  injection V as <- <-. auto.
Qed.
Lemma int8_sure s : small_number s \/ numberless s -> sure (revision_int8 (RText s)) (small_number s).
Proof.
  intros H. destruct (revision_int8 (RText s)) as [z|e] eqn:E.
  - destruct H as [H|H]; [now apply sure_ok|]. exfalso. cbn [revision_int8] in E.
    assert (X : existsb is_digit s = false).
    { destruct (existsb is_digit s) eqn:EX; [|reflexivity]. apply existsb_exists in EX as (c & I & D). unfold numberless in H. rewrite Forall_forall in H.
      destruct (H c I). unfold is_digit in D. unfold digit. lia. }
    rewrite X in E. destruct s as [|c s]; [discriminate E|]. cbn [existsb] in X. apply orb_false_elim in X as [X _].
    cbn [forallb] in E. rewrite X in E. discriminate E.
  - destruct H as [H|H]; [destruct (small_int8 _ H) as (z & E' & _); congruence|].
    apply sure_raise.
    + intros ->. cbn [revision_int8] in E.
      assert (X : existsb is_digit s = false).
      { destruct (existsb is_digit s) eqn:EX; [|reflexivity]. apply existsb_exists in EX as (c & I & D). unfold numberless in H. rewrite Forall_forall in H.
        destruct (H c I). unfold is_digit in D. unfold digit. lia. }
      rewrite X in E. destruct s as [|c s]; [discriminate E|]. cbn [existsb] in X. apply orb_false_elim in X as [X _].
      cbn [forallb] in E. rewrite X in E. discriminate E.
    + intros C. destruct (small_int8 _ C) as (z & E' & _). congruence.
Qed.
(** The version of a record that passes the checks. *)
Lemma version_sure h : tagged h \/ untagged h ->
  (tagged h -> exists major minor, version_parts h major minor /\
    (small_number major \/ numberless major) /\ (small_number minor \/ numberless minor)) ->
  exists v, revisions h = Ok v /\ exists A B, sure (revision_int8 (fst v)) A /\ sure (revision_int8 (snd v)) B /\
    (A /\ B <-> untagged h \/ small_version h).
Proof.
  intros [T|U] H.
  - destruct (H T) as (major & minor & V & H1 & H2). rewrite (parts_revisions _ _ _ V). eexists. split; [reflexivity|]. cbn [fst snd].
    exists (small_number major), (small_number minor). split; [now apply int8_sure|]. split; [now apply int8_sure|].
    split.
    + intros [S1 S2]. right. destruct V as (_ & _ & _ & _ & rest & -> & R). exists major, minor, rest. auto.
    + intros [(c & rest & E & N)|S]; [|eapply small_parts; eassumption].
      destruct T as (m & r & -> & _). injection E as E _. congruence.
  - rewrite (untagged_revisions h U). eexists. split; [reflexivity|]. exists True, True.
    split; [now apply sure_ok|]. split; [now apply sure_ok|]. tauto.
Qed.

(** ** The fields in common *)

Lemma item_sure l i : sure (item_at l i) (i < length l)%nat.
Proof.
  unfold item_at. destruct (nth_error l i) as [z|] eqn:E.
  - apply sure_ok. apply nth_error_Some. congruence.
  - apply sure_raise; [discriminate|]. apply nth_error_None in E. lia.
Qed.
Lemma dict_sure {A} (d : dict A) k : sure (dict_item d k) (exists v, dict_get d k = Some v).
Proof.
  unfold dict_item. destruct (dict_get d k) as [v|]; [apply sure_ok; eauto|]. apply sure_raise; [discriminate|]. intros (v & C). discriminate C.
Qed.

(** What the beam at [b] needs. *)
Definition beam_can (f : facts) (b : nat) : Prop :=
  (untagged (fa_hash f) \/ small_version (fa_hash f)) /\
  (exists t l, fa_times f = t :: l /\ datable t) /\
  (exists i, dict_get code_to_stid (fa_station f) = Some i) /\
  fa_noises f <> [] /\ (b < length (fa_azimuths f))%nat /\
  whole_able (fa_first f) /\ whole_able (fa_sep f).

Lemma common_sure ctime r f sid b beam txpow nrang xcf : common_says r f -> tagged (fa_hash f) \/ untagged (fa_hash f) ->
  sure (common_fields ctime r sid b beam txpow nrang xcf) (beam_can f b).
Proof.
  intros [TH SV CT TS CI SQ CA VT DT VN VA FL (rate & FRA) FFR FRS _ (pl & VP) (n0 & shape & ll & DL) _] TG.
  destruct (version_sure _ TG SV) as (v & EV & A & B & SA & SB & AB).
  destruct (CT (str "experiment_name") ltac:(apply str_mem_In; reflexivity)) as (name & TN).
  destruct (integer_ok _ _ (CI (str "experiment_id") ltac:(apply str_mem_In; reflexivity))) as (cp & ECP).
  destruct (integer_ok _ _ (CI (str "scan_start_marker") ltac:(apply str_mem_In; reflexivity))) as (scan & ESC).
  destruct (integer_ok _ _ (CI (str "tx_pulse_len") ltac:(apply str_mem_In; reflexivity))) as (txpl & ETX).
  destruct (integer_ok _ _ (CI (str "tau_spacing") ltac:(apply str_mem_In; reflexivity))) as (mpinc & EMP).
  destruct (integer_ok _ _ (CI (str "freq") ltac:(apply str_mem_In; reflexivity))) as (freq & EFR).
  destruct (status_ok _ _ (CA (str "agc_status_word") ltac:(apply str_mem_In; reflexivity))) as (agc & EAG).
  destruct (status_ok _ _ (CA (str "lp_status_word") ltac:(apply str_mem_In; reflexivity))) as (lop & ELO).
  destruct (FL (str "first_range_rtt") ltac:(apply str_mem_In; reflexivity)) as (rtt & FRT). destruct (FL (str "int_time") ltac:(apply str_mem_In; reflexivity)) as (itm & FIT).
  unfold common_fields, s_hash. rewrite (get_text_ok _ _ _ TH). cbn [rbind]. rewrite EV. cbn [rbind].
  eapply sure_iff.
  - apply (sure_bind _ _ A (B /\ (exists t l, fa_times f = t :: l /\ datable t) /\ (exists i, dict_get code_to_stid (fa_station f) = Some i) /\
      (0 < length (fa_noises f))%nat /\ (b < length (fa_azimuths f))%nat /\ whole_able (fa_first f) /\ whole_able (fa_sep f) /\ True) SA).
    intros major _ _. apply sure_bind; [exact SB|]. intros minor _ _.
    rewrite (get_vector_ok _ _ _ _ VT eq_refl). cbn [rbind].
    destruct (fa_times f) as [|t0 tl0] eqn:ET.
    { cbn [item_at nth_error]. unfold item_at. cbn [nth_error rbind]. apply sure_raise; [discriminate|]. intros ((t & l & C & _) & _). discriminate C. }
    unfold item_at at 1. cbn [nth_error rbind].
    eapply sure_iff; [apply (sure_bind (micros t0) _ (datable t0)
      ((exists i, dict_get code_to_stid (fa_station f) = Some i) /\ (0 < length (fa_noises f))%nat /\ (b < length (fa_azimuths f))%nat /\
       whole_able (fa_first f) /\ whole_able (fa_sep f) /\ True)); [apply micros_sure; eapply DT; reflexivity|]|].
    2:{ split; [intros [D R]; split; [now exists t0, tl0|exact R]|]. intros [(t & l & E & D) R]. injection E as -> ->. auto. }
    intros m _ _. rewrite (get_text_ok _ _ _ TN), ECP, (get_text_ok _ _ _ TS). cbn [rbind].
    apply sure_bind; [apply dict_sure|]. intros stid _ _.
    rewrite (get_int_ok _ _ _ _ SQ eq_refl). cbn [rbind]. rewrite (get_float_ok _ _ _ _ FRT eq_refl), (get_float_ok _ _ _ _ FRA eq_refl). cbn [rbind].
    rewrite EAG, ELO. cbn [rbind]. rewrite (get_vector_ok _ _ _ _ VN eq_refl). cbn [rbind].
    apply sure_bind; [apply item_sure|]. intros noise _ _.
    rewrite (get_vector_ok _ _ _ _ VA eq_refl). cbn [rbind].
    apply sure_bind; [apply item_sure|]. intros azm _ _.
    rewrite ESC, (get_float_ok _ _ _ _ FIT eq_refl). cbn [rbind]. rewrite ETX, EMP. cbn [rbind]. rewrite (first_length_ok _ _ _ _ _ VP). cbn [rbind].
    unfold first_length. rewrite (dict_item_get _ _ _ DL). cbn [rbind].
    rewrite (get_float_ok _ _ _ _ FFR eq_refl). cbn [rbind]. apply sure_bind; [apply round_sure|]. intros frang _ _.
    rewrite (get_float_ok _ _ _ _ FRS eq_refl). cbn [rbind]. apply sure_bind; [apply round_sure|]. intros rsep _ _.
    rewrite EFR. cbn [rbind]. now apply sure_ok.
  - unfold beam_can. rewrite <- AB.
    assert (N : (0 < length (fa_noises f))%nat <-> fa_noises f <> []).
    { destruct (fa_noises f); cbn; split; try congruence; lia. }
    rewrite N. tauto.
Qed.
Lemma comment_ok r f key origin k : common_says r f -> exists t, comment r key origin k = Ok t.
Proof.
  intros C. pose proof (sy_texts _ _ C) as CT. pose proof (sy_beams _ _ C) as VB.
  destruct (CT (str "experiment_comment") ltac:(apply str_mem_In; reflexivity)) as (c & TC).
  destruct (CT (str "slice_comment") ltac:(apply str_mem_In; reflexivity)) as (s & TS).
  unfold comment. rewrite (first_length_ok _ _ _ _ _ VB). cbn [rbind]. rewrite (get_text_ok _ _ _ TC), (get_text_ok _ _ _ TS). cbn [rbind]. eauto.
Qed.
Lemma tables_ok r f : common_says r f -> exists t, tables r = Ok t.
Proof.
  intros C. destruct (sy_pulses _ _ C) as (pl & VP). destruct (sy_lags _ _ C) as (n0 & shape & ll & DL).
  unfold tables. rewrite (get_vector_ok _ _ _ _ VP eq_refl). cbn [rbind]. rewrite (dict_item_get _ _ _ DL). cbn [rbind].
  rewrite numbers_map. cbn [rbind]. eauto.
Qed.

(** ** Records of one beam *)

Definition samples_can (f : facts) (b : nat) : Prop :=
  exists na ns nb n, fa_dims f = [na; ns; nb; n] /\ (b < nb)%nat /\ (na = 0%nat \/ fa_sequences f <= Z.of_nat ns).
Lemma samples_sure f data b : (length (fa_dims f) <= 4)%nat -> sure (beam_samples (fa_dims f) data (Z.to_nat (fa_sequences f)) b) (samples_can f b).
Proof.
  intros L. unfold beam_samples, samples_can. set (q := fa_sequences f). destruct (fa_dims f) as [|na [|ns [|nb [|n [|x l]]]]]; cbn [length] in L;
    try (apply sure_raise; [discriminate|intros (? & ? & ? & ? & C & _); discriminate C]); [|lia].
  destruct (Nat.ltb_spec b nb) as [H|H]; cbn [negb].
  2:{ apply sure_raise; [discriminate|]. intros (? & ? & ? & ? & C & D & _). injection C as <- <- <- <-. lia. }
  destruct (Nat.ltb_spec ns (Z.to_nat q)) as [H1|H1]; cbn [andb].
  - destruct (Nat.eqb_spec na 0) as [->|N]; cbn [negb].
    + apply sure_ok. do 4 eexists. split; [reflexivity|]. auto.
    + apply sure_raise; [discriminate|]. intros (? & ? & ? & ? & C & _ & D). injection C as <- <- <- <-. lia.
  - apply sure_ok. do 4 eexists. split; [reflexivity|]. split; [exact H|]. right. lia.
Qed.

Lemma iqdat_sure ctime sid key origin k r f data b beam : bfiq_says r f -> tagged (fa_hash f) \/ untagged (fa_hash f) ->
  sure (iqdat_record ctime sid key origin k r (fa_dims f) data b beam) (samples_can f b /\ beam_can f b).
Proof.
  intros (C & (t & n & nms & DA & TA) & ISA & INR & _ & LD & _ & _) TG.
  destruct (integer_ok _ _ ISA) as (samps & ESA). destruct (integer_ok _ _ INR) as (nrang & ENR).
  assert (EX : exists x, has_intf r = Ok x).
  { unfold has_intf. rewrite (dict_item_get _ _ _ DA). cbn [rbind]. destruct TA as [-> | ->]; eauto. }
  destruct EX as (xcf & EX). destruct (comment_ok _ _ key origin k C) as (text & ET). destruct (tables_ok _ _ C) as (tabs & EB).
  unfold iqdat_record. rewrite (get_int_ok _ _ _ _ (sy_sequences _ _ C) eq_refl). cbn [rbind]. cbv zeta.
  rewrite (first_length_ok _ _ _ _ _ DA). cbn [rbind]. rewrite ESA. cbn [rbind].
  apply sure_bind; [now apply samples_sure|]. intros samples _ _. rewrite ENR, EX. cbn [rbind].
  eapply sure_iff; [apply (sure_bind _ _ (beam_can f b) True); [now apply common_sure|]|tauto]. intros c _ _.
  rewrite ET. cbn [rbind]. rewrite (get_float_ok _ _ _ _ (sy_first _ _ C) eq_refl), (get_float_ok _ _ _ _ (sy_sep _ _ C) eq_refl), EB. cbn [rbind].
  rewrite (get_vector_ok _ _ _ _ (sy_times _ _ C) eq_refl), (get_vector_ok _ _ _ _ (sy_noises _ _ C) eq_refl). cbn [rbind]. now apply sure_ok.
Qed.

Definition lags_can (f : facts) (b : nat) : Prop :=
  exists nb nr nl, fa_dims f = [nb; nr; nl] /\ (b < nb)%nat /\ nl <> 0%nat.
Lemma rawacf_sure power ctime sid key origin k r f main xcfs b beam : common_says r f -> tagged (fa_hash f) \/ untagged (fa_hash f) ->
  (length (fa_dims f) <= 3)%nat ->
  (dict_get r (str "tx_antenna_phases") = None \/ exists l, antenna_phases r l /\ (length l <= 62)%nat) ->
  sure (rawacf_record power ctime sid key origin k r (fa_dims f) main xcfs b beam) (lags_can f b /\ beam_can f b /\ xcfs <> None).
Proof.
  intros C TG LD TX. unfold rawacf_record, lags_can. destruct (fa_dims f) as [|nb [|nr [|nl [|x l]]]]; cbn [length] in LD;
    try (apply sure_raise; [discriminate|intros ((? & ? & ? & D & _) & _); discriminate D]); [|lia].
  destruct (Nat.ltb_spec b nb) as [H|H]; cbn [negb orb].
  2:{ apply sure_raise; [discriminate|]. intros ((? & ? & ? & D & E & _) & _). injection D as <- <- <-. lia. }
  destruct (Nat.eqb_spec nl 0) as [N|N].
  { apply sure_raise; [discriminate|]. intros ((? & ? & ? & D & _ & E) & _). injection D as <- <- <-. contradiction. }
  destruct (tx_total _ TX) as (txpow & ETX). rewrite ETX. cbn [rbind].
  destruct (comment_ok _ _ key origin k C) as (text & ET). destruct (tables_ok _ _ C) as (tabs & EB).
  eapply sure_iff; [apply (sure_bind _ _ (beam_can f b) (xcfs <> None)); [now apply common_sure|]|].
  - intros c _ _. rewrite ET, EB. cbn [rbind]. destruct xcfs as [x|]; cbn [rbind]; [apply sure_ok; discriminate|].
    apply sure_raise; [discriminate|auto].
  - assert (exists nb0 nr0 nl0, [nb; nr; nl] = [nb0; nr0; nl0] /\ (b < nb0)%nat /\ nl0 <> 0%nat) by (do 3 eexists; eauto). tauto.
Qed.

(** ** Records *)

Lemma to_dims dims : mapM (fun c => match c with CZ z => if is_int_type BU32 then reshape_dim z else Raise OutOfModel | _ => Raise OutOfModel end)
  (map (fun n => CZ (Z.of_nat n)) dims) = Ok dims.
Proof.
  induction dims as [|n dims IH]; [reflexivity|]. cbn [map mapM]. cbn [is_int_type] in *. unfold reshape_dim at 1.
  destruct (Z.ltb_spec (Z.of_nat n) 0); [lia|]. cbn [rbind]. rewrite Nat2Z.id. rewrite IH. reflexivity.
Qed.
Lemma shaped_sure r dk k dims d shape data : dimensions r dk dims -> dict_get r dk = Some d ->
  dict_get r k = Some (BArr BC64 shape (map (fun c => CC (fst c) (snd c)) data)) ->
  (length data = size dims /\ shaped r d k = Ok (dims, data)) \/ (length data <> size dims /\ shaped r d k = Raise ValueError).
Proof.
  intros D ED E. destruct (Nat.eq_dec (length data) (size dims)) as [L|L].
  - left. split; [exact L|]. destruct (shaped_ok r dk k dims data (shaped_at _ _ _ _ _ _ D E L)) as (d' & ED' & ES). congruence.
  - right. split; [exact L|]. unfold dimensions in D. assert (d = BArr BU32 [length dims] (map (fun n => CZ (Z.of_nat n)) dims)) as -> by congruence.
    unfold shaped. rewrite (dict_item_get _ _ _ E). cbn [rbind]. unfold reshape_field. rewrite to_dims. cbn [rbind].
    rewrite map_length. destruct (Nat.eqb_spec (length data) (size dims)); [contradiction|]. reflexivity.
Qed.
Lemma beams_forall {A} (P : nat -> Prop) (l : list A) :
  Forall (fun q => P (fst q)) (combine (seq 0 (length l)) l) <-> (forall b, (b < length l)%nat -> P b).
Proof.
  rewrite Forall_forall. split.
  - intros H b HB. destruct (nth_error l b) as [x|] eqn:E; [|apply nth_error_None in E; lia].
    apply (H (b, x)). apply (nth_error_In _ b). apply (combine_seq_nth l 0 b x E).
  - intros H q I. apply combine_seq_in in I. apply H. lia.
Qed.
Lemma beam_can_all f : fa_beams f <> [] -> (forall b, (b < length (fa_beams f))%nat -> beam_can f b) <-> common_can f.
Proof.
  intros N. unfold beam_can, common_can. split.
  - intros H. assert (L : (0 < length (fa_beams f))%nat) by (destruct (fa_beams f); [congruence|cbn; lia]).
    destruct (H (length (fa_beams f) - 1)%nat ltac:(lia)) as (H1 & H2 & H3 & H4 & H5 & H6 & H7). repeat (split; [assumption || lia|]). assumption.
  - intros (H1 & H2 & H3 & H4 & H5 & H6 & H7) b HB. repeat (split; [assumption || lia|]). assumption.
Qed.
Lemma samples_can_all f : fa_beams f <> [] -> (forall b, (b < length (fa_beams f))%nat -> samples_can f b) <->
  exists na ns nb n, fa_dims f = [na; ns; nb; n] /\ (length (fa_beams f) <= nb)%nat /\ (na = 0%nat \/ fa_sequences f <= Z.of_nat ns).
Proof.
  intros N. assert (L : (0 < length (fa_beams f))%nat) by (destruct (fa_beams f); [congruence|cbn; lia]). split.
  - intros H. destruct (H (length (fa_beams f) - 1)%nat ltac:(lia)) as (na & ns & nb & n & D & B & Q). exists na, ns, nb, n. repeat split; auto. lia.
  - intros (na & ns & nb & n & D & B & Q) b HB. exists na, ns, nb, n. repeat split; auto. lia.
Qed.
Lemma lags_can_all f : fa_beams f <> [] -> (forall b, (b < length (fa_beams f))%nat -> lags_can f b) <->
  exists nb nr nl, fa_dims f = [nb; nr; nl] /\ (length (fa_beams f) <= nb)%nat /\ nl <> 0%nat.
Proof.
  intros N. assert (L : (0 < length (fa_beams f))%nat) by (destruct (fa_beams f); [congruence|cbn; lia]). split.
  - intros H. destruct (H (length (fa_beams f) - 1)%nat ltac:(lia)) as (nb & nr & nl & D & B & Q). exists nb, nr, nl. repeat split; auto. lia.
  - intros (nb & nr & nl & D & B & Q) b HB. exists nb, nr, nl. repeat split; auto. lia.
Qed.

(** The records of one record: success if and only if [can], then one for each beam. *)
Definition plain_layout (r : record) : Prop := exists l, layout r = map (fun p => (fst p, Some (snd p))) l.
Definition beam_records (x : res (list record)) (f : facts) : Prop :=
  forall ls, x = Ok ls -> length ls = length (fa_beams f) /\ Forall plain_layout ls.

Lemma mapM_records (g : nat * Z -> res record) l (P : record -> Prop) ls : (forall q raw, g q = Ok raw -> P raw) -> mapM g l = Ok ls ->
  length ls = length l /\ Forall P ls.
Proof.
  intros H E. apply mapM_inv in E. induction E as [|q raw l ls E1 E IH]; [split; [reflexivity|constructor]|].
  destruct IH as [IH1 IH2]. split; [cbn; lia|]. constructor; [eapply H; exact E1|exact IH2].
Qed.

Lemma known_hash t r f : passes t r -> common_says r f -> tagged (fa_hash f) \/ untagged (fa_hash f).
Proof.
  intros ((h & tau & len & pulses & blanked & [TH _ _ _ _] & _ & V) & _) C. now rewrite (text_unique _ _ _ _ (sy_hash _ _ C) TH).
Qed.

Lemma bfiq_record_sure scale_iq ctime sid key r origin k f : passes Bfiq r -> bfiq_says r f ->
  sure (convert_bfiq_record scale_iq ctime sid (key, r) origin k) (can Bfiq f) /\
  beam_records (convert_bfiq_record scale_iq ctime sid (key, r) origin k) f.
Proof.
  intros PA S. pose proof S as (C & (t & n & nms & DA & TA) & ISA & INR & DD & LD & DS & NS).
  pose proof (known_hash _ _ _ PA C) as TG. destruct (version_sure _ TG (sy_version _ _ C)) as (v & EV & _).
  destruct (integer_ok _ _ ISA) as (samps & ESA). destruct (sy_norm _ _ C) as (norm & FN).
  destruct DS as [[_ X]|(shape & data & DE & SZ)]; [contradiction|].
  unfold convert_bfiq_record. rewrite (dict_item_get _ _ _ DD). cbn [rbind].
  destruct (shaped_sure r _ (str "data") _ _ shape data DD DD DE) as [[L ES]|[L ES]]; rewrite ES; cbn [rbind].
  2:{ split; [|intros ls H; discriminate H]. apply sure_raise; [discriminate|]. intros [F _]. rewrite SZ in F. inversion F. contradiction. }
  rewrite (get_float_ok _ _ _ _ FN eq_refl). cbn [rbind]. cbv zeta. unfold s_hash. rewrite (get_text_ok _ _ _ (sy_hash _ _ C)). cbn [rbind].
  rewrite EV. cbn [rbind]. rewrite (first_length_ok _ _ _ _ _ DA), ESA. cbn [rbind]. unfold beams_of.
  rewrite (get_vector_ok _ _ _ _ (sy_beams _ _ C) eq_refl). cbn [rbind fst snd]. split.
  - eapply sure_iff.
    + apply (sure_mapM _ (fun q => samples_can f (fst q) /\ beam_can f (fst q))). intros q _. now apply iqdat_sure.
    + rewrite (beams_forall (fun b => samples_can f b /\ beam_can f b)). unfold can. rewrite SZ.
      assert (Z : Forall (fun m => m = size (fa_dims f)) [length data]) by (constructor; auto).
      destruct (fa_beams f) as [|b0 bs] eqn:EBM.
      { split; [intros _; auto|]. intros _ b HB. cbn in HB. lia. }
      rewrite <- EBM. assert (N : fa_beams f <> []) by congruence. rewrite <- (samples_can_all f N), <- (beam_can_all f N).
      split; [intros H; split; [exact Z|right; split; intros b HB; apply (H b HB)]|].
      intros [_ [X|[H1 H2]]] b HB; [congruence|]. split; [apply H2|apply H1]; exact HB.
  - intros ls H. apply (mapM_records _ _ plain_layout) in H.
    + rewrite combine_length, seq_length, Nat.min_id in H. exact H.
    + intros q raw E. cbn beta in E. exists iqdat_types. eapply iqdat_record_layout. exact E.
Qed.

Lemma shaped_if_sure r dk k dims d l : dimensions r dk dims -> dict_get r dk = Some d -> data_size r k l ->
  sure (shaped_if r d k) (Forall (fun n => n = size dims) l) /\
  (forall x, shaped_if r d k = Ok x -> match x with Some y => l <> [] /\ fst y = dims | None => l = [] end).
Proof.
  intros D ED [[E ->]|(shape & data & E & ->)]; unfold shaped_if; rewrite E.
  - split; [apply sure_ok; constructor|]. intros x H. now apply ok_inj in H as <-.
  - destruct (shaped_sure r dk k dims d shape data D ED E) as [[L ES]|[L ES]]; rewrite ES; cbn [rbind].
    + split; [apply sure_ok; constructor; auto|]. intros x H. apply ok_inj in H as <-. split; [discriminate|reflexivity].
    + split; [apply sure_raise; [discriminate|]; intros F; inversion F; contradiction|]. intros x H. discriminate H.
Qed.

Lemma rawacf_record_sure scale_acf power ctime sid key r origin k f : passes BRawacf r -> rawacf_says r f ->
  sure (convert_rawacf_record scale_acf power ctime sid (key, r) origin k) (can BRawacf f) /\
  beam_records (convert_rawacf_record scale_acf power ctime sid (key, r) origin k) f.
Proof.
  intros PA (C & DD & LD & (main & intf & xcfs & DM & NM & DI & DX & FX & SZ) & TX).
  pose proof (known_hash _ _ _ PA C) as TG. destruct (version_sure _ TG (sy_version _ _ C)) as (v & EV & _).
  destruct (sy_norm _ _ C) as (norm & FN).
  assert (DK : exists dk d, dimensions r dk (fa_dims f) /\ dict_get r dk = Some d /\
    match dict_get r (str "correlation_dimensions") with
    | Some d => Ok d
    | None => match dict_get r (str "data_dimensions") with Some d => Ok d | None => Raise OutOfModel end
    end = Ok d).
  { destruct DD as [D|[N D]]; pose proof D as D'; unfold dimensions in D'.
    - do 2 eexists. split; [exact D|]. split; [exact D'|]. rewrite D'. reflexivity.
    - do 2 eexists. split; [exact D|]. split; [exact D'|]. rewrite N, D'. reflexivity. }
  destruct DK as (dk & d & DD' & ED & EK). clear DD.
  unfold convert_rawacf_record. rewrite EK. clear EK. cbn [rbind]. rewrite (get_float_ok _ _ _ _ FN eq_refl). cbn [rbind]. cbv zeta.
  destruct DM as [[_ X]|(shape & data & DE & ->)]; [contradiction|].
  unfold can. rewrite SZ.
  destruct (shaped_sure r dk (str "main_acfs") _ d shape data DD' ED DE) as [[L ES]|[L ES]]; rewrite ES; cbn [rbind].
  2:{ split; [|intros ls H; discriminate H]. apply sure_raise; [discriminate|]. intros [F _]. inversion F. contradiction. }
  destruct (shaped_if_sure r dk (str "intf_acfs") _ d _ DD' ED DI) as [SI _].
  destruct (shaped_if_sure r dk (str "xcfs") _ d _ DD' ED DX) as [SX HX].
  assert (AC : sure (shaped_if r d (str "intf_acfs")) (Forall (fun n => n = size (fa_dims f)) intf)) by exact SI.
  destruct SI as [[(xi & EI) FI]|[(e & EI & NE) FI]]; rewrite EI; cbn [rbind].
  2:{ split; [|intros ls H; discriminate H]. apply sure_raise; [exact NE|]. intros [F _]. apply FI. apply Forall_inv_tail in F. now apply Forall_app in F. }
  destruct SX as [[(x & EX) FXX]|[(e & EX & NE) FXX]]; rewrite EX; cbn [rbind].
  2:{ split; [|intros ls H; discriminate H]. apply sure_raise; [exact NE|]. intros [F _]. apply FXX. apply Forall_inv_tail in F. now apply Forall_app in F. }
  specialize (HX _ EX). unfold s_hash. rewrite (get_text_ok _ _ _ (sy_hash _ _ C)). cbn [rbind]. rewrite EV. cbn [rbind]. unfold beams_of.
  rewrite (get_vector_ok _ _ _ _ (sy_beams _ _ C) eq_refl). cbn [rbind fst snd].
  assert (FT : fa_xcfs f = true <-> x <> None). { rewrite FX. destruct x as [y|]; [destruct HX; split; congruence|]. split; congruence. }
  assert (FA : Forall (fun n => n = size (fa_dims f)) ([length data] ++ intf ++ xcfs)).
  { apply Forall_app. split; [constructor; auto|]. now apply Forall_app. }
  split.
  - eapply sure_iff.
    + apply (sure_mapM _ (fun q => lags_can f (fst q) /\ beam_can f (fst q) /\
        match x with Some y => Some (map (scale_acf norm k) (snd y)) | None => None end <> None)). intros q _. now apply rawacf_sure.
    + rewrite (beams_forall (fun b => lags_can f b /\ beam_can f b /\
        match x with Some y => Some (map (scale_acf norm k) (snd y)) | None => None end <> None)).
      assert (XN : match x with Some y => Some (map (scale_acf norm k) (snd y)) | None => None end <> None <-> fa_xcfs f = true).
      { rewrite FT. destruct x; split; congruence. }
      destruct (fa_beams f) as [|b0 bs] eqn:EBM.
      { split; [intros _; auto|]. intros _ b HB. cbn in HB. lia. }
      rewrite <- EBM. assert (N : fa_beams f <> []) by congruence. rewrite <- (lags_can_all f N), <- (beam_can_all f N).
      assert (P0 : (0 < length (fa_beams f))%nat) by (rewrite EBM; cbn; lia).
      split.
      * intros H. split; [exact FA|]. right. split; [intros b HB; apply (H b HB)|]. split; [apply XN; apply (H 0%nat P0)|]. intros b HB. apply (H b HB).
      * intros [_ [X|(H1 & H2 & H3)]] b HB; [congruence|]. split; [apply H3; exact HB|]. split; [apply H1; exact HB|]. now apply XN.
  - intros ls H. apply (mapM_records _ _ plain_layout) in H.
    + rewrite combine_length, seq_length, Nat.min_id in H. exact H.
    + intros q raw E. cbn beta in E. exists rawacf_written. rewrite (rawacf_record_layout _ _ _ _ _ _ _ _ _ _ _ _ _ E). reflexivity.
Qed.

(** ** All records *)

Lemma plain_record2dmap r l : layout r = map (fun p => (fst p, Some (snd p))) l -> exists r', Conversions.record2dmap r = Ok r'.
Proof.
  revert l. induction r as [|[k it] r IH]; intros l H; [eexists; reflexivity|]. destruct l as [|p l]; [discriminate|].
  cbn [layout map fst snd] in H. injection H as H1 H2 H3. destruct (IH _ H3) as (r' & E'). cbn [Conversions.record2dmap].
  destruct it as [s|a|v]; try discriminate. cbn [plain_format] in H2.
  assert (X : exists y, Conversions.field2dmap k (IPlain v) = Ok y).
  { destruct v; cbn [Conversions.field2dmap Conversions.value_format] in *; try discriminate; eauto.
    unfold Conversions.array_item. rewrite H2. eauto. }
  destruct X as (y & EY). rewrite EY. cbn [rbind]. rewrite E'. cbn [rbind]. eauto.
Qed.
Lemma plain_dict2dmap ls : Forall plain_layout ls -> exists out, Conversions.dict2dmap ls = Ok out /\ length out = length ls.
Proof.
  induction 1 as [|r ls (l & L) F (out & E & N)]; [exists []; auto|]. destruct (plain_record2dmap _ _ L) as (r' & E').
  exists (r' :: out). cbn [Conversions.dict2dmap]. rewrite E'. cbn [rbind]. rewrite E. cbn [rbind]. split; [reflexivity|cbn; lia].
Qed.

Lemma convert_all_sure t g rs fs : Forall2 (fun p f => sure (g p) (can t f) /\ beam_records (g p) f) rs fs ->
  (Forall (can t) fs -> exists recs, convert_all g rs = Ok recs /\ length recs = total_beams fs) /\
  (~ Forall (can t) fs -> exists e, convert_all g rs = Raise e /\ e <> OutOfModel).
Proof.
  intros H. unfold convert_all.
  assert (M : sure (mapM g rs) (Forall (can t) fs) /\
    (forall lss, mapM g rs = Ok lss -> Forall plain_layout (concat lss) /\ length (concat lss) = total_beams fs)).
  { induction H as [|p f rs fs [S B] H [IH1 IH2]]; cbn [mapM].
    - split; [apply sure_ok; constructor|]. intros lss E. apply ok_inj in E as <-. split; [constructor|reflexivity].
    - split.
      + eapply sure_iff; [apply (sure_bind (g p) _ (can t f) (Forall (can t) fs) S); intros ls _ _|].
        * eapply sure_iff; [apply (sure_bind (mapM g rs) _ (Forall (can t) fs) True IH1); intros; now apply sure_ok|tauto].
        * split; [intros []; now constructor|]. intros F. inversion F; auto.
      + intros lss E. apply rbind_ok in E as (ls & E1 & E). apply rbind_ok in E as (lss' & E2 & E). apply ok_inj in E as <-.
        destruct (B _ E1) as [L1 P1]. destruct (IH2 _ E2) as [P2 L2]. cbn [concat total_beams fold_right]. split.
        * apply Forall_app. auto.
        * rewrite app_length. unfold total_beams in L2. lia. }
  destruct M as [S B]. split.
  - intros F. destruct S as [[(lss & E) _]|[_ N]]; [|contradiction]. rewrite E. cbn [rbind]. destruct (B _ E) as [P L].
    destruct (plain_dict2dmap _ P) as (out & EO & LO). exists out. split; [exact EO|lia].
  - intros F. destruct S as [[_ Y]|[(e & E & N) _]]; [contradiction|]. rewrite E. cbn [rbind]. eauto.
Qed.
Lemma wrap_raise {A} e e' : e' <> OutOfModel -> wrap_convert e (@Raise A e') = Raise e.
Proof. destruct e'; cbn; congruence. Qed.
Lemma converted_sure scale_iq scale_acf power ctime t sid rs origin k fs : t = Bfiq \/ t = BRawacf ->
  Forall (fun p => passes t (snd p)) rs -> Forall2 (fun p f => says t (snd p) f) rs fs ->
  (Forall (can t) fs -> exists recs, converted_records scale_iq scale_acf power ctime t sid rs origin k = Ok recs /\ length recs = total_beams fs) /\
  (~ Forall (can t) fs -> converted_records scale_iq scale_acf power ctime t sid rs origin k = Raise (convert_error t)).
Proof.
  intros HT P S. pose proof (passes_all t rs HT P) as CA.
  destruct HT as [-> | ->]; cbn [check_all converted_records convert_error] in *; rewrite CA; cbn [rbind]; clear CA.
  - destruct (convert_all_sure Bfiq (fun p => convert_bfiq_record scale_iq ctime sid p origin k) rs fs) as [H1 H2].
    { induction S as [|[key r] f rs fs S1 S IH]; constructor; inversion P; subst; cbn [snd] in *; auto. now apply bfiq_record_sure. }
    split; [intros F; destruct (H1 F) as (recs & E & L); exists recs; rewrite E; auto|].
    intros F. destruct (H2 F) as (e & E & N). rewrite E. now apply wrap_raise.
  - destruct (convert_all_sure BRawacf (fun p => convert_rawacf_record scale_acf power ctime sid p origin k) rs fs) as [H1 H2].
    { induction S as [|[key r] f rs fs S1 S IH]; constructor; inversion P; subst; cbn [snd] in *; auto. now apply rawacf_record_sure. }
    split; [intros F; destruct (H1 F) as (recs & E & L); exists recs; rewrite E; auto|].
    intros F. destruct (H2 F) as (e & E & N). rewrite E. now apply wrap_raise.
Qed.

(** ** Files *)

Lemma fault_check1 t r e : t = Bfiq \/ t = BRawacf -> check_fault t r e -> check1 t r = Raise e.
Proof.
  intros HT F. unfold check1. destruct F as [h p b T|h tau p b T N|h tau len p b T L V1 V2|CK NB|l ET CK WB PL NZ|ET CK WB PT]; try subst t.
  - unfold normal_blanking, sample_spacing. pose proof T as [_ TT TL _ _].
    rewrite (get_int_ok _ _ _ _ TT eq_refl), (get_int_ok _ _ _ _ TL eq_refl). reflexivity.
  - unfold normal_blanking, sample_spacing. pose proof T as [_ TT TL _ _].
    rewrite (get_int_ok _ _ _ _ TT eq_refl), (get_int_ok _ _ _ _ TL eq_refl). cbn [rbind]. change (0 =? 0) with true. cbv match.
    destruct (Z.eqb_spec tau 0); [contradiction|]. reflexivity.
  - unfold normal_blanking, sample_spacing, s_hash. pose proof T as [TH TT TL _ _].
    rewrite (get_int_ok _ _ _ _ TT eq_refl), (get_int_ok _ _ _ _ TL eq_refl). cbn [rbind].
    destruct (Z.eqb_spec len 0); [lia|]. cbn [rbind]. rewrite (get_text_ok _ _ _ TH). cbn [rbind].
    rewrite (no_revisions h V1 V2). reflexivity.
  - destruct (checkable_blanking _ CK) as (b & EB & HB). rewrite EB. cbn [rbind]. destruct b; [destruct NB; now apply HB|reflexivity].
  - destruct (checkable_blanking _ CK) as (b & EB & HB). rewrite EB. cbn [rbind]. assert (b = true) as -> by now apply HB. cbn [negb].
    destruct (no_phases_ok _ _ PL) as [EP HZ]. rewrite EP. cbn [rbind]. destruct (forallb zero32 l); [destruct NZ; now apply HZ|reflexivity].
  - destruct (checkable_blanking _ CK) as (b & EB & HB). rewrite EB. cbn [rbind]. assert (b = true) as -> by now apply HB. cbn [negb].
    destruct PT as (n & w & data & E & L). rewrite (phases_matrix _ _ _ _ E L). reflexivity.
Qed.
Lemma check_all_fault t pre key r post e : t = Bfiq \/ t = BRawacf -> Forall (fun p => passes t (snd p)) pre -> check_fault t r e ->
  check_all t (pre ++ (key, r) :: post) = Raise e.
Proof.
  intros HT P F. induction P as [|[key' r'] pre HP P IH]; cbn [app]; rewrite check_all_cons by exact HT.
  - now rewrite (fault_check1 _ _ _ HT F).
  - cbn [snd] in HP. rewrite (passes_check1 _ _ HT HP). exact IH.
Qed.
Lemma converted_fault scale_iq scale_acf power ctime t sid pre key r post e origin k : t = Bfiq \/ t = BRawacf ->
  Forall (fun p => passes t (snd p)) pre -> check_fault t r e ->
  converted_records scale_iq scale_acf power ctime t sid (pre ++ (key, r) :: post) origin k = Raise e.
Proof.
  intros HT P F. pose proof (check_all_fault t pre key r post e HT P F) as C.
  destruct HT as [-> | ->]; cbn [check_all converted_records] in *; rewrite C; reflexivity.
Qed.
Lemma dichotomy t (rs : brecords) : t = Bfiq \/ t = BRawacf -> Forall (fun p => checked_kind t (snd p)) rs ->
  Forall (fun p => passes t (snd p)) rs \/
  exists pre key r post e, rs = pre ++ (key, r) :: post /\ Forall (fun p => passes t (snd p)) pre /\ check_fault t r e.
Proof.
  intros HT H. destruct (check_all_cases t rs HT H) as [[A _]|(pre & key & r & post & e & E & A & B & _)]; [now left|right].
  exists pre, key, r, post, e. auto.
Qed.
Lemma fault_unique t r e e' : t = Bfiq \/ t = BRawacf -> check_fault t r e -> check_fault t r e' -> e = e'.
Proof. intros HT A B. apply (fault_check1 _ _ _ HT) in A, B. congruence. Qed.

Lemma sdarn_types t sd : sdarn_type t = Some sd -> t = Bfiq \/ t = BRawacf.
Proof. destruct t; try discriminate; auto. Qed.

Section Files.
Variables (scale_iq scale_acf : Z -> Z -> Z * Z -> Z * Z) (power : Z * Z -> Z) (ctime : Z -> pystr).
Variables (hf : hfs) (fs : fsys) (fn ft sfn : pystr) (sid : option Z) (st : option pystr) (k : Z).
Let conversion := borealis_convert scale_iq scale_acf power ctime hf fs fn ft sfn sid st k.

Lemma convert_read_error e : borealis_read hf fn ft st = Raise e -> conversion = (fs, Raise e).
Proof. intros E. unfold conversion, borealis_convert. rewrite E. reflexivity. Qed.
Lemma convert_records_error rd e : borealis_read hf fn ft st = Ok rd -> reader_records rd = Raise e -> conversion = (fs, Raise e).
Proof. intros E E'. unfold conversion, borealis_convert. rewrite E. cbn [rbind]. rewrite E'. reflexivity. Qed.
Lemma convert_slice_error rd rs e : borealis_read hf fn ft st = Ok rd -> reader_records rd = Ok rs -> find_slice_id rs sid = Raise e ->
  conversion = (fs, Raise e).
Proof. intros E E' E2. unfold conversion, borealis_convert. rewrite E. cbn [rbind]. rewrite E'. cbn [rbind]. rewrite E2. reflexivity. Qed.

Variables (rd : reader) (rs : brecords) (i : Z) (t : filetype) (sd : sd_type).
Hypothesis HR : borealis_read hf fn ft st = Ok rd.
Hypothesis HS : reader_records rd = Ok rs.
Hypothesis HI : find_slice_id rs sid = Ok i.
Hypothesis HT : filetype_of ft = Some t.
Hypothesis HD : sdarn_type t = Some sd.
Hypothesis HN : fn <> sfn.

Lemma convert_is : conversion =
  match converted_records scale_iq scale_acf power ctime t i rs fn k with
  | Ok recs => write_to_sdarn sd fs recs sfn
  | Raise e => (fs, Raise e)
  end.
Proof.
  unfold conversion, borealis_convert. rewrite HR. cbn [rbind]. rewrite HS. cbn [rbind]. rewrite HI. cbn [rbind]. rewrite HT, HD.
  apply str_eqb_neq in HN. rewrite HN. destruct (converted_records _ _ _ _ _ _ _ _ _); reflexivity.
Qed.
Lemma convert_fault pre key r post e : rs = pre ++ (key, r) :: post -> Forall (fun p => passes t (snd p)) pre -> check_fault t r e ->
  conversion = (fs, Raise e).
Proof. intros E P F. rewrite convert_is, E. rewrite (converted_fault _ _ _ _ _ _ _ _ _ _ _ _ _ (sdarn_types _ _ HD) P F). reflexivity. Qed.
Lemma convert_outcome fa : Forall (fun p => passes t (snd p)) rs -> Forall2 (fun p f => says t (snd p) f) rs fa ->
  (~ Forall (can t) fa -> conversion = (fs, Raise (convert_error t))) /\
  (Forall (can t) fa -> (forall f, In f fa -> fa_beams f = []) -> conversion = (fs, Raise DmapDataError)) /\
  (Forall (can t) fa -> (exists f, In f fa /\ fa_beams f <> []) ->
     exists recs, converted_records scale_iq scale_acf power ctime t i rs fn k = Ok recs /\ recs <> [] /\ length recs = total_beams fa /\
       conversion = (snd (sd_write sd fs (Conversions.mk_writer sfn recs []) sfn), fst (fst (sd_write sd fs (Conversions.mk_writer sfn recs []) sfn)))).
Proof.
  intros P S. destruct (converted_sure scale_iq scale_acf power ctime t i rs fn k fa (sdarn_types _ _ HD) P S) as [H1 H2].
  split; [intros F; rewrite convert_is, (H2 F); reflexivity|]. split.
  - intros F N. destruct (H1 F) as (recs & E & L). rewrite convert_is, E.
    assert (total_beams fa = 0%nat) as T0.
    { clear - N. induction fa as [|f l IH]; [reflexivity|]. cbn [total_beams fold_right]. fold (total_beams l). rewrite (N f (or_introl eq_refl)).
      rewrite IH; [reflexivity|]. intros; apply N; now right. }
    destruct recs as [|r0 recs]; [reflexivity|]. cbn in L. lia.
  - intros F (f & I & N). destruct (H1 F) as (recs & E & L). exists recs. split; [exact E|].
    assert (total_beams fa <> 0%nat) as T0.
    { clear - I N. induction fa as [|g l IH]; [destruct I|]. cbn [total_beams fold_right]. fold (total_beams l). destruct I as [->|I].
      - destruct (fa_beams f); [congruence|cbn; lia].
      - specialize (IH I). lia. }
    assert (NE : recs <> []) by (intros ->; cbn in L; lia). split; [exact NE|]. split; [exact L|].
    rewrite convert_is, E. unfold write_to_sdarn, sd_writer_new, Conversions.writer_new.
    destruct (converted_exactly _ _ _ _ _ _ _ _ _ _ E) as [_ EX].
    assert (NF : written_fields t <> []) by (destruct t; discriminate).
    rewrite (converted_check _ _ EX NF). cbn [rbind]. unfold Conversions.empty_record_check. cbn [Conversions.wr_records].
    destruct recs as [|r0 recs]; [congruence|]. cbn [rbind]. destruct (sd_write sd fs _ sfn) as [[a b] c]. reflexivity.
Qed.
End Files.
