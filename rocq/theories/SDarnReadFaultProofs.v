(** Proofs about the failures of read_<type> (SDarnFaultSpec.darn_fault). *)
From Coq Require Import ZArith List Bool Lia.
From Verif Require Import Base Bytes BytesSpec BytesProofs DmapTypes DmapRead Conversions DmapSpec DmapReadProofs DmapFileProofs DmapStreamProofs
  DmapWriteFacts DmapFaultSpec DmapFaultProofs SDarnFormats SDarn SDarnSpec SDarnChecks SDarnProofs SDarnObjectProofs
  SDarnFileProofs SDarnFaultSpec.
Import ListNotations.
Open Scope Z_scope.

Lemma read_check_fails t r n : Forall (fun p => dmap_item (snd p)) r -> ~ acceptable t r ->
  exists e, read_checks (read_struct_list t) (read_optional_list t) r n = Raise e /\ read_check_error t r n e.
Proof.
  intros HD HN. destruct (read_error t r n HD) as (H1 & H2 & H3).
  destruct (read_not_acceptable t r n HD HN) as (e & HE & HF). exists e. split; [exact HE|].
  set (gs := read_struct_list t) in *. set (os := read_optional_list t) in *.
  pose proof (missing_iff t gs os (read_groups t) r) as EM.
  pose proof (unknown_iff t gs (read_declared t) r) as EU.
  pose proof (mistyped_iff t gs (read_declared t) r) as ET.
  unfold read_checks in HE.
  destruct (missing_field_check gs r n os) as [[]|e0] eqn:E2; cbn [rbind] in HE.
  2: { injection HE as <-. destruct (missing_fields gs (map fst r) os) as [|x l] eqn:EM0.
    - unfold missing_field_check in E2. rewrite EM0 in E2. discriminate.
    - assert (HG : g_missing gs os r x) by (apply (missing_fields_In x (map fst r) os gs); rewrite EM0; now left).
      destruct (missing_check_raise gs os r n x HG) as (l' & E3 & HI'). rewrite E2 in E3. injection E3 as ->.
      apply rce_missing.
      + intros ->. now apply HI' in HG.
      + intros k. now rewrite HI', EM. }
  assert (NM : forall k, ~ missing t r k).
  { intros k C. apply EM in C. now apply (proj1 (missing_check_ok gs os r n) E2 k). }
  assert (DU : (exists k, unknown t r k) \/ forall k, ~ unknown t r k).
  { destruct (g_unknown_dec gs r) as [(k & Hk)|HU]; [left; exists k; now apply EU|right].
    intros k C. apply (HU k). now apply EU. }
  destruct DU as [(k & Hk)|NU].
  - destruct (H2 NM (ex_intro _ k Hk)) as (l & HR & HI). unfold read_checks in HR. rewrite E2 in HR. cbn [rbind] in HR.
    rewrite HE in HR. injection HR as ->. apply rce_unknown; auto. intros ->. now apply HI in Hk.
  - assert (NG : forall k, ~ g_unknown gs r k) by (intros k C; apply (NU k); now apply EU).
    rewrite (proj2 (extra_check_ok gs (read_nonempty t) (read_nodup t) r n) NG) in HE. cbn [rbind] in HE.
    unfold incorrect_types_check in HE. rewrite (complete_concat gs (read_nodup t)) in HE.
    destruct (wrong_types_ok gs (read_nodup t) r NG HD) as (l & HW & HI). rewrite HW in HE. cbn [rbind] in HE.
    destruct l as [|x l]; [discriminate|].
    replace (0 <? zlen (x :: l)) with true in HE by (unfold zlen; cbn [length]; lia). injection HE as <-.
    apply rce_format; auto; [discriminate|]. intros k. now rewrite HI, ET.
Qed.

Lemma fault_pos B e : block_fault B e -> 0 < zlen B.
Proof.
  assert (HS : forall sz R, starts B sz R -> 0 < zlen B).
  { intros sz R HS. rewrite (starts_len _ _ _ HS). pose proof (zlen_nonneg R). lia. }
  assert (HH : forall sz ns na R, fine_header B sz ns na R -> 0 < zlen B).
  { intros sz ns na R (nsb & nab & H & _). eauto. }
  intros HF. destruct HF; eauto. lia.
Qed.

Section Files.
Variable t : sd_type.
Variable buf : bytes.
Hypothesis HM : zlen buf <= ssize_max.
Hypothesis HB : Forall is_byte buf.
Let loop := fun fuel => read_darn_loop fuel (read_struct_list t) (read_optional_list t).

Lemma darn_start bl A : wire_file bl A -> Forall (acceptable t) (recs bl) ->
  forall B k c acc n, rest buf c (A ++ B) ->
  loop (length bl + k) (mk_reader buf c acc n) =
  loop k (mk_reader buf (c + zlen A) (acc ++ recs bl) (n + zlen bl)).
Proof.
  unfold loop. intros HW. induction HW as [|b bl x xs [id Hb] HW IH]; intros HA B k c acc n HR.
  - cbn [length Nat.add recs map]. rewrite app_nil_r. unfold zlen; cbn [length]. now rewrite !Z.add_0_r.
  - cbn [recs map] in HA. inversion HA as [|r0 l0 HA1 HA2]; subst r0 l0.
    rewrite <- app_assoc in HR. apply rest_app in HR as [HO HR].
    pose proof (wire_block_len _ _ _ Hb) as HLb. pose proof (occurs_bounds _ _ _ HO) as HOB.
    cbn [length Nat.add read_darn_loop rdr_cursor rdr_buf].
    replace (c <? end_bytes buf) with true by (unfold end_bytes; lia).
    unfold read_darn_record at 1. cbn [rdr_cursor rdr_buf rdr_records rdr_rec_num]. unfold read_record.
    rewrite (bind_eq _ _ _ _ _ (read_block_occ buf c id b x HM HO Hb)). unfold ret.
    apply (read_accepts t _ n) in HA1. rewrite HA1. cbn [rdr_cursor rdr_buf rdr_records rdr_rec_num].
    rewrite (IH HA2 B k _ _ _ HR). cbn [recs map]. rewrite <- app_assoc, zlen_cons. cbn [app].
    f_equal. f_equal; [rewrite zlen_app; lia|]. lia.
Qed.

Lemma darn_block k c B e acc n : rest buf c B -> block_fault B e ->
  exists c', loop (S k) (mk_reader buf c acc n) = (Raise e, mk_reader buf c' acc n).
Proof.
  intros HR HF. unfold loop. cbn [read_darn_loop rdr_cursor rdr_buf].
  destruct (block_raises buf HM _ _ _ HB HR HF) as [c' HC].
  pose proof (fault_pos _ _ HF) as HP.
  replace (c <? end_bytes buf) with true by (unfold end_bytes; destruct HR as [_ HR]; lia).
  exists c'. unfold read_darn_record. cbn [rdr_cursor rdr_buf rdr_records rdr_rec_num]. unfold read_record.
  now rewrite (bind_raise _ _ _ _ _ HC).
Qed.

Lemma darn_check k c id b W B acc n e : rest buf c (W ++ B) -> wire_block id b W ->
  read_checks (read_struct_list t) (read_optional_list t) (record_of_fields b) n = Raise e ->
  loop (S k) (mk_reader buf c acc n) = (Raise e, mk_reader buf (c + zlen W) acc n).
Proof.
  intros HR Hb HE. unfold loop. cbn [read_darn_loop rdr_cursor rdr_buf].
  apply rest_app in HR as [HO HR].
  pose proof (wire_block_len _ _ _ Hb) as HLb. pose proof (occurs_bounds _ _ _ HO) as HOB.
  replace (c <? end_bytes buf) with true by (unfold end_bytes; lia).
  unfold read_darn_record. cbn [rdr_cursor rdr_buf rdr_records rdr_rec_num]. unfold read_record.
  rewrite (bind_eq _ _ _ _ _ (read_block_occ buf c id b W HM HO Hb)). unfold ret. now rewrite HE.
Qed.

End Files.

Lemma good_recs t A bl rs : good_start t A bl rs -> wire_file bl A /\ rs = recs bl /\ Forall (acceptable t) (recs bl).
Proof. intros (H1 & H2 & H3). apply Forall2_dict in H2. subst. auto. Qed.

Lemma recs_good t A bl : wire_file bl A -> Forall (acceptable t) (recs bl) -> good_start t A bl (recs bl).
Proof. intros H1 H2. unfold good_start. splits; auto. now apply Forall2_dict. Qed.

(** A file whose blocks are [bl], followed by something. *)
Lemma good_step t A B bl : is_bytearray (A ++ B) -> wire_file bl A -> Forall (acceptable t) (recs bl) ->
  exists k, (B <> [] -> k <> O) /\
  read_darn_records (read_struct_list t) (read_optional_list t) (mk_reader (A ++ B) 0 [] 0) =
  read_darn_loop k (read_struct_list t) (read_optional_list t) (mk_reader (A ++ B) (zlen A) (recs bl) (zlen bl)).
Proof.
  intros [HB HM] HW HA. pose proof (wire_file_len _ _ HW) as HL. unfold zlen in HL.
  exists (S (length (A ++ B)) - length bl)%nat. split; [intros HN; rewrite app_length; lia|].
  unfold read_darn_records. cbn [rdr_buf rdr_cursor rdr_records].
  replace (S (length (A ++ B))) with (length bl + (S (length (A ++ B)) - length bl))%nat at 1 by (rewrite app_length; lia).
  assert (HR : rest (A ++ B) 0 (A ++ B)) by (split; [apply occurs_all|lia]).
  rewrite (darn_start t (A ++ B) HM bl A HW HA B _ 0 [] 0 HR). now rewrite !Z.add_0_l.
Qed.

Lemma block_reported t A B bl rs e : is_bytearray (A ++ B) -> good_start t A bl rs -> block_fault B e ->
  exists c, sd_read t (mk_reader (A ++ B) 0 [] 0) = (Raise e, mk_reader (A ++ B) c rs (zlen rs)).
Proof.
  intros HA HG HF. apply good_recs in HG as (HW & -> & HC). unfold sd_read.
  destruct (good_step t A B bl HA HW HC) as (k & HK & ->).
  assert (HN : B <> []) by (intros ->; apply fault_pos in HF; cbn in HF; lia).
  destruct k as [|k]; [now specialize (HK HN)|].
  assert (HR : rest (A ++ B) (zlen A) B).
  { assert (X : rest (A ++ B) 0 (A ++ B)) by (split; [apply occurs_all|lia]). now apply rest_app in X. }
  destruct (darn_block t (A ++ B) (proj2 HA) (proj1 HA) k _ B e (recs bl) (zlen bl) HR HF) as [c ->].
  exists c. now rewrite recs_len.
Qed.

Lemma check_reported t A W B bl rs ident b r : is_bytearray (A ++ W ++ B) -> good_start t A bl rs ->
  wire_block ident b W -> dict_of_block b r -> ~ acceptable t r ->
  exists e, read_check_error t r (zlen rs) e /\
  sd_read t (mk_reader (A ++ W ++ B) 0 [] 0) = (Raise e, mk_reader (A ++ W ++ B) (zlen A + zlen W) rs (zlen rs)).
Proof.
  intros HA HG HB HD HN. apply good_recs in HG as (HW & -> & HC). unfold sd_read.
  assert (r = record_of_fields b) as -> by (eapply dict_of_block_fun; eauto; apply record_of_fields_dict).
  destruct (good_step t A (W ++ B) bl HA HW HC) as (k & HK & ->).
  pose proof (wire_block_len _ _ _ HB) as HL.
  assert (HNE : W ++ B <> []) by (intros C; apply app_eq_nil in C as [-> _]; cbn in HL; lia).
  destruct k as [|k]; [now specialize (HK HNE)|].
  assert (HR : rest (A ++ W ++ B) (zlen A) (W ++ B)).
  { assert (X : rest (A ++ W ++ B) 0 (A ++ W ++ B)) by (split; [apply occurs_all|lia]). now apply rest_app in X. }
  destruct (read_check_fails t _ (zlen bl) (recs_dmap_items b) HN) as (e & HE & HF).
  exists e. rewrite recs_len. split; [exact HF|].
  now rewrite (darn_check t (A ++ W ++ B) (proj2 HA) k _ ident b W B (recs bl) (zlen bl) e HR HB HE).
Qed.

Lemma kinds_wire bl A : is_bytearray A -> wire_file bl A -> bl <> [] -> kinds (recs bl).
Proof.
  intros HA HW HN. destruct (read_complete A bl (proj2 HA) HN HW) as (rs & HR & HD).
  apply Forall2_dict in HD. subst rs. exact (dmap_read_kind _ _ (proj1 HA) HR).
Qed.

Lemma good_read t A bl rs : is_bytearray A -> good_start t A bl rs -> bl <> [] ->
  exists ds, dmap2dict rs = Ok ds /\ dmap_read_dicts A = Ok ds /\
    sd_read t (mk_reader A 0 [] 0) = (Ok ds, mk_reader A (zlen A) rs (zlen rs)).
Proof.
  intros HA HG HN. apply good_recs in HG as (HW & -> & HC).
  destruct (dmap2dict_ok _ (kinds_wire bl A HA HW HN)) as [ds HD]. exists ds. splits; auto.
  - destruct (read_complete A bl (proj2 HA) HN HW) as (rs & HR & HD2).
    apply Forall2_dict in HD2. subst rs. unfold dmap_read_dicts. rewrite HR. exact HD.
  - unfold sd_read. rewrite <- (app_nil_r A) in HA.
    destruct (good_step t A [] bl HA HW HC) as (k & _ & HS). rewrite app_nil_r in HS. rewrite HS.
    assert (X : read_darn_loop k (read_struct_list t) (read_optional_list t) (mk_reader A (zlen A) (recs bl) (zlen bl)) =
                (Ok tt, mk_reader A (zlen A) (recs bl) (zlen bl))).
    { destruct k; cbn [read_darn_loop rdr_cursor rdr_buf]; unfold end_bytes; now rewrite Z.ltb_irrefl. }
    rewrite X. cbn [rdr_records]. now rewrite HD, recs_len.
Qed.

(** The first record that is not acceptable. *)
Lemma split_bad t bl : Forall (acceptable t) (recs bl) \/
  exists pre b post, bl = pre ++ b :: post /\ Forall (acceptable t) (recs pre) /\ ~ acceptable t (record_of_fields b).
Proof.
  induction bl as [|b bl IH]; [left; constructor|].
  destruct (acceptable_dec t (record_of_fields b)) as [HA|HA].
  - destruct IH as [IH|(pre & b0 & post & -> & H1 & H2)]; [left; constructor; auto|].
    right. exists (b :: pre), b0, post. splits; auto. constructor; auto.
  - right. exists [], b, bl. splits; auto. constructor.
Qed.

Lemma wire_file_split pre b post A : wire_file (pre ++ b :: post) A ->
  exists A1 id W A2, A = A1 ++ W ++ A2 /\ wire_file pre A1 /\ wire_block id b W.
Proof.
  revert A. induction pre as [|x pre IH]; intros A H; inversion H as [|? ? ? ? Hb HW]; subst.
  - destruct Hb as [id Hb]. exists [], id. eexists _, _. splits; [reflexivity|constructor|exact Hb].
  - destruct (IH _ HW) as (A1 & id & W & A2 & -> & H1 & H2).
    exists (b0 ++ A1), id, W, A2. splits; [now rewrite !app_assoc|constructor; auto|exact H2].
Qed.

Lemma darn_total t buf : is_bytearray buf -> ~ negative_slist buf -> buf <> [] ->
  (exists bl rs, bl <> [] /\ good_start t buf bl rs) \/ exists rs e, darn_fault t buf rs e.
Proof.
  intros HA HN HE.
  assert (X : exists bl A B, buf = A ++ B /\ wire_file bl A /\ ((B = [] /\ bl <> []) \/ exists e, block_fault B e)).
  { destruct (file_total buf (proj1 HA) HN) as [(bl & H1 & H2)|[e HF]].
    - exists bl, buf, []. rewrite app_nil_r. auto.
    - destruct HF as [|bl A B e HW HF]; [contradiction|]. exists bl, A, B. splits; eauto. }
  destruct X as (bl & A & B & -> & HW & HX).
  destruct (split_bad t bl) as [HC|(pre & b & post & -> & H1 & H2)].
  - destruct HX as [[-> HX]|[e HX]].
    + left. rewrite app_nil_r. exists bl, (recs bl). split; auto. now apply recs_good.
    + right. exists (recs bl), e. apply (df_block t A B bl); auto. now apply recs_good.
  - right. destruct (wire_file_split _ _ _ _ HW) as (A1 & id & W & A2 & -> & H3 & H4).
    destruct (read_check_fails t _ (zlen (recs pre)) (recs_dmap_items b) H2) as (e & _ & HF).
    exists (recs pre), e. rewrite <- !app_assoc.
    apply (df_check t A1 W (A2 ++ B) pre (recs pre) id b (record_of_fields b)); auto.
    + now apply recs_good.
    + apply record_of_fields_dict.
Qed.

Lemma darn_outcome t fs src rd : sd_reader_init fs src = Ok rd ->
  is_bytearray (rdr_buf rd) -> ~ negative_slist (rdr_buf rd) ->
  match sd_read t rd with
  | (Ok ds, rd') => (exists bl, good_start t (rdr_buf rd) bl (rdr_records rd')) /\
      dmap2dict (rdr_records rd') = Ok ds /\ dmap_read_dicts (rdr_buf rd) = Ok ds
  | (Raise e, rd') => darn_fault t (rdr_buf rd) (rdr_records rd') e /\ rdr_rec_num rd' = zlen (rdr_records rd')
  end.
Proof.
  intros HI HA HN. destruct (init_fresh _ _ _ HI) as [-> HZ]. cbn [rdr_buf] in *.
  assert (HE : rdr_buf rd <> []) by (intros C; rewrite C in HZ; now apply HZ).
  destruct (darn_total t _ HA HN HE) as [(bl & rs & H1 & H2)|(rs & e & HF)].
  - destruct (good_read t _ bl rs HA H2 H1) as (ds & D1 & D2 & ->). cbn [rdr_records]. eauto.
  - remember (rdr_buf rd) as buf. clear - HA HF.
    destruct HF as [A B bl rs e HG HF|A W B bl rs id b r e HG HB HD HX HF].
    + destruct (block_reported t A B bl rs e HA HG HF) as [c ->]. cbn [rdr_records rdr_rec_num]. split; auto.
      apply (df_block t A B bl); auto.
    + destruct (check_reported t A W B bl rs id b r HA HG HB HD HX) as (e' & HF' & ->).
      cbn [rdr_records rdr_rec_num]. split; auto. apply (df_check t A W B bl rs id b r); auto.
Qed.
