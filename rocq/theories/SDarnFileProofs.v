(** Lemmas about whole files and objects of superdarn.py. *)
From Coq Require Import ZArith List Bool Lia Permutation.
From Verif Require Import Base Bytes BytesSpec BytesProofs FloatBits DmapTypes DmapRead DmapWrite Conversions
  DmapSpec DmapReadProofs DmapFileProofs DmapStreamProofs DmapWriteSpec DmapWriteProofs DmapWriterProofs
  DmapWriteFacts DmapObjectProofs DmapConvProofs
  SDarnFormats SDarn SDarnSpec SDarnChecks SDarnProofs SDarnObjectProofs.
Import ListNotations.
Open Scope Z_scope.

(** ** Reading *)

Definition kinds (rs : list record) : Prop :=
  Forall (fun r : record => Forall (fun p => item_kind (snd p)) r) rs.

Lemma init_fresh fs src rd : sd_reader_init fs src = Ok rd ->
  rd = mk_reader (rdr_buf rd) 0 [] 0 /\ zlen (rdr_buf rd) <> 0.
Proof.
  unfold sd_reader_init, dmap_reader_init, reader_new. intros H.
  destruct src as [name|content].
  - destruct (fs name) as [content|]; [|discriminate]. destruct (zlen content =? 0) eqn:E; [discriminate|].
    injection H as <-. cbn [rdr_buf]. split; [reflexivity|lia].
  - destruct (zlen content =? 0) eqn:E; [discriminate|].
    injection H as <-. cbn [rdr_buf]. split; [reflexivity|lia].
Qed.

Lemma read_reads buf rs : Forall is_byte buf -> dmap_read buf = Ok rs ->
  exists bl, reads buf 0 bl (zlen buf) /\ rs = recs bl /\ kinds rs.
Proof.
  intros HB H. pose proof (dmap_read_kind _ _ HB H) as HK. rewrite dmap_read_trace in H.
  destruct (dmap_read_fields buf) as [bl|e] eqn:E; [|discriminate]. apply ok_inj in H as <-.
  destruct (fields_reads _ _ E) as (c & HR & ->). exists bl. auto.
Qed.

Lemma sd_read_step t buf c acc n BL :
  0 <= c -> reads buf c BL (zlen buf) -> kinds (acc ++ recs BL) ->
  (Forall (acceptable t) (recs BL) /\ exists ds, dmap2dict (acc ++ recs BL) = Ok ds /\
     sd_read t (mk_reader buf c acc n) = (Ok ds, mk_reader buf (zlen buf) (acc ++ recs BL) (zlen BL))) \/
  (exists pre b post e c1, BL = pre ++ b :: post /\ Forall (acceptable t) (recs pre) /\
     ~ acceptable t (record_of_fields b) /\ field_error e (zlen pre) /\
     read_checks (read_struct_list t) (read_optional_list t) (record_of_fields b) (zlen pre) = Raise e /\
     sd_read t (mk_reader buf c acc n) = (Raise e, mk_reader buf c1 (acc ++ recs pre) (zlen pre)) /\
     0 <= c1 /\ reads buf c1 post (zlen buf)).
Proof.
  intros H0 HR HK. unfold sd_read.
  destruct (darn_records_full t (mk_reader buf c acc n) BL (zlen buf)) as [(H1 & H2)|(pre & b & post & e & c1 & H1 & H2 & H3 & H4 & H5 & H6 & H7)];
    cbn [rdr_buf rdr_cursor rdr_records] in *; auto; try lia.
  - left. split; auto. destruct (dmap2dict_ok _ HK) as (ds & HD). exists ds. split; auto.
    rewrite H2. cbn [rdr_records]. now rewrite HD.
  - right. exists pre, b, post, e, c1. rewrite H5. splits; auto.
    destruct (read_not_acceptable t _ (zlen pre) (recs_dmap_items b) H3) as (e' & HE & HF). congruence.
Qed.

Lemma recs_app a b : recs (a ++ b) = recs a ++ recs b.
Proof. apply map_app. Qed.
Lemma recs_len a : zlen (recs a) = zlen a.
Proof. unfold zlen, recs. now rewrite map_length. Qed.

Lemma app_at {A} (a b : list A) x y c d P :
  a ++ x :: b = c ++ y :: d -> Forall P a -> Forall P c -> ~ P x -> ~ P y -> a = c /\ x = y /\ b = d.
Proof.
  revert c; induction a as [|a0 a IH]; intros [|c0 c] H HA HC HX HY; cbn [app] in H; injection H; intros; subst; auto.
  - inversion HC; tauto.
  - inversion HA; tauto.
  - inversion HA; inversion HC; subst. destruct (IH c) as (-> & -> & ->); auto.
Qed.

(** All calls with one type on one fresh object. *)
Lemma sd_read_retry t buf rs good m : kept t rs good m -> forall BL c acc n,
  rs = recs BL -> 0 <= c -> reads buf c BL (zlen buf) -> kinds (acc ++ recs BL) ->
  (forall k, (k < m)%nat -> exists e j,
     fst (sd_read t (iterate k (fun r => snd (sd_read t r)) (mk_reader buf c acc n))) = Raise e /\ field_error e j) /\
  (exists ds, dmap2dict (acc ++ good) = Ok ds /\
     fst (sd_read t (iterate m (fun r => snd (sd_read t r)) (mk_reader buf c acc n))) = Ok ds).
Proof.
  revert rs good. induction m as [|m IH]; intros rs good HK BL c acc n -> H0 HR HKi.
  - split; [intros; lia|]. cbn [iterate].
    assert (HG : good = recs BL /\ Forall (acceptable t) (recs BL)).
    { remember 0%nat as z eqn:Ez. clear - HK Ez. induction HK as [|r rs good n HA HK IH|]; try discriminate; auto.
      destruct (IH Ez) as [-> ?]. auto. }
    destruct HG as [-> HA].
    destruct (sd_read_step t buf c acc n BL H0 HR HKi) as [(_ & ds & HD & HS)|(pre & b & post & e & c1 & -> & _ & HN & _)].
    + exists ds. split; auto. now rewrite HS.
    + exfalso. rewrite recs_app in HA. apply Forall_app in HA as [_ HA]. inversion HA; tauto.
  - assert (HG : exists pre r post good', recs BL = pre ++ r :: post /\ Forall (acceptable t) pre /\
       ~ acceptable t r /\ good = pre ++ good' /\ kept t post good' m).
    { remember (S m) as z eqn:Ez. clear - HK Ez.
      induction HK as [|r rs good n HA HK IH|r rs good n HA HK IH]; try discriminate.
      - destruct (IH Ez) as (pre & r0 & post & good' & -> & H1 & H2 & -> & H3).
        exists (r :: pre), r0, post, good'. splits; auto.
      - injection Ez as ->. exists [], r, rs, good. splits; auto. }
    destruct HG as (pre' & r & post' & good' & HE & HA & HN & -> & HK').
    destruct (sd_read_step t buf c acc n BL H0 HR HKi) as [(HA' & _)|(pre & b & post & e & c1 & -> & HA' & HN' & HF & _ & HS & H1 & HR1)].
    + exfalso. rewrite HE in HA'. apply Forall_app in HA' as [_ HA']. inversion HA'; tauto.
    + rewrite recs_app in HE. cbn [recs map] in HE. fold (recs post) in HE.
      destruct (app_at _ _ _ _ _ _ _ HE HA' HA HN' HN) as (<- & <- & <-).
      destruct (IH _ _ HK' post c1 (acc ++ recs pre) (zlen pre) eq_refl H1 HR1) as (I1 & I2).
      { unfold kinds in *. rewrite recs_app, !Forall_app in *. cbn [recs map] in HKi. inversion HKi as [? HKj].
        destruct HKj as [? HKj]. inversion HKj; subst. auto. }
      split.
      * intros [|k] Hk; cbn [iterate]; rewrite HS; cbn [fst snd]; [eauto|]. apply I1. lia.
      * destruct I2 as (ds & HD & HX). exists ds. rewrite app_assoc. split; auto. cbn [iterate]. rewrite HS. exact HX.
Qed.

(** Sequences of successful reads are wire files. *)
Lemma reads_wire buf : Forall is_byte buf -> ~ negative_slist buf -> zlen buf <= 2 ^ 63 - 1 ->
  forall c bl c', reads buf c bl c' -> 0 <= c <= zlen buf ->
  exists bs, occurs buf c bs /\ wire_file bl bs /\ c' = c + zlen bs.
Proof.
  intros HB HN HM c bl c' H. induction H as [c|c b c1 bl c' HC HR HRs IH]; intros H0.
  - exists []. rewrite zlen_nil. splits; [now apply occurs_nil|constructor|lia].
  - pose proof (read_block_sizes _ HB HN _ _ _ HM (proj1 H0) HR) as HS.
    apply read_block_ok in HR as (id & x & HO & HW & ->); auto; [|lia].
    pose proof (occurs_bounds _ _ _ HO). pose proof (zlen_nonneg x).
    destruct IH as (bs & HO2 & HW2 & ->); [lia|].
    exists (x ++ bs). splits.
    + apply occurs_app. split; auto.
    + constructor; eauto.
    + rewrite zlen_app. lia.
Qed.

(** ** What the caller sees *)

Lemma shown_field k it out : wire_item (k, it) -> field2dict it = Ok out -> shown_item it out.
Proof.
  intros [(s & bs & HE & HW)|(blk & a & bs & HE & HW)] H; injection HE as -> ->.
  - destruct (scalar_there_back s bs HW) as (v & H1 & s' & H2 & H3).
    rewrite H1 in H. apply ok_inj in H as <-. cbn [shown_item]. destruct H3 as (_ & _ & _ & H3).
    cbn [field2dmap] in H2.
    assert (HV : sc_value s' = v).
    { destruct v; cbn [value_format] in H2; try discriminate; try (injection H2 as <-; reflexivity).
      - unfold array_item in H2. destruct (dtype_format _); discriminate.
      - unfold array_item in H2. destruct (_ =? _); [destruct (dtype_format _); discriminate|].
        destruct (forallb _ _); [destruct (dtype_format _); discriminate|]. destruct (forallb _ _); discriminate. }
    now rewrite HV in H3.
  - cbn [field2dict] in H. apply ok_inj in H as <-. reflexivity.
Qed.

Lemma shown_record r d : Forall wire_item r -> record2dict r = Ok d -> shown r d.
Proof.
  revert d; induction r as [|[k it] r IH]; intros d HW H; cbn [record2dict] in H.
  - apply ok_inj in H as <-. constructor.
  - inversion HW; subst. inv_rbind H x. inv_rbind H y. apply ok_inj in H as <-.
    constructor; [|apply IH; auto]. split; [reflexivity|]. cbn [snd]. eapply shown_field; eauto.
Qed.

Lemma shown_records rs ds : Forall (Forall wire_item) rs -> dmap2dict rs = Ok ds -> Forall2 shown rs ds.
Proof.
  revert ds; induction rs as [|r rs IH]; intros ds HW H; cbn [dmap2dict] in H.
  - apply ok_inj in H as <-. constructor.
  - inversion HW; subst. inv_rbind H x. inv_rbind H y. apply ok_inj in H as <-.
    constructor; [|apply IH; auto]. eapply shown_record; eauto.
Qed.

Lemma block_fields_wire id b bs : wire_block id b bs -> Forall wire_item (block_fields b).
Proof.
  intros [ss aa szb nsb nab sb ab HI HIB HSS HAA HSZ HNS HNA HS HA]. unfold block_fields. cbn [fst snd].
  apply Forall_app. split; apply Forall_forall; intros p Hp; apply in_map_iff in Hp as (x & <- & Hx).
  - left. destruct (wire_list_in _ _ _ _ HS Hx) as (y & Hy). eauto.
  - right. destruct (wire_list_in _ _ _ _ HA Hx) as (y & Hy). eauto 6.
Qed.

Lemma wire_list_Forall {A} (R : A -> bytes -> Prop) l bs (P : A -> Prop) :
  wire_list R l bs -> (forall x b, R x b -> P x) -> Forall P l.
Proof. intros H HP. induction H; constructor; eauto. Qed.

(** ** Adding and removing whole groups; scalars and arrays *)

Lemma read_disjoint t g1 g2 k :
  In g1 (sd_groups t) -> In g2 (sd_groups t) -> In k (names g1) -> In k (names g2) -> g1 = g2.
Proof.
  intros H1 H2 K1 K2. apply read_groups in H1 as [H1 _], H2 as [H2 _].
  pose proof (read_nodup t) as HND. revert H1 H2 HND. generalize (read_struct_list t) as gs.
  induction gs as [|g gs IH]; intros H1 H2 HND; [destruct H1|].
  cbn [concat] in HND. rewrite map_app in HND.
  assert (HX : forall g', In g' gs -> In k (names g') -> In k (map fst (concat gs))).
  { intros g' Hg Hk. apply in_map_iff in Hk as (p & <- & Hp). apply in_map. apply in_concat. eauto. }
  assert (HD : In k (map fst g) -> In k (map fst (concat gs)) -> False).
  { clear - HND. induction (map fst g) as [|x l IH]; [intros []|]. cbn [app] in HND. inversion HND; subst.
    intros [->|HI] HK; [apply H1; apply in_app_iff; auto|auto]. }
  destruct H1 as [->|H1], H2 as [->|H2]; auto.
  - exfalso. eauto.
  - exfalso. eauto.
  - apply IH; auto. clear - HND. induction (map fst g); auto. inversion HND; auto.
Qed.

Lemma names_app {A} (a b : list (pystr * A)) : names (a ++ b) = names a ++ names b.
Proof. apply map_app. Qed.

Lemma group_extension t g r ext r' :
  In g (sd_groups t) -> (forall k, In k (names g) -> ~ In k (names r)) -> whole_group g ext ->
  Permutation r' (r ++ ext) -> (acceptable t r' <-> acceptable t r).
Proof.
  intros Hg Habs (HX1 & HX2) HP.
  assert (HN : forall k, In k (names r') <-> In k (names r) \/ In k (names g)).
  { intros k. rewrite <- HX1. rewrite <- in_app_iff, <- names_app. unfold names.
    split; apply Permutation_in; [|symmetry]; now apply Permutation_map. }
  assert (HI : forall p, In p r' <-> In p r \/ In p ext).
  { intros p. rewrite <- in_app_iff. split; apply Permutation_in; auto. now symmetry. }
  split.
  - intros (HA & HB). split.
    + intros g2 Hg2. destruct (existsb (fun k => str_mem k (names g)) (names g2)) eqn:E.
      * apply existsb_exists in E as (k & Hk & Hk2). apply str_mem_In in Hk2.
        assert (g2 = g) as -> by (eapply read_disjoint; eauto). auto.
      * destruct (HA g2 Hg2) as [H|H]; [left|right]; intros k Hk.
        -- destruct (proj1 (HN k) (H k Hk)) as [Hk'|Hk']; auto. exfalso.
           rewrite <- not_true_iff_false in E. apply E. apply existsb_exists. exists k. split; auto.
           now apply str_mem_In.
        -- intros Hk'. apply (H k Hk). apply HN. auto.
    + intros k it H. apply HB. apply HI. auto.
  - intros (HA & HB). split.
    + intros g2 Hg2. destruct (existsb (fun k => str_mem k (names g)) (names g2)) eqn:E.
      * apply existsb_exists in E as (k & Hk & Hk2). apply str_mem_In in Hk2.
        assert (g2 = g) as -> by (eapply read_disjoint; eauto). left. intros k' Hk'. apply HN. auto.
      * destruct (HA g2 Hg2) as [H|H]; [left|right]; intros k Hk.
        -- apply HN. auto.
        -- intros Hk'. apply HN in Hk' as [Hk'|Hk']; [now apply (H k)|].
           rewrite <- not_true_iff_false in E. apply E. apply existsb_exists. exists k. split; auto.
           now apply str_mem_In.
    + intros k it H. apply HI in H as [H|H]; auto. destruct (HX2 _ _ H) as (f & Hf & HF).
      exists f. split; auto. right. eauto.
Qed.

Definition same_format (p q : pystr * item) : Prop :=
  fst p = fst q /\ forall f, has_format f (snd p) <-> has_format f (snd q).

Lemma same_item_fmt it it' : (forall f, has_format f it <-> has_format f it') -> item_fmt it = item_fmt it'.
Proof.
  intros H. destruct it as [s|a|v], it' as [s'|a'|v']; cbn [item_fmt]; auto;
  repeat match goal with
  | H : forall f, has_format f (IScalar ?s) <-> _ |- _ =>
      pose proof (proj1 (H (sc_fmt s)) (hf_scalar _ s eq_refl)) as HX; clear H; inversion HX; subst; congruence
  | H : forall f, has_format f (IArray ?a) <-> _ |- _ =>
      pose proof (proj1 (H (ar_fmt a)) (hf_array _ a eq_refl)) as HX; clear H; inversion HX; subst; congruence
  | H : forall f, _ <-> has_format f (IScalar ?s) |- _ =>
      pose proof (proj2 (H (sc_fmt s)) (hf_scalar _ s eq_refl)) as HX; clear H; inversion HX; subst; congruence
  | H : forall f, _ <-> has_format f (IArray ?a) |- _ =>
      pose proof (proj2 (H (ar_fmt a)) (hf_array _ a eq_refl)) as HX; clear H; inversion HX; subst; congruence
  end.
Qed.

Lemma same_format_checks r r' : Forall2 same_format r r' -> forall gs os n,
  read_checks gs os r n = read_checks gs os r' n /\ write_checks gs os r n = write_checks gs os r' n.
Proof.
  intros H gs os n.
  assert (HN : map fst r = map fst r') by (induction H as [|? ? ? ? [? ?]]; cbn [map]; congruence).
  assert (HW : forall c, wrong_types c r = wrong_types c r').
  { intros c. clear HN. induction H as [|[k it] [k' it'] r r' [HK HF] H IH]; auto. cbn [fst snd] in *. subst k'.
    cbn [wrong_types]. now rewrite IH, (same_item_fmt _ _ HF). }
  unfold read_checks, write_checks, missing_field_check, extra_field_check, incorrect_types_check.
  now rewrite HN, HW.
Qed.

(** ** Order of the groups *)

Lemma missing_flat keys os gs :
  missing_fields gs keys os =
  flat_map (fun g => if existsb (group_eqb g) os then [] else
                     if (zlen (dict_key_diff (map fst g) keys) =? 0) || (zlen (dict_key_diff (map fst g) keys) =? zlen g)
                     then [] else dict_key_diff (map fst g) keys) gs.
Proof.
  induction gs as [|g gs IH]; cbn [missing_fields flat_map]; auto. rewrite IH.
  destruct (existsb _ os); auto. destruct (_ || _); auto.
Qed.

Lemma perm_checks gs gs' os r n :
  Permutation gs gs' -> NoDup (map fst (concat gs)) ->
  same_outcome (read_checks gs os r n) (read_checks gs' os r n) /\
  same_outcome (write_checks gs os r n) (write_checks gs' os r n).
Proof.
  intros HP HND.
  assert (HM : Permutation (missing_fields gs (map fst r) os) (missing_fields gs' (map fst r) os))
    by (rewrite !missing_flat; now apply Permutation_flat_map).
  assert (HC : Permutation (concat gs) (concat gs')).
  { rewrite <- (map_id gs), <- (map_id gs'), <- !flat_map_concat_map. now apply Permutation_flat_map. }
  assert (HND' : NoDup (map fst (concat gs')))
    by (eapply Permutation_NoDup; [apply Permutation_map; exact HC|exact HND]).
  assert (HE : extra_field_check gs r n = extra_field_check gs' r n).
  { unfold extra_field_check, dict_list2set.
    destruct gs as [|g gs]; [apply Permutation_nil in HP; now subst|].
    destruct gs' as [|g' gs']; [apply Permutation_sym, Permutation_nil in HP; discriminate|]. cbn [rbind].
    assert (HF : dict_key_diff (map fst r) (flat_map (map fst) (g :: gs)) =
                 dict_key_diff (map fst r) (flat_map (map fst) (g' :: gs'))).
    { unfold dict_key_diff. apply filter_ext. intros k. f_equal. apply eq_true_iff_eq.
      rewrite !str_mem_In. split; apply Permutation_in; [|symmetry]; now apply Permutation_flat_map. }
    now rewrite HF. }
  assert (HT : incorrect_types_check gs r n = incorrect_types_check gs' r n).
  { unfold incorrect_types_check. rewrite !complete_concat by auto.
    assert (HW : wrong_types (concat gs) r = wrong_types (concat gs') r).
    { assert (HG : forall k, dict_get (concat gs) k = dict_get (concat gs') k).
      { intros k. destruct (dict_get (concat gs) k) as [f|] eqn:E1, (dict_get (concat gs') k) as [f'|] eqn:E2; auto.
        - apply dict_get_nodup in E1, E2; auto. apply (Permutation_in _ HC) in E1.
          apply dict_get_nodup in E1, E2; auto. congruence.
        - apply dict_get_nodup in E1; auto. apply (Permutation_in _ HC) in E1.
          apply dict_get_nodup in E1; auto. congruence.
        - apply dict_get_nodup in E2; auto. apply (Permutation_in _ (Permutation_sym HC)) in E2.
          apply dict_get_nodup in E2; auto. congruence. }
      clear - HG. induction r as [|[k it] r IH]; auto. cbn [wrong_types]. now rewrite HG, IH. }
    now rewrite HW. }
  assert (HX : exists l l', Permutation l l' /\
    missing_field_check gs r n os = (if 0 <? zlen l then Raise (SuperDARNFieldMissingError n l) else Ok tt) /\
    missing_field_check gs' r n os = (if 0 <? zlen l then Raise (SuperDARNFieldMissingError n l') else Ok tt)).
  { exists (missing_fields gs (map fst r) os), (missing_fields gs' (map fst r) os). splits; auto.
    unfold missing_field_check, zlen. now rewrite (Permutation_length HM). }
  destruct HX as (l & l' & HL & E1 & E2).
  assert (HR : forall x, same_outcome x x) by (intros [u|[]]; cbn; auto).
  unfold read_checks, write_checks. rewrite HE, HT, E1, E2. destruct (0 <? zlen l); cbn [rbind]; split; auto.
  - cbn. auto.
  - destruct (extra_field_check gs' r n) as [[]|e]; cbn [rbind]; auto. cbn. auto.
Qed.

(** ** Errors *)

Lemma field_error_not_r e n : field_error e n -> ~ In e read_exceptions.
Proof.
  intros [(l & ->)|[(l & ->)|(l & ->)]] H; cbn in H; decompose [or] H; try discriminate; auto.
Qed.
Lemma field_error_number e n m : field_error e n -> field_error e m -> n = m.
Proof.
  intros [(l & ->)|[(l & ->)|(l & ->)]] [(l' & H)|[(l' & H)|(l' & H)]]; congruence.
Qed.

Lemma reads_kinds buf c bl c' : Forall is_byte buf -> reads buf c bl c' -> kinds (recs bl).
Proof.
  intros HB. induction 1 as [c|c b c1 bl c' HC HR HRs IH]; [constructor|]. constructor; auto.
  apply record_of_fields_kind. unfold read_record_fields in HR.
  repeat (inv_bind HR || match type of HR with (if ?x then _ else _) _ = _ => destruct x; [discriminate|] end).
  injection HR as <- <-. cbn [fst].
  eapply read_scalars_kind; eauto.
Qed.
