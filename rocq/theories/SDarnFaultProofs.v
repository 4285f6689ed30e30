(** Proofs about the failures of write_<type> (SDarnFaultSpec). *)
From Coq Require Import ZArith List Bool Lia.
From Verif Require Import Base BytesProofs DmapTypes DmapFileProofs DmapWriteSpec DmapWrite Conversions DmapWriteProofs
  DmapWriteFacts DmapObjectProofs SDarnFormats SDarn SDarnSpec SDarnChecks SDarnProofs SDarnWriteProofs
  DmapWriteFaultSpec DmapWriteFaultProofs SDarnFaultSpec.
From Verif Require SDarnUtilSpec SDarnUtilProofs.
Import ListNotations.
Open Scope Z_scope.

Lemma concat_dictionaries (gs : list group) : NoDup (map fst (concat gs)) -> Forall SDarnUtilSpec.dictionary gs.
Proof.
  induction gs as [|g gs IH]; intros H; constructor; cbn [concat] in H; rewrite map_app in H.
  - unfold SDarnUtilSpec.dictionary. clear - H. induction (map fst g) as [|k l IH]; constructor; cbn [app] in H; inversion H; subst.
    + intros C. apply H2. apply in_app_iff. auto.
    + auto.
  - apply IH. clear - H. induction (map fst g) as [|k l IH]; auto. inversion H; auto.
Qed.

Lemma has_plain (r : record) : (exists k v, In (k, IPlain v) r) \/ Forall (fun p => dmap_item (snd p)) r.
Proof.
  induction r as [|[k it] r [(k0 & v & H)|H]].
  - right. constructor.
  - left. exists k0, v. now right.
  - destruct it as [s|a|v].
    + right. constructor; auto. exists (sc_fmt s). now constructor.
    + right. constructor; auto. exists (ar_fmt a). now constructor.
    + left. exists k, v. now left.
Qed.

Lemma plain_not (r : record) k v : Forall (fun p => dmap_item (snd p)) r -> ~ In (k, IPlain v) r.
Proof. intros H C. rewrite Forall_forall in H. destruct (H _ C) as [f X]. inversion X. Qed.

Lemma write_check_error t r n e :
  write_checks (write_struct_list t) (write_optional_list t) r n = Raise e -> check_error t r n e.
Proof.
  set (gs := write_struct_list t) in *. set (os := write_optional_list t) in *.
  pose proof (missing_iff t gs os (write_groups t) r) as EM.
  pose proof (unknown_iff t gs (write_declared t) r) as EU.
  pose proof (mistyped_iff t gs (write_declared t) r) as ET.
  unfold write_checks.
  destruct (extra_field_check gs r n) as [[]|e0] eqn:E1; cbn [rbind].
  2: { intros [= <-].
    destruct (SDarnUtilProofs.extra_check gs r n) as [_ X]. destruct (X (write_nonempty t)) as [_ X2].
    destruct (X2 _ E1) as (l & -> & HL & HI). apply ce_unknown; auto.
    destruct l as [|x l]; [contradiction|].
    assert (HG : g_unknown gs r x).
    { destruct (proj1 (HI x) (or_introl eq_refl)) as [A1 A2]. split; auto. intros C.
      unfold names in C. apply in_map_iff in C as ([k f] & <- & C). apply in_concat in C as (g & G1 & G2).
      apply (A2 g G1). apply in_map_iff. exists (k, f). auto. }
    destruct (extra_check_raise gs (write_nonempty t) (write_nodup t) r n x HG) as (l' & E2 & HI'). rewrite E1 in E2.
    injection E2 as E2. intros k. rewrite E2, HI'. now rewrite EU. }
  assert (NU : forall k, ~ unknown t r k).
  { intros k C. apply EU in C. now apply (proj1 (extra_check_ok gs (write_nonempty t) (write_nodup t) r n) E1 k). }
  destruct (missing_field_check gs r n os) as [[]|e0] eqn:E2; cbn [rbind].
  2: { intros [= <-]. destruct (missing_fields gs (map fst r) os) as [|x l] eqn:EM0.
    - unfold missing_field_check in E2. rewrite EM0 in E2. discriminate.
    - assert (HG : g_missing gs os r x) by (apply (missing_fields_In x (map fst r) os gs); rewrite EM0; now left).
      destruct (missing_check_raise gs os r n x HG) as (l' & E3 & HI'). rewrite E2 in E3. injection E3 as ->.
      apply ce_missing; auto.
      + intros ->. now apply HI' in HG.
      + intros k. now rewrite HI', EM. }
  assert (NM : forall k, ~ missing t r k).
  { intros k C. apply EM in C. now apply (proj1 (missing_check_ok gs os r n) E2 k). }
  intros E3. destruct (has_plain r) as [(k & v & HP)|HD].
  - destruct (SDarnUtilProofs.types_check gs r n (concat_dictionaries gs (write_nodup t))) as (T1 & T2 & T3 & T4).
    destruct (SDarnUtilProofs.wrong_cases gs r (concat_dictionaries gs (write_nodup t)))
      as [(HC & _)|(pre & k0 & it & post & HR & HC & [[[w ->] HW]|(HF & HK & _)])].
    + exfalso. rewrite Forall_forall in HC. destruct (HC _ HP) as [[f X] _]. exact X.
    + unfold incorrect_types_check in E3. rewrite HW in E3. cbn [rbind] in E3. injection E3 as <-.
      apply (ce_plain t r n k v); auto.
    + exfalso. apply (NU k0). apply EU. split.
      * rewrite HR. unfold names. rewrite map_app. apply in_app_iff. right. now left.
      * intros C. unfold names in C. apply in_map_iff in C as ([k1 f] & <- & C). apply in_concat in C as (g & G1 & G2).
        apply (HK g G1). apply in_map_iff. exists (k1, f). auto.
  - assert (NG : forall k, ~ g_unknown gs r k) by (intros k C; apply (NU k); now apply EU).
    unfold incorrect_types_check in E3. rewrite (complete_concat gs (write_nodup t)) in E3.
    destruct (wrong_types_ok gs (write_nodup t) r NG HD) as (l & HW & HI). rewrite HW in E3. cbn [rbind] in E3.
    destruct l as [|x l]; [discriminate|].
    replace (0 <? zlen (x :: l)) with true in E3 by (unfold zlen; cbn [length]; lia). injection E3 as <-.
    apply ce_format; auto; [intros k v; now apply plain_not|discriminate|].
    intros k. now rewrite HI, ET.
Qed.

Lemma flip_turned r : flip_record r = turned_record r.
Proof.
  unfold flip_record, turned_record. apply map_ext. intros [k [s|[n v ty f d sh]|v]]; try reflexivity.
  cbn [fst snd flip_item turned ar_name ar_value ar_type ar_fmt ar_dim ar_shape]. now destruct (1 <? d).
Qed.

Lemma dmap_known_written (r : record) b :
  record_known r -> dmap_record_to_bytes r = (Ok b, record_after r) -> no_fault (record_fault r) /\ zlen b = record_length r.
Proof.
  intros K H. destruct (record_fails r K) as (F & L & _). rewrite H in F, L. cbn [fst snd] in *. split.
  - exact (fails_done _ _ _ F eq_refl).
  - exact (proj1 (L b eq_refl)).
Qed.

Lemma sd_write_outcome t fs w fn :
  wr_records w <> [] -> Forall record_known (wr_records w) -> wr_filename w <> [] \/ fn <> [] ->
  let name := match fn with [] => wr_filename w | _ => fn end in
  match sd_write t fs w fn with
  | (Ok tt, w', fs') =>
      Forall (fun r => acceptable t r /\ no_fault (record_fault r)) (wr_records w) /\
      wr_records w' = map turned_record (wr_records w) /\
      exists bs, fs' name = Some bs /\ zlen bs = zlen (wr_bytearr w) + total (map record_length (wr_records w))
  | (Raise e, w', fs') =>
      fs' = fs /\ exists pre r post bs rest, wr_records w = pre ++ r :: post /\
        Forall (fun r => acceptable t r /\ no_fault (record_fault r)) pre /\
        wr_bytearr w' = wr_bytearr w ++ bs ++ rest /\ zlen bs = total (map record_length pre) /\
        ((~ acceptable t r /\ rest = [] /\ check_error t r (zlen pre) e /\
          wr_records w' = map turned_record pre ++ r :: post) \/
         (acceptable t r /\ record_fault r e /\
          exists r', record_left r r' rest /\ wr_records w' = map turned_record pre ++ r' :: post))
  end.
Proof.
  intros HN K HF. cbv zeta.
  assert (NE : match fn with [] => wr_filename w | _ => fn end <> []).
  { destruct fn; [destruct HF; [auto|contradiction]|discriminate]. }
  assert (FT : forall l, map flip_record l = map turned_record l) by (intros l; apply map_ext; exact flip_turned).
  destruct (sd_write t fs w fn) as [[[[]|e] w'] fs'] eqn:E.
  - apply sd_write_succeeded in E as (HA & _ & HW).
    pose proof (file_outcome fs w fn HN K HF) as O. cbv zeta in O. rewrite HW in O. cbn [fst snd] in O.
    destruct O as (O1 & _ & O3).
    assert (NF : Forall (fun r => no_fault (record_fault r)) (wr_records w)).
    { assert (X : no_fault (records_fault (wr_records w))).
      { intros e C. apply O1 in C. discriminate. }
      unfold records_fault in X. apply first_none in X. now rewrite Forall_map in X. }
    splits.
    + rewrite Forall_forall in *. intros r Hr. split; auto.
    + clear O1 O3. unfold write_dmap in HW. destruct (filename_check w fn) as [w1|] eqn:EF; [|discriminate].
      assert (R1 : wr_records w1 = wr_records w).
      { unfold filename_check in EF. destruct (wr_filename w) eqn:EW, fn; try discriminate; apply ok_inj in EF; subst; reflexivity. }
      pose proof (stream_fails w1 [] ltac:(now rewrite R1) ltac:(now rewrite R1)) as S. rewrite R1 in S.
      destruct (write_dmap_stream w1 []) as [[bs|e0] w2]; [|discriminate]. destruct S as (_ & _ & S3 & _).
      assert (w2 = w') as <- by congruence. exact (proj1 (proj2 (S3 bs eq_refl))).
    + destruct (O3 eq_refl) as (bs & B1 & B2). exists bs. split; auto. destruct fn; exact B1.
  - apply sd_write_failed in E. cbv zeta in E.
    destruct E as (-> & [(C & _)|[(_ & C & _)|(_ & pre & r & post & bl & rest & H1 & H2 & H3 & H4 & H5)]]); try contradiction.
    split; auto.
    rewrite H1 in K. apply Forall_app in K as [KP KR]. inversion KR as [|x l KR1 _]; subst x l.
    assert (P : Forall (fun r => acceptable t r /\ no_fault (record_fault r)) pre /\
                zlen (concat bl) = total (map record_length pre)).
    { clear - KP H2 H3. induction H3 as [|r b pre bl HB H3 IH]; [split; [constructor|reflexivity]|].
      inversion KP; subst. inversion H2; subst. destruct (dmap_known_written r b H1 HB) as [N L].
      destruct IH as [I1 I2]; auto. split; [constructor; auto|].
      cbn [concat map]. rewrite zlen_app, I2, L. reflexivity. }
    destruct P as [P1 P2]. exists pre, r, post, (concat bl), rest. splits; auto.
    rewrite FT in H5. destruct H5 as [(N & RE & HW & HC)|(A & -> & r' & HB & HW)].
    + left. splits; auto. now apply write_check_error.
    + right. destruct (record_fails r KR1) as (F & _ & X). rewrite HB in F, X. cbn [fst snd] in *. splits; auto.
      * now apply F.
      * exists r'. split; auto. now apply (X e).
Qed.
