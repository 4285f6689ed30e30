(** Properties of SDarnRead and SDarnWrite objects: C30-C35, C51 and the
    SuperDARN side of C17, C18, C19 and C26.  Every theorem is followed by a
    concrete case that meets its hypotheses. *)
From Coq Require Import ZArith String List Bool Lia Permutation.
From Verif Require Import Base Bytes BytesSpec BytesProofs FloatBits DmapTypes DmapRead DmapWrite Conversions
  DmapSpec DmapReadProofs DmapFileProofs DmapStreamProofs DmapReadProps DmapWriteSpec DmapWriteProofs
  DmapWriterProofs DmapWriteFacts DmapObjectProofs DmapConvProofs DmapWriteProps
  SDarnFormats SDarn SDarnSpec SDarnChecks SDarnProofs SDarnObjectProofs SDarnFileProofs SDarnWriteProofs SDarnProps.
Import ListNotations.
Open Scope string_scope.
Open Scope list_scope.
Open Scope Z_scope.

(** ** C30 Whole groups *)

(** [r'] is [r], which has nothing of group [g], with that group added in any
    place: the verdict is the same, in both directions. *)
Theorem C30_whole_groups : forall t g r ext r',
  In g (sd_groups t) -> (forall k, In k (names g) -> ~ In k (names r)) -> whole_group g ext ->
  Permutation r' (r ++ ext) -> (acceptable t r' <-> acceptable t r).
Proof. exact group_extension. Qed.
Print Assumptions C30_whole_groups.

(** A block without any field of the main group. *)
Definition ex_nomain (t : sd_type) : block :=
  let g := match t with
           | Iqdat => []
           | Rawacf => rawacf_correlation_field ++ rawacf_cross_correlation_field
           | Fitacf => fitacf_fitted_fields
           | Snd => snd_fitted_fields
           | Grid => grid_fitted_fields
           | Map => map_partial_fields
           end in
  (map ex_scalar (firstn 1 g), map ex_array (skipn 1 g)).

(** Except for iqdat, which has one group only, there are files that the reader
    accepts although no field of the main group is in them. *)
Theorem C30_no_mandatory_field : forall t, t <> Iqdat ->
  exists bs r rd ds, dmap_write [r] = Ok bs /\ dmap_read bs = Ok [r] /\
    sd_reader_init (fun _ => None) (FromStream bs) = Ok rd /\ fst (sd_read t rd) = Ok ds /\
    r <> [] /\ forall k, In k (names (sd_main t)) -> ~ In k (names r).
Proof.
  intros t Ht.
  assert (HX : exists bs, dmap_write [block_fields (ex_nomain t)] = Ok bs /\ dmap_read bs = Ok [block_fields (ex_nomain t)] /\
                 forallb (fun b => (0 <=? b) && (b <? 256)) bs = true).
  { destruct t; [congruence|eexists; split; [vm_compute; reflexivity|split; vm_compute; reflexivity]..]. }
  destruct HX as (bs & HW & HR & HFB).
  assert (HBY : Forall is_byte bs).
  { apply Forall_forall. rewrite forallb_forall in HFB. intros b Hb. apply HFB in Hb. unfold is_byte. lia. }
  assert (HA : Forall (acceptable t) [block_fields (ex_nomain t)]).
  { constructor; [|constructor]. destruct t; [congruence|accepted..]. }
  assert (HI : exists rd, sd_reader_init (fun _ => None) (FromStream bs) = Ok rd).
  { unfold sd_reader_init, dmap_reader_init, reader_new. unfold dmap_read, reader_new in HR.
    destruct (zlen bs =? 0); [discriminate HR|eauto]. }
  destruct HI as (rd & HI).
  destruct (proj1 (C27_files t _ bs _ rd HBY HR HI) HA) as (ds & HS & _).
  exists bs, (block_fields (ex_nomain t)), rd, ds. splits; auto.
  - destruct t; [congruence|discriminate..].
  - intros k H1 H2.
    assert (HD : dict_key_diff (names (sd_main t)) (names (block_fields (ex_nomain t))) = names (sd_main t)).
    { destruct t; [congruence|vm_compute; reflexivity..]. }
    rewrite <- HD in H1. unfold dict_key_diff in H1. apply filter_In in H1 as [_ H1].
    apply str_mem_In in H2. rewrite H2 in H1. discriminate.
Qed.
Print Assumptions C30_no_mandatory_field.

Theorem C30_iqdat : forall r,
  acceptable Iqdat r -> (forall k, In k (names (sd_main Iqdat)) -> ~ In k (names r)) -> r = [].
Proof.
  intros [|[k it] r] [_ HB] HN; auto. exfalso. destruct (HB k it (or_introl eq_refl)) as (f & [[]|(g & [<-|[]] & Hg)] & _).
  apply (HN k); [|left; reflexivity]. apply names_pair. eauto.
Qed.
Print Assumptions C30_iqdat.

Example C30_case :
  In grid_extra_fields (sd_groups Grid) /\
  (forall k, In k (names grid_extra_fields) -> ~ In k (names (block_fields ex_grid))) /\
  whole_group grid_extra_fields (block_fields (map ex_scalar (firstn 2 grid_extra_fields), map ex_array (skipn 2 grid_extra_fields))).
Proof.
  splits.
  - cbn. tauto.
  - intros k H1 H2. apply str_mem_In in H2. cbn [names map fst grid_extra_fields In] in H1.
    repeat (destruct H1 as [<-|H1]; [vm_compute in H2; discriminate|]). destruct H1.
  - split.
    + intros k. vm_compute. tauto.
    + intros k it H. cbn in H.
      repeat (destruct H as [H|H]; [injection H as <- <-; eexists; split; [cbn; tauto|constructor; reflexivity]|]).
      destruct H.
Qed.

(** ** C31 The record number in the errors *)

Theorem C31_read : forall t fs src rd rs, Forall is_byte (rdr_buf rd) ->
  sd_reader_init fs src = Ok rd -> dmap_read (rdr_buf rd) = Ok rs ->
  match sd_read t rd with
  | (Ok ds, rd') => Forall (acceptable t) rs /\ rdr_records rd' = rs /\ dmap2dict rs = Ok ds
  | (Raise e, rd') => exists pre r post, rs = pre ++ r :: post /\ Forall (acceptable t) pre /\
      ~ acceptable t r /\ field_error e (zlen pre) /\ rdr_records rd' = pre
  end.
Proof.
  intros t fs src rd rs HBY HI HR. destruct (init_fresh _ _ _ HI) as [HF _]. rewrite HF.
  destruct (read_reads _ _ HBY HR) as (bl & H1 & -> & H2).
  destruct (sd_read_step t (rdr_buf rd) 0 [] 0 bl ltac:(lia) H1 H2)
    as [(HA & ds & HD & HS)|(pre & b & post & e & c1 & -> & HA & HN & HE & _ & HS & _)]; rewrite HS.
  - splits; auto.
  - exists (recs pre), (record_of_fields b), (recs post). rewrite recs_len. splits; auto. apply recs_app.
Qed.
Print Assumptions C31_read.

(** Files that cannot be read to the end: a field error still means that the
    file starts with that many good records followed by a bad one. *)
Theorem C31_prefix : forall t fs src rd e n rd',
  sd_reader_init fs src = Ok rd -> Forall is_byte (rdr_buf rd) -> ~ negative_slist (rdr_buf rd) ->
  zlen (rdr_buf rd) <= 2 ^ 63 - 1 ->
  sd_read t rd = (Raise e, rd') -> field_error e n ->
  exists bl b bs rest, rdr_buf rd = bs ++ rest /\ wire_file (bl ++ [b]) bs /\
    Forall (acceptable t) (map record_of_fields bl) /\ ~ acceptable t (record_of_fields b) /\ n = zlen bl /\
    rdr_records rd' = map record_of_fields bl.
Proof.
  intros t fs src rd e n rd' HI HB HN HM HS HE. destruct (init_fresh _ _ _ HI) as [HF _].
  remember (rdr_buf rd) as buf eqn:Ebuf. clear Ebuf HI. subst rd.
  destruct (darn_records_cases t (mk_reader buf 0 [] 0)) as (bl & c1 & H1 & H2 & H3); [cbn; lia|].
  cbn [rdr_buf rdr_cursor rdr_records app] in *. unfold sd_read in HS.
  destruct (read_darn_records _ _ _) as [[[]|e'] r'].
  - exfalso. destruct H3 as [H3 ->]. cbn [rdr_records] in HS.
    destruct (dmap2dict_ok _ (reads_kinds _ _ _ _ HB H1)) as (ds & HD). fold (recs bl) in HD.
    rewrite HD in HS. discriminate.
  - destruct H3 as (H3 & c2 & -> & H4). injection HS as -> <-.
    destruct H4 as [H4|(b & H4 & H5 & H6)].
    + exfalso. apply raises_block in H4. eapply field_error_not_r; eauto.
    + assert (HX : reads buf 0 (bl ++ [b]) c2) by (eapply reads_app; [exact H1|]; econstructor; eauto; constructor).
      destruct (reads_wire buf HB HN HM 0 _ _ HX) as (bs & HO & HW & HC); [pose proof (zlen_nonneg buf); lia|].
      destruct HO as (p0 & rest & HO & HP). destruct p0 as [|x p0]; [|rewrite zlen_cons in HP; pose proof (zlen_nonneg p0); lia].
      exists bl, b, bs, rest. splits; auto.
      destruct (read_not_acceptable t _ (zlen bl) (recs_dmap_items b) H5) as (e2 & HE2 & HF2).
      assert (e2 = e) by congruence. subst e2. eapply field_error_number; eauto.
Qed.
Print Assumptions C31_prefix.

(** Writing: a field error names the first bad record; and if there is a bad
    record with DMAP fields, and the records before it can be written, that
    error is raised. *)
Theorem C31_write : forall t fs w fn e n w' fs',
  sd_write t fs w fn = (Raise e, w', fs') -> field_error e n ->
  exists pre r post, wr_records w = pre ++ r :: post /\ Forall (acceptable t) pre /\
    ~ acceptable t r /\ n = zlen pre.
Proof.
  intros t fs w fn e n w' fs' H HE. apply sd_write_failed in H. cbv zeta in H.
  destruct H as (_ & [(_ & -> & _)|[(_ & _ & -> & _)|(_ & pre & r & post & bl & rest & H1 & H2 & H3 & H4 & H5)]]).
  - destruct HE as [(? & ?)|[(? & ?)|(? & ?)]]; discriminate.
  - destruct HE as [(? & ?)|[(? & ?)|(? & ?)]]; discriminate.
  - destruct H5 as [(H5 & _ & _ & H6)|(_ & _ & r' & H6 & _)].
    + exists pre, r, post. splits; auto.
      apply (checks_exceptions _ _ _ _ _ (write_nonempty t)) in H6 as [H6|[->| ->]]; [eapply field_error_number; eauto|..];
        destruct HE as [(? & ?)|[(? & ?)|(? & ?)]]; discriminate.
    + exfalso. eapply field_error_not_w; [exact HE|]. apply (rw_record r). now rewrite H6.
Qed.
Print Assumptions C31_write.

Theorem C31_write_rejects : forall t fs w fn pre r post bs,
  wr_records w = pre ++ r :: post -> Forall (acceptable t) pre -> ~ acceptable t r ->
  Forall (fun p => dmap_item (snd p)) r ->
  pre = [] \/ dmap_write pre = Ok bs -> match fn with [] => wr_filename w | _ => fn end <> [] ->
  exists e w', sd_write t fs w fn = (Raise e, w', fs) /\ field_error e (zlen pre).
Proof.
  intros t fs w fn pre r post bs HR HA HN HD HP HF.
  destruct (sd_write t fs w fn) as [[[[]|e] w'] fs'] eqn:E.
  - exfalso. apply sd_write_succeeded in E as (HX & _). rewrite HR in HX. apply Forall_app in HX as [_ HX]. inversion HX; tauto.
  - pose proof (sd_write_failed _ _ _ _ _ _ _ E) as H. cbv zeta in H. destruct H as (-> & H).
    exists e, w'. split; auto.
    destruct H as [(H & _)|[(_ & H & _)|(_ & pre' & r' & post' & bl & rest & H1 & H2 & H3 & _ & H5)]].
    + tauto.
    + rewrite HR in H. destruct pre; discriminate.
    + rewrite HR in H1. destruct H5 as [(H5 & _ & _ & H6)|(H5 & _ & r2 & H6 & _)].
      * destruct (app_at _ _ _ _ _ _ _ H1 HA H2 HN H5) as (-> & -> & ->).
        destruct (write_not_acceptable t r' (zlen pre') HD HN) as (e2 & HE2 & HF2). congruence.
      * exfalso.
        assert (HIn : In r' pre).
        { clear - H1 H2 H5 HN. revert pre' H1 H2. induction pre as [|a pre IH]; intros pre' H1 H2; destruct pre' as [|a' pre']; cbn [app] in H1.
          - congruence.
          - injection H1 as -> _. inversion H2; tauto.
          - injection H1 as -> _. now left.
          - injection H1 as -> H1. inversion H2; subst. right. eapply IH; eauto. }
        destruct HP as [->|HP]; [destruct HIn|].
        apply dmap_write_inv in HP as (rs' & bl' & HC & _ & HB & _).
        assert (rs' = pre).
        { destruct (first_value pre) as [[s|a|v]|] eqn:EV.
          - rewrite (proj1 (check_cases pre)) in HC; [congruence|]. intros v Hv. congruence.
          - rewrite (proj1 (check_cases pre)) in HC; [congruence|]. intros v Hv. congruence.
          - exfalso. clear - EV HA. destruct pre as [|[|[k it] r0] pre]; cbn in EV; try discriminate. injection EV as ->.
            inversion HA as [|? ? [_ HB] _]; subst. destruct (HB k (IPlain v) (or_introl eq_refl)) as (f & _ & Hf). inversion Hf.
          - rewrite (proj1 (check_cases pre)) in HC; [congruence|]. intros v Hv. congruence. }
        subst rs'. clear - HB HIn H6. induction HB as [|x b l l' Hx HB IH]; [destruct HIn|].
        destruct HIn as [->|HIn]; auto. rewrite H6 in Hx. discriminate.
Qed.
Print Assumptions C31_write_rejects.

Example C31_case :
  (rlet bs := dmap_write [block_fields ex_grid; block_fields ex_grid; block_fields ex_typed; block_fields ex_half] in
   rlet rd := sd_reader_init (fun _ => None) (FromStream bs) in fst (sd_read Grid rd)) =
  Raise (SuperDARNDataFormatTypeError [str "vector.mlat"] 2) /\
  (* two good records, a bad one, and a tail that is no DMAP at all *)
  (rlet bs := dmap_write [block_fields ex_grid; block_fields ex_grid; block_fields ex_extra] in
   rlet rd := sd_reader_init (fun _ => None) (FromStream (bs ++ [1;2;3])) in fst (sd_read Grid rd)) =
  Raise (SuperDARNExtraFieldError 2 [str "foo"]) /\
  (rlet w := sd_writer_new [block_fields ex_grid; block_fields ex_extra; block_fields ex_half] [102] in
   fst (fst (sd_write Grid (fun _ => None) w []))) = Raise (SuperDARNExtraFieldError 1 [str "foo"]).
Proof. split; [vm_compute; reflexivity|split; [vm_compute; reflexivity|vm_compute; reflexivity]]. Qed.

(** ** C32 Reading on after an error *)

(** The file has records [rs], of which [good] obey the rules and [m] do not.
    The first [m] calls of read_<type> on one object raise field errors; the
    next one returns exactly the good records, and nothing tells the caller
    that others were skipped. *)
Theorem C32_retry : forall t fs src rd rs good m, Forall is_byte (rdr_buf rd) ->
  sd_reader_init fs src = Ok rd -> dmap_read (rdr_buf rd) = Ok rs -> kept t rs good m ->
  let after k := iterate k (fun r => snd (sd_read t r)) rd in
  (forall k, (k < m)%nat -> exists e j, fst (sd_read t (after k)) = Raise e /\ field_error e j) /\
  exists ds, dmap2dict good = Ok ds /\ fst (sd_read t (after m)) = Ok ds.
Proof.
  intros t fs src rd rs good m HBY HI HR HK. destruct (init_fresh _ _ _ HI) as [HF _]. rewrite HF in *. cbn [rdr_buf] in *.
  destruct (read_reads _ _ HBY HR) as (bl & H1 & -> & H2).
  exact (sd_read_retry t _ _ _ _ HK bl 0 [] 0 eq_refl ltac:(lia) H1 H2).
Qed.
Print Assumptions C32_retry.

(** The record number of the second error counts from the record after the
    first bad one, not from the start of the file. *)
Theorem C32_numbers_restart : forall t fs src rd pre r mid r' post e1 rd1, Forall is_byte (rdr_buf rd) ->
  sd_reader_init fs src = Ok rd -> dmap_read (rdr_buf rd) = Ok (pre ++ r :: mid ++ r' :: post) ->
  Forall (acceptable t) pre -> ~ acceptable t r -> Forall (acceptable t) mid -> ~ acceptable t r' ->
  sd_read t rd = (Raise e1, rd1) ->
  field_error e1 (zlen pre) /\ exists e2, fst (sd_read t rd1) = Raise e2 /\ field_error e2 (zlen mid).
Proof.
  intros t fs src rd pre r mid r' post e1 rd1 HBY HI HR HP HN HM HN' HS.
  destruct (init_fresh _ _ _ HI) as [HF _]. rewrite HF in *. cbn [rdr_buf] in *.
  destruct (read_reads _ _ HBY HR) as (bl & H1 & HE & H2). rewrite HE in H2.
  destruct (sd_read_step t _ 0 [] 0 bl ltac:(lia) H1 H2)
    as [(HA & _)|(pre1 & b & post1 & e & c1 & -> & HA & HN1 & HE1 & _ & HS1 & HC & HR1)].
  { exfalso. rewrite <- HE in HA. apply Forall_app in HA as [_ HA]. inversion HA; tauto. }
  cbn [app] in HS1. rewrite HS1 in HS. injection HS as <- <-. rewrite recs_app in HE. cbn [recs map] in HE. fold (recs post1) in HE.
  destruct (app_at _ _ _ _ _ _ _ HE HP HA HN HN1) as (-> & -> & HE2). rewrite recs_len. split; auto.
  assert (HK2 : kinds (recs pre1 ++ recs post1)).
  { unfold kinds in *. rewrite recs_app, !Forall_app in *. cbn [recs map app] in H2.
    destruct H2 as [H2 H3]. inversion H3; auto. }
  destruct (sd_read_step t _ c1 (recs pre1) (zlen pre1) post1 HC HR1 HK2)
    as [(HA2 & _)|(pre2 & b2 & post2 & e' & c2 & -> & HA2 & HN2 & HE3 & _ & HS2 & _)].
  { exfalso. rewrite <- HE2 in HA2. apply Forall_app in HA2 as [_ HA2]. inversion HA2; tauto. }
  rewrite HS2. exists e'. split; auto. rewrite recs_app in HE2. cbn [recs map] in HE2. fold (recs post2) in HE2.
  destruct (app_at _ _ _ _ _ _ _ HE2 HM HA2 HN' HN2) as (-> & _). now rewrite recs_len.
Qed.
Print Assumptions C32_numbers_restart.

Example C32_case :
  let rs := [block_fields ex_grid; block_fields ex_half; block_fields ex_grid; block_fields ex_extra; block_fields ex_grid] in
  kept Grid rs [block_fields ex_grid; block_fields ex_grid; block_fields ex_grid] 2 /\
  (rlet bs := dmap_write rs in
   rlet rd := sd_reader_init (fun _ => None) (FromStream bs) in
   let (x1, rd1) := sd_read Grid rd in
   let (x2, rd2) := sd_read Grid rd1 in
   rlet ds := fst (sd_read Grid rd2) in
   Ok (match x1 with Raise (SuperDARNFieldMissingError n _) => n | _ => -1 end,
       match x2 with Raise (SuperDARNExtraFieldError n _) => n | _ => -1 end, map zlen ds)) = Ok (1, 1, [8; 8; 8]).
Proof.
  split; [|vm_compute; reflexivity]. destruct ex_fields as (_ & H1 & H2 & H3 & _).
  repeat first [apply kept_nil|apply kept_good; [exact H1|]|apply kept_bad; [first [exact H2|exact H3]|]].
Qed.

(** ** C33 Reading again with another type *)

Theorem C33_no_checks : forall t1 t2 fs src rd ds rd1,
  sd_reader_init fs src = Ok rd -> sd_read t1 rd = (Ok ds, rd1) -> fst (sd_read t2 rd1) = Ok ds.
Proof.
  intros t1 t2 fs src rd ds rd1 HI HS. destruct (init_fresh _ _ _ HI) as [HF _]. rewrite HF in HS.
  unfold sd_read in HS.
  destruct (darn_records_cases t1 (mk_reader (rdr_buf rd) 0 [] 0)) as (bl & c1 & H1 & H2 & H3); [cbn; lia|].
  cbn [rdr_buf rdr_cursor rdr_records app] in *.
  destruct (read_darn_records _ _ _) as [[[]|e'] r']; [|discriminate].
  destruct H3 as [H3 ->]. injection HS as HD <-. cbn [rdr_records] in HD.
  unfold sd_read, read_darn_records. cbn [rdr_buf rdr_cursor rdr_records read_darn_loop]. unfold end_bytes.
  replace (c1 <? zlen (rdr_buf rd)) with false by lia. exact HD.
Qed.
Print Assumptions C33_no_checks.

(** Any number of further calls, with any types. *)
Theorem C33_history : forall t fs src rd ds rd1 ts,
  sd_reader_init fs src = Ok rd -> sd_read t rd = (Ok ds, rd1) ->
  let rd2 := fold_left (fun r t' => snd (sd_read t' r)) ts rd1 in
  (forall t', fst (sd_read t' rd2) = Ok ds).
Proof.
  intros t fs src rd ds rd1 ts HI HS.
  assert (HD : rdr_cursor rd1 <? zlen (rdr_buf rd1) = false /\ dmap2dict (rdr_records rd1) = Ok ds).
  { destruct (init_fresh _ _ _ HI) as [HF _]. rewrite HF in HS. unfold sd_read in HS.
    destruct (darn_records_cases t (mk_reader (rdr_buf rd) 0 [] 0)) as (bl & c1 & H1 & H2 & H3); [cbn; lia|].
    cbn [rdr_buf rdr_cursor rdr_records app] in *.
    destruct (read_darn_records _ _ _) as [[[]|e'] r']; [|discriminate].
    destruct H3 as [H3 ->]. injection HS as HD <-. cbn [rdr_records rdr_buf rdr_cursor] in *. split; auto. lia. }
  clear HI HS. revert rd1 HD. induction ts as [|t0 ts IH]; intros rd1 [H1 H2]; cbn [fold_left].
  - intros t'. unfold sd_read, read_darn_records. cbn [rdr_buf rdr_cursor rdr_records read_darn_loop]. unfold end_bytes.
    rewrite H1. exact H2.
  - apply IH. unfold sd_read, read_darn_records. cbn [rdr_buf rdr_cursor rdr_records read_darn_loop]. unfold end_bytes.
    rewrite H1. cbn [snd rdr_buf rdr_cursor rdr_records]. auto.
Qed.
Print Assumptions C33_history.

(** A grid file, then read as rawacf: refused by a fresh reader, accepted by one
    that has read it as grid. *)
Example C33_case :
  (rlet bs := dmap_write [block_fields ex_grid] in
   rlet rd := sd_reader_init (fun _ => None) (FromStream bs) in
   let (x1, rd1) := sd_read Grid rd in
   rlet ds := x1 in rlet ds2 := fst (sd_read Rawacf rd1) in
   Ok (map zlen ds, map zlen ds2, match fst (sd_read Rawacf rd) with Ok _ => true | Raise _ => false end)) =
  Ok ([8], [8], false).
Proof. vm_compute. reflexivity. Qed.

(** ** C34 Scalars and arrays *)

(** Two records with the same names and the same formats, field by field:
    kinds, values and shapes do not matter. *)
Theorem C34_only_formats : forall r r',
  Forall2 (fun p q => fst p = fst q /\ forall f, has_format f (snd p) <-> has_format f (snd q)) r r' ->
  forall t n,
  read_checks (read_struct_list t) (read_optional_list t) r n =
  read_checks (read_struct_list t) (read_optional_list t) r' n /\
  write_checks (write_struct_list t) (write_optional_list t) r n =
  write_checks (write_struct_list t) (write_optional_list t) r' n.
Proof. intros r r' H t n. split; now apply same_format_checks. Qed.
Print Assumptions C34_only_formats.

(** A grid record with every scalar replaced by an array and vice versa. *)
Example C34_case :
  let r' := map (fun p => (fst p, IArray (ex_array p))) (firstn 2 grid_fitted_fields) ++
            map (fun p => (fst p, IScalar (ex_scalar p))) (skipn 2 grid_fitted_fields) in
  Forall2 (fun p q => fst p = fst q /\ forall f, has_format f (snd p) <-> has_format f (snd q))
          (block_fields ex_grid) r' /\ acceptable Grid r'.
Proof.
  split; [|accepted].
  repeat (constructor; [split; [reflexivity|]; intros f; split; intros H; inversion H; subst; constructor; reflexivity|]).
  constructor.
Qed.

(** ** C35 The tables *)

(** One name, one group, one format. *)
Theorem C35_disjoint : forall t, NoDup (names (sd_loose t ++ concat (sd_groups t))).
Proof. intros t. apply nodupb_NoDup. destruct t; vm_compute; reflexivity. Qed.
Print Assumptions C35_disjoint.

(** Every format has a type code of the DMAP reader that stands for this format
    and no other. *)
Theorem C35_formats : forall t k f, declared t k f ->
  dmap_data_types (dmap_format_types f) = Some (Some f) /\
  forall code, dmap_data_types code = Some (Some f) -> code = dmap_format_types f.
Proof.
  intros t k f _. split; [destruct f; reflexivity|]. intros code H. apply data_types_inv in H as ->. now destruct f.
Qed.
Print Assumptions C35_formats.

(** The order in which the groups are listed does not matter. *)
Theorem C35_order : forall t gs gs' r n,
  Permutation (read_struct_list t) gs -> Permutation (write_struct_list t) gs' ->
  same_outcome (read_checks gs (read_optional_list t) r n)
               (read_checks (read_struct_list t) (read_optional_list t) r n) /\
  same_outcome (write_checks gs' (write_optional_list t) r n)
               (write_checks (write_struct_list t) (write_optional_list t) r n).
Proof.
  intros t gs gs' r n H1 H2. split.
  - apply (perm_checks gs); [now symmetry|]. eapply Permutation_NoDup; [|apply read_nodup].
    apply Permutation_map. rewrite <- (map_id gs), <- (map_id (read_struct_list t)), <- !flat_map_concat_map. now apply Permutation_flat_map.
  - apply (perm_checks gs'); [now symmetry|]. eapply Permutation_NoDup; [|apply write_nodup].
    apply Permutation_map. rewrite <- (map_id gs'), <- (map_id (write_struct_list t)), <- !flat_map_concat_map. now apply Permutation_flat_map.
Qed.
Print Assumptions C35_order.

Example C35_case :
  Permutation (read_struct_list Map) (rev (read_struct_list Map)) /\
  read_checks (rev (read_struct_list Map)) [] [(str "model.mlat", IScalar (ex_scalar (str "x", Ff)));
    (str "vector.mlat", IScalar (ex_scalar (str "x", Ff)))] 4 <>
  read_checks (read_struct_list Map) [] [(str "model.mlat", IScalar (ex_scalar (str "x", Ff)));
    (str "vector.mlat", IScalar (ex_scalar (str "x", Ff)))] 4.
Proof. split; [apply Permutation_rev|]. vm_compute. discriminate. Qed.

(** ** C17 Writing again with one SDarnWrite object *)

(** Each further write_<type> puts everything written before in front; [b1] is
    the same records with the sizes of the arrays the other way round. *)
Theorem C17_sdarn : forall t rs rs' fn w b0 name fs,
  check_dmap_dict rs = Ok rs' -> sd_writer_new rs fn = Ok w -> dmap_write rs = Ok b0 ->
  Forall (acceptable t) rs' -> name <> [] ->
  exists b1, dmap_write (map flip_record rs') = Ok b1 /\ zlen b1 = zlen b0 /\
    (b1 = b0 <->
     Forall (Forall (fun p => match snd p with
                              | IArray a => 1 < ar_dim a -> rev (ar_shape a) = ar_shape a
                              | _ => True end)) rs') /\
    forall k, let s := iterate k (write_again t name) (w, fs) in
      exists w' fs', sd_write t (snd s) (fst s) name = (Ok tt, w', fs') /\
        fs' name = Some (alternate (S k) b0 b1).
Proof.
  intros t rs rs' fn w b0 name fs HC HN HW HA HNm.
  destruct (dmap_write_inv _ _ HW) as (rs0 & bl & HC' & HNE & HF & ->).
  assert (rs0 = rs') as -> by congruence. clear HC'.
  destruct (flip_records _ _ HF) as (bl' & HF' & HL & HP).
  exists (concat bl'). splits.
  - apply (dmap_write_ok _ (map flip_record rs') bl'); auto.
    + eapply check_flip; eauto.
    + destruct rs'; [congruence|discriminate].
  - now apply zlen_concat_map.
  - exact HP.
  - intros k. apply sd_writer_new_inv in HN as (rs1 & HC1 & -> & _).
    assert (rs1 = rs') as -> by congruence.
    exact (sd_repeat t name k fs fn rs' [] bl bl' HNm HNE HA HF HF').
Qed.
Print Assumptions C17_sdarn.

(** A grid record whose arrays are 2 x 3. *)
Definition ex_grid23 : record :=
  map (fun p => (fst p, IScalar (ex_scalar p))) (firstn 2 grid_fitted_fields) ++
  map (fun p => (fst p, IArray (mk_darray (fst p) (mk_ndarray (wire_dtype (snd p)) false [2;3] [1;2;3;4;5;6])
                                 (wire_code (snd p)) (snd p) 2 [2;3]))) (skipn 2 grid_fitted_fields).
Example C17_case_sdarn :
  check_dmap_dict [ex_grid23] = Ok [ex_grid23] /\ acceptable Grid ex_grid23 /\
  (rlet w := sd_writer_new [ex_grid23] [] in
   match sd_write Grid (fun _ => None) w [102] with
   | (x, w1, fs1) => rlet _ := x in
     match sd_write Grid fs1 w1 [102] with
     | (y, w2, fs2) => rlet _ := y in
         Ok (option_map zlen (fs1 [102]), option_map zlen (fs2 [102]))
     end
   end) = Ok (Some 333, Some 666).
Proof. split; [reflexivity|split; [accepted|vm_compute; reflexivity]]. Qed.

(** ** C18 Failed and successful writes *)

Theorem C18_sdarn_failed : forall t fs w fn e w' fs',
  sd_write t fs w fn = (Raise e, w', fs') -> fs' = fs.
Proof. intros t fs w fn e w' fs' H. apply sd_write_failed in H. apply H. Qed.
Print Assumptions C18_sdarn_failed.

Theorem C18_sdarn_written : forall t fs w fn w' fs',
  sd_write t fs w fn = (Ok tt, w', fs') ->
  Forall (acceptable t) (wr_records w) /\
  exists name bs, name <> [] /\ (fn <> [] -> name = fn) /\ (fn = [] -> name = wr_filename w) /\
    fst (write_dmap_stream w []) = Ok bs /\ fs' name = Some bs /\
    forall n, n <> name -> fs' n = fs n.
Proof.
  intros t fs w fn w' fs' H. apply sd_write_succeeded in H as (HA & _ & H). split; auto.
  apply write_dmap_effect in H. cbv zeta in H.
  destruct H as (bs & H1 & H2 & H3 & H4).
  exists (match fn with [] => wr_filename w | _ => fn end), bs. splits; auto; destruct fn; congruence.
Qed.
Print Assumptions C18_sdarn_written.

Example C18_case_sdarn :
  let fs := fun n => if str_eqb n [111] then Some [1;2;3] else None in
  (rlet w := sd_writer_new [block_fields ex_grid; block_fields ex_half] [111] in
   match sd_write Grid fs w [] with (_, _, fs') => Ok (fs' [111]) end) = Ok (Some [1;2;3]) /\
  (rlet w := sd_writer_new [block_fields ex_grid; block_fields ex_grid] [111] in
   match sd_write Grid fs w [] with (_, _, fs') => Ok (option_map zlen (fs' [111])) end) = Ok (Some 458).
Proof. split; [vm_compute; reflexivity|vm_compute; reflexivity]. Qed.

(** ** C19 The filename *)

(** Calls on one SDarnWrite object: any types, any names. *)
Fixpoint run_writes (fs : fsys) (w : writer) (calls : list (sd_type * pystr)) : writer * fsys :=
  match calls with
  | [] => (w, fs)
  | (t, fn) :: calls' => match sd_write t fs w fn with (_, w', fs') => run_writes fs' w' calls' end
  end.
(** The last non-empty name. *)
Fixpoint last_name (name : pystr) (l : list pystr) : pystr :=
  match l with
  | [] => name
  | [] :: l' => last_name name l'
  | n :: l' => last_name n l'
  end.

Lemma sd_write_name t fs w fn :
  wr_filename (snd (fst (sd_write t fs w fn))) = match fn with [] => wr_filename w | _ => fn end.
Proof.
  rewrite sd_write_cases. destruct (match fn with [] => wr_filename w | _ => fn end) as [|c n] eqn:E.
  - cbn [fst snd]. destruct fn; congruence.
  - destruct (wr_records w); [reflexivity|].
    destruct (structure_to_bytes _ _ _ _ _) as [[[[]|e] acc] rs']; reflexivity.
Qed.

Theorem C19_sdarn : forall recs fn0 w0 fs0 calls t fn w fs,
  sd_writer_new recs fn0 = Ok w0 -> run_writes fs0 w0 calls = (w, fs) ->
  let name := last_name fn0 (map snd calls ++ [fn]) in
  match sd_write t fs w fn with
  | (Ok _, _, fs') => name <> [] /\ (exists bs, fs' name = Some bs) /\ forall n, n <> name -> fs' n = fs n
  | (Raise e, _, _) => e = FilenameRequiredError <-> name = []
  end.
Proof.
  intros recs fn0 w0 fs0 calls t fn w fs HN HR name.
  assert (HNm : name = match fn with [] => wr_filename w | _ => fn end).
  { apply sd_writer_new_inv in HN as (rs' & _ & -> & _). unfold name. clear name.
    replace fn0 with (wr_filename (mk_writer fn0 rs' [])) at 1 by reflexivity.
    revert HR. generalize (mk_writer fn0 rs' []) as w1. revert fs0.
    induction calls as [|[t0 n0] calls IH]; intros fs0 w1 HR; cbn [run_writes map app snd] in *.
    - injection HR as -> _. destruct fn; reflexivity.
    - destruct (sd_write t0 fs0 w1 n0) as [[x w2] fs2] eqn:E. apply IH in HR.
      pose proof (sd_write_name t0 fs0 w1 n0) as HX. rewrite E in HX. cbn [fst snd] in HX. rewrite HX in HR.
      destruct n0; exact HR. }
  destruct (sd_write t fs w fn) as [[[[]|e] w'] fs'] eqn:E.
  - apply C18_sdarn_written in E as (_ & n & bs & H1 & H2 & H3 & _ & H4 & H5).
    assert (name = n) as -> by (rewrite HNm; destruct fn; symmetry; [now apply H3|now apply H2]). eauto.
  - pose proof (sd_write_failed _ _ _ _ _ _ _ E) as H. cbv zeta in H. rewrite <- HNm in H.
    destruct H as (_ & [(H1 & H2 & _)|[(H1 & _ & -> & _)|(H1 & pre & r & post & bl & rest & _ & _ & _ & _ & H5)]]).
    + tauto.
    + split; [discriminate|tauto].
    + split; [|tauto]. intros ->. exfalso. destruct H5 as [(_ & _ & _ & H5)|(_ & _ & r' & H5 & _)].
      * apply (checks_exceptions _ _ _ _ _ (write_nonempty t)) in H5 as [[(? & ?)|[(? & ?)|(? & ?)]]|[?|?]]; discriminate.
      * assert (HX : In FilenameRequiredError write_exceptions) by (apply (rw_record r); now rewrite H5).
        cbn in HX. decompose [or] HX; try discriminate; auto.
Qed.
Print Assumptions C19_sdarn.

Example C19_case_sdarn :
  last_name [97] ([[]; [98]; []] ++ [[]]) = [98] /\
  (rlet w0 := sd_writer_new [block_fields ex_grid] [97] in
   let (w, fs) := run_writes (fun _ => None) w0 [(Grid, []); (Rawacf, [98]); (Grid, [])] in
   match sd_write Grid fs w [] with
   | (x, _, fs') => rlet _ := x in Ok (option_map zlen (fs [97]), option_map zlen (fs [98]), option_map zlen (fs' [98]))
   end) = Ok (Some 229, Some 458, Some 687).
Proof. split; [reflexivity|vm_compute; reflexivity]. Qed.

(** ** C26 Empty input *)

Theorem C26_sdarn : forall fs name fn rs w,
  sd_reader_init fs (FromStream []) = Raise EmptyFileError /\
  (fs name = Some [] -> sd_reader_init fs (FromFile name) = Raise EmptyFileError) /\
  sd_writer_new [] fn = Raise DmapDataError /\
  (sd_writer_new rs fn = Ok w -> rs <> []).
Proof.
  intros fs name fn rs w. splits.
  - reflexivity.
  - intros H. unfold sd_reader_init. cbn [dmap_reader_init]. now rewrite H.
  - reflexivity.
  - intros H ->. discriminate.
Qed.
Print Assumptions C26_sdarn.

(** No read_<type> of a fresh reader returns nothing. *)
Theorem C26_sdarn_read : forall t fs src rd ds rd',
  sd_reader_init fs src = Ok rd -> sd_read t rd = (Ok ds, rd') -> ds <> [].
Proof.
  intros t fs src rd ds rd' HI HS. destruct (init_fresh _ _ _ HI) as [HF HZ]. rewrite HF in HS.
  unfold sd_read in HS.
  destruct (darn_records_cases t (mk_reader (rdr_buf rd) 0 [] 0)) as (bl & c1 & H1 & H2 & H3); [cbn; lia|].
  cbn [rdr_buf rdr_cursor rdr_records app] in *.
  destruct (read_darn_records _ _ _) as [[[]|e'] r']; [|discriminate].
  destruct H3 as [H3 ->]. injection HS as HD <-. cbn [rdr_records] in HD.
  inversion H1; subst; [pose proof (zlen_nonneg (rdr_buf rd)); lia|].
  cbn [recs map dmap2dict] in HD. inv_rbind HD x. inv_rbind HD y. apply ok_inj in HD as <-. discriminate.
Qed.
Print Assumptions C26_sdarn_read.

Example C26_case_sdarn :
  sd_reader_init (fun _ => Some []) (FromFile [97]) = Raise EmptyFileError /\
  (rlet bs := dmap_write [block_fields ex_grid] in
   rlet rd := sd_reader_init (fun _ => None) (FromStream bs) in
   rlet ds := fst (sd_read Grid rd) in Ok (zlen ds)) = Ok 1.
Proof. split; [reflexivity|vm_compute; reflexivity]. Qed.

(** ** C51 What a failed write leaves behind *)

(** A write_<type> that fails at record [r] after [pre] changes no file, but the
    bytes of the records before stay in the object: every later write of that
    object, DMAP or SuperDARN, starts with them and goes on with further bytes. *)
Theorem C51_leftover : forall t fs w fn e w1 fs1,
  sd_write t fs w fn = (Raise e, w1, fs1) -> wr_bytearr w = [] -> wr_records w <> [] ->
  match fn with [] => wr_filename w | _ => fn end <> [] ->
  exists pre r post bs word, wr_records w = pre ++ r :: post /\ (pre = [] /\ bs = [] \/ dmap_write pre = Ok bs) /\
    Forall (acceptable t) pre /\ wr_bytearr w1 = bs ++ word /\
    (word = [] \/ word = ident65537 /\ e = StructError /\ acceptable t r) /\
    (forall rs out, fst (write_dmap_stream w1 rs) = Ok out -> exists rest, out = bs ++ rest /\ rest <> []) /\
    (forall t2 fs2 fn2 w3 fs3, sd_write t2 fs2 w1 fn2 = (Ok tt, w3, fs3) ->
       exists name rest, fs3 name = Some (bs ++ rest) /\ rest <> []).
Proof.
  intros t fs w fn e w1 fs1 H HB HR HN. apply sd_write_failed in H. cbv zeta in H.
  destruct H as (-> & [(H & _)|[(_ & H & _)|(_ & pre & r & post & bl & word & H1 & H2 & H3 & H4 & H5)]]); try tauto.
  rewrite HB in H4. cbn [app] in H4.
  exists pre, r, post, (concat bl), word. splits; auto.
  - destruct pre as [|p0 pre]; [left; inversion H3; auto|right].
    apply (dmap_write_ok _ (p0 :: pre) bl); auto; [|discriminate].
    destruct p0 as [|[k [s|a|v]] p0]; try reflexivity. exfalso.
    inversion H2 as [|? ? [_ HX] _]; subst. destruct (HX k (IPlain v) (or_introl eq_refl)) as (f & _ & Hf). inversion Hf.
  - destruct H5 as [(_ & -> & _)|(HA & -> & r' & HC & _)]; [now left|].
    destruct (rest_cases _ _ _ HC) as [[-> _]|(-> & HE & _)]; auto.
  - intros rs out HO. apply stream_starts in HO as (rest & -> & HX). rewrite H4, <- app_assoc.
    exists (word ++ rest). split; auto. now destruct word.
  - intros t2 fs2 fn2 w3 fs3 HS. apply C18_sdarn_written in HS as (_ & name & bs & _ & _ & _ & HO & HF & _).
    apply stream_starts in HO as (rest & -> & HX). rewrite H4, <- app_assoc in HF. exists name, (word ++ rest). split; auto. now destruct word.
Qed.
Print Assumptions C51_leftover.

(** Two good grid records and an incomplete one: write_grid fails without a
    file; write_dmap on the same object then puts the two good ones in twice. *)
Example C51_case :
  (rlet w := sd_writer_new [block_fields ex_grid; block_fields ex_grid; block_fields ex_half] [102] in
   match sd_write Grid (fun _ => None) w [] with
   | (Raise e, w1, fs1) =>
       match write_dmap fs1 w1 [] with
       | (x, _, fs2) => rlet _ := x in rlet bs := dmap_write [block_fields ex_grid; block_fields ex_grid; block_fields ex_half] in
           Ok (fs1 [102], option_map zlen (fs2 [102]), zlen bs)
       end
   | _ => Raise OutOfModel
   end) = Ok (None, Some (458 + 567), 567).
Proof. vm_compute. reflexivity. Qed.
