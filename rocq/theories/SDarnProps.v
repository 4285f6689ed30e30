(** Properties of the SuperDARN file types: C27-C35, and the SuperDARN side of
    C17, C18, C19 and C26.  Every theorem is followed by a concrete case that
    meets its hypotheses. *)
From Coq Require Import ZArith String List Bool Lia Permutation.
From Verif Require Import Base Bytes BytesSpec BytesProofs FloatBits DmapTypes DmapRead DmapWrite Conversions
  DmapSpec DmapReadProofs DmapFileProofs DmapStreamProofs DmapReadProps DmapWriteSpec DmapWriteProofs
  DmapWriterProofs DmapWriteFacts DmapObjectProofs DmapConvProofs DmapWriteProps
  SDarnFormats SDarn SDarnSpec SDarnChecks SDarnProofs SDarnObjectProofs SDarnFileProofs SDarnWriteProofs.
Import ListNotations.
Open Scope string_scope.
Open Scope list_scope.
Open Scope Z_scope.

(** ** Concrete records *)

(** A scalar and an array of two elements for a table entry. *)
Definition ex_value (f : fmt) : pyval :=
  match f with Fs => VStr [72;105] | Ff => VFloat (widen 1069547520) | Fd => VFloat 4609434218613702656 | _ => VInt 7 end.
Definition ex_scalar (p : pystr * fmt) : dscalar :=
  mk_dscalar (fst p) (ex_value (snd p)) (wire_code (snd p)) (snd p).
Definition ex_array (p : pystr * fmt) : darray :=
  mk_darray (fst p) (mk_ndarray (wire_dtype (snd p)) false [2] [1;2]) (wire_code (snd p)) (snd p) 1 [2].

(** A rawacf record with correlation data: 47 scalars, 5 arrays. *)
Definition ex_rawacf : block :=
  (map ex_scalar (firstn 47 rawacf_types), map ex_array (skipn 47 rawacf_types ++ rawacf_correlation_field)).
(** The fitted fields of a grid record alone, and 4 of its 8 fields. *)
Definition ex_grid : block :=
  (map ex_scalar (firstn 2 grid_fitted_fields), map ex_array (skipn 2 grid_fitted_fields)).
Definition ex_half : block :=
  (map ex_scalar (firstn 2 grid_fitted_fields), map ex_array (firstn 2 (skipn 2 grid_fitted_fields))).
(** A field no type has, and a field with another format. *)
Definition ex_extra : block := (ex_scalar (str "foo", Fh) :: fst ex_grid, snd ex_grid).
Definition ex_typed : block := (ex_scalar (str "vector.mlat", Fd) :: tl (fst ex_grid), snd ex_grid).

Ltac accepted := match goal with |- acceptable ?t _ => apply (read_accepts t _ 0); vm_compute; reflexivity end.
Ltac refused := match goal with |- ~ acceptable ?t _ =>
  let H := fresh in intros H; apply (read_accepts t _ 0) in H; vm_compute in H; discriminate H end.

Lemma ex_fields :
  acceptable Rawacf (block_fields ex_rawacf) /\ acceptable Grid (block_fields ex_grid) /\
  ~ acceptable Grid (block_fields ex_half) /\ ~ acceptable Grid (block_fields ex_extra) /\
  ~ acceptable Grid (block_fields ex_typed).
Proof. splits; try accepted; refused. Qed.

(** ** C27 The rules *)

Theorem C27_read_accepts : forall t r n,
  read_checks (read_struct_list t) (read_optional_list t) r n = Ok tt <-> acceptable t r.
Proof. exact read_accepts. Qed.
Print Assumptions C27_read_accepts.

Theorem C27_write_accepts : forall t r n,
  write_checks (write_struct_list t) (write_optional_list t) r n = Ok tt <-> acceptable t r.
Proof. exact write_accepts. Qed.
Print Assumptions C27_write_accepts.

(** Reading: missing fields before unknown fields before wrong formats; the
    error lists exactly the fields concerned. *)
Theorem C27_read_errors : forall t r n,
  Forall (fun p => dmap_item (snd p)) r ->
  ((exists k, missing t r k) ->
     exists l, read_checks (read_struct_list t) (read_optional_list t) r n =
                 Raise (SuperDARNFieldMissingError n l) /\ forall k, In k l <-> missing t r k) /\
  ((forall k, ~ missing t r k) -> (exists k, unknown t r k) ->
     exists l, read_checks (read_struct_list t) (read_optional_list t) r n =
                 Raise (SuperDARNExtraFieldError n l) /\ forall k, In k l <-> unknown t r k) /\
  ((forall k, ~ missing t r k) -> (forall k, ~ unknown t r k) -> (exists k, mistyped t r k) ->
     exists l, read_checks (read_struct_list t) (read_optional_list t) r n =
                 Raise (SuperDARNDataFormatTypeError l n) /\ forall k, In k l <-> mistyped t r k).
Proof. exact read_error. Qed.
Print Assumptions C27_read_errors.

(** Writing: unknown fields first. *)
Theorem C27_write_errors : forall t r n,
  Forall (fun p => dmap_item (snd p)) r ->
  ((exists k, unknown t r k) ->
     exists l, write_checks (write_struct_list t) (write_optional_list t) r n =
                 Raise (SuperDARNExtraFieldError n l) /\ forall k, In k l <-> unknown t r k) /\
  ((forall k, ~ unknown t r k) -> (exists k, missing t r k) ->
     exists l, write_checks (write_struct_list t) (write_optional_list t) r n =
                 Raise (SuperDARNFieldMissingError n l) /\ forall k, In k l <-> missing t r k) /\
  ((forall k, ~ unknown t r k) -> (forall k, ~ missing t r k) -> (exists k, mistyped t r k) ->
     exists l, write_checks (write_struct_list t) (write_optional_list t) r n =
                 Raise (SuperDARNDataFormatTypeError l n) /\ forall k, In k l <-> mistyped t r k).
Proof. exact write_error. Qed.
Print Assumptions C27_write_errors.

(** On whole files: read_<type> returns exactly when every record obeys the
    rules, and then shows all of them. *)
Theorem C27_files : forall t fs buf rs rd, Forall is_byte buf ->
  dmap_read buf = Ok rs -> sd_reader_init fs (FromStream buf) = Ok rd ->
  (Forall (acceptable t) rs ->
     exists ds, fst (sd_read t rd) = Ok ds /\ dmap_read_dicts buf = Ok ds) /\
  (~ Forall (acceptable t) rs -> exists e n, fst (sd_read t rd) = Raise e /\ field_error e n).
Proof.
  intros t fs buf rs rd HBY HR HI. destruct (init_fresh _ _ _ HI) as [HF _].
  assert (rdr_buf rd = buf) as HB.
  { unfold sd_reader_init, dmap_reader_init, reader_new in HI. destruct (_ =? 0); [discriminate|].
    apply ok_inj in HI as <-. reflexivity. }
  rewrite HB in HF. subst rd. destruct (read_reads _ _ HBY HR) as (bl & H1 & -> & H2).
  unfold dmap_read_dicts. rewrite HR. cbn [rbind].
  destruct (sd_read_step t buf 0 [] 0 bl ltac:(lia) H1 H2) as [(HA & ds & HD & HS)|(pre & b & post & e & c1 & -> & HA & HN & HE & _ & HS & _)].
  - split; [|tauto]. intros _. exists ds. rewrite HS. auto.
  - split.
    + intros HF. exfalso. rewrite recs_app in HF. apply Forall_app in HF as [_ HF]. inversion HF; tauto.
    + intros _. exists e, (zlen pre). rewrite HS. auto.
Qed.
Print Assumptions C27_files.

Example C27_case_errors :
  Forall (fun p => dmap_item (snd p)) (block_fields ex_half) /\
  missing Grid (block_fields ex_half) (str "vector.vel.sd") /\
  unknown Grid (block_fields ex_extra) (str "foo") /\
  mistyped Grid (block_fields ex_typed) (str "vector.mlat").
Proof.
  splits.
  - repeat (constructor; [eexists; constructor; reflexivity|]). constructor.
  - exists grid_fitted_fields, (str "vector.mlat"). splits; try (vm_compute; tauto).
    vm_compute. intuition discriminate.
  - split; [vm_compute; tauto|]. intros f H. apply read_declared in H.
    apply (dict_get_nodup _ _ _ (read_nodup Grid)) in H. vm_compute in H. discriminate.
  - exists (IScalar (ex_scalar (str "vector.mlat", Fd))), Ff. splits; [left; reflexivity| |].
    + right. exists grid_fitted_fields. split; vm_compute; tauto.
    + intros H. inversion H. discriminate.
Qed.
Example C27_case_files :
  (rlet bs := dmap_write [block_fields ex_rawacf; block_fields ex_rawacf] in
   rlet rd := sd_reader_init (fun _ => None) (FromStream bs) in
   rlet ds := fst (sd_read Rawacf rd) in Ok (map zlen ds)) = Ok [52; 52] /\
  (rlet bs := dmap_write [block_fields ex_grid; block_fields ex_half] in
   rlet rd := sd_reader_init (fun _ => None) (FromStream bs) in fst (sd_read Grid rd)) =
  Raise (SuperDARNFieldMissingError 1
    [str "vector.vel.sd"; str "vector.index"; str "vector.kvect"; str "vector.mlon"]).
Proof. split; vm_compute; reflexivity. Qed.

(** ** C28 Reading and writing agree *)

Theorem C28_same_verdict : forall t r n m,
  read_checks (read_struct_list t) (read_optional_list t) r n = Ok tt <->
  write_checks (write_struct_list t) (write_optional_list t) r m = Ok tt.
Proof. intros t r n m. now rewrite read_accepts, write_accepts. Qed.
Print Assumptions C28_same_verdict.

(** Hence for whole files: if read_<type> accepts the file, write_<type> accepts
    its records whenever write_dmap does, with the same bytes. *)
Theorem C28_files : forall t fs buf rs rd ds rd' fn, Forall is_byte buf ->
  dmap_read buf = Ok rs -> sd_reader_init fs (FromStream buf) = Ok rd -> sd_read t rd = (Ok ds, rd') ->
  sd_write t fs (mk_writer [] rs []) fn = write_dmap fs (mk_writer [] rs []) fn.
Proof.
  intros t fs buf rs rd ds rd' fn HBY HR HI HS. apply sd_write_dmap.
  - exact (proj2 (check_of_read _ _ HR)).
  - cbn [wr_records]. destruct (C27_files t fs buf rs rd HBY HR HI) as [_ HN].
    assert (HD : Forall (acceptable t) rs \/ ~ Forall (acceptable t) rs).
    { clear. induction rs as [|r rs IH]; auto. destruct (acceptable_dec t r), IH; auto; right; intros HX; inversion HX; tauto. }
    destruct HD as [HD|HD]; auto. destruct (HN HD) as (e & n & HE & _). rewrite HS in HE. discriminate.
Qed.
Print Assumptions C28_files.

Example C28_case :
  (rlet bs := dmap_write [block_fields ex_rawacf] in
   rlet rd := sd_reader_init (fun _ => None) (FromStream bs) in
   rlet rs := dmap_read bs in
   match sd_read Rawacf rd, sd_write Rawacf (fun _ => None) (mk_writer [] rs []) [102] with
   | (Ok _, _), (Ok _, _, fs') => Ok (fs' [102])
   | _, _ => Raise OutOfModel
   end) = (rlet bs := dmap_write [block_fields ex_rawacf] in Ok (Some bs)).
Proof. vm_compute. reflexivity. Qed.

(** ** C29 Write then read *)

Theorem C29_round_trip : forall t fs fn bl bl',
  bl <> [] -> fn <> [] -> Forall2 block_back bl bl' -> file_bytes bl <= 2 ^ 63 - 1 ->
  Forall (acceptable t) (map block_fields bl) ->
  exists w w' fs' rd ds rd',
    sd_writer_new (map block_fields bl) [] = Ok w /\ sd_write t fs w fn = (Ok tt, w', fs') /\
    sd_reader_init fs' (FromFile fn) = Ok rd /\ sd_read t rd = (Ok ds, rd') /\
    rdr_records rd' = map block_fields bl' /\ Forall2 shown (map block_fields bl') ds.
Proof.
  intros t fs fn bl bl' HN HFN HB HL HA.
  destruct (round_trip bl bl' HN HB HL) as (bs & HW & HWB & HZ & HRD).
  destruct (dmap_write_inv _ _ HW) as (rs' & xs & HC & HNE & HF & ->).
  assert (HCC : check_dmap_dict (map block_fields bl) = Ok (map block_fields bl)).
  { destruct HB as [|b b' bl bl' Hb HB]; [congruence|]. destruct Hb as (HS & _).
    destruct b as [[|s ss] aa]; [now destruct HS|]. reflexivity. }
  assert (rs' = map block_fields bl) as -> by congruence.
  exists (mk_writer [] (map block_fields bl) []). do 2 eexists.
  exists (mk_reader (concat xs) 0 [] 0).
  assert (HB0 : zlen (concat xs) <> 0).
  { destruct HF as [|r x rs xs Hx HF]; [congruence|]. cbn [concat]. rewrite zlen_app.
    apply record_bytes_header in Hx as (w2 & w3 & w4 & y & -> & _). rewrite zlen_app.
    change (zlen ident65537) with 4. pose proof (zlen_nonneg (w2 ++ w3 ++ w4 ++ concat y)). pose proof (zlen_nonneg (concat xs)). lia. }
  destruct (read_reads _ _ (wire_list_bytes _ _ _ (wire_block_bytes _) HWB) HRD) as (bl2 & HR1 & HR2 & HK).
  assert (HA' : Forall (acceptable t) (map block_fields bl')).
  { clear - HB HA. induction HB as [|b b' bl bl' Hb HB IH]; cbn [map] in *; constructor; inversion HA; subst; auto.
    apply (read_accepts t _ 0). apply (read_accepts t _ 0) in H1. rewrite <- H1. symmetry.
    apply same_format_checks. destruct Hb as (_ & _ & _ & _ & HS & HR). unfold block_fields.
    apply Forall2_app.
    - clear - HS. induction HS as [|s s' l l' Hs HS IH]; cbn [map]; constructor; auto. destruct Hs. split; [reflexivity|].
      cbn [snd]. intros g. split; intros HX; inversion HX; subst; constructor; reflexivity.
    - clear - HR. induction HR as [|s s' l l' Hs HR IH]; cbn [map]; constructor; auto. destruct Hs. split; [reflexivity|].
      cbn [snd]. intros g. split; intros HX; inversion HX; subst; constructor; reflexivity. }
  destruct (sd_read_step t (concat xs) 0 [] 0 bl2 ltac:(lia) HR1) as [(_ & ds & HD & HS)|(pre & b & post & e & c1 & HE & _ & HN' & _)].
  - now rewrite <- HR2.
  - cbn [app] in HD, HS. rewrite <- HR2 in HD, HS. exists ds, (mk_reader (concat xs) (zlen (concat xs)) (map block_fields bl') (zlen bl2)).
    splits.
    + unfold sd_writer_new, writer_new. rewrite HCC. cbn [rbind empty_record_check wr_records].
      destruct bl as [|b0 bl0]; [congruence|]. reflexivity.
    + apply (sd_step _ _ _ _ _ _ xs); auto.
    + unfold sd_reader_init, dmap_reader_init. rewrite fs_write_same. unfold reader_new. cbn [app].
      now replace (zlen (concat xs) =? 0) with false by lia.
    + exact HS.
    + reflexivity.
    + apply shown_records; auto. rewrite Forall_map. eapply wire_list_Forall; [exact HWB|].
      intros b x Hx. eapply block_fields_wire; eauto.
  - exfalso. apply (f_equal recs) in HE. rewrite recs_app, <- HR2 in HE. rewrite HE in HA'.
    apply Forall_app in HA' as [_ HA']. cbn [recs map] in HA'. inversion HA'; tauto.
Qed.
Print Assumptions C29_round_trip.

Lemma back_format b b' : block_back b b' -> Forall2 same_format (block_fields b) (block_fields b').
Proof.
  intros (_ & _ & _ & _ & HS & HR). unfold block_fields. apply Forall2_app.
  - clear - HS. induction HS as [|s s' l l' Hs HS IH]; cbn [map]; constructor; auto. destruct Hs. split; [reflexivity|].
    cbn [snd]. intros g. split; intros HX; inversion HX; subst; constructor; reflexivity.
  - clear - HR. induction HR as [|s s' l l' Hs HR IH]; cbn [map]; constructor; auto. destruct Hs. split; [reflexivity|].
    cbn [snd]. intros g. split; intros HX; inversion HX; subst; constructor; reflexivity.
Qed.

(** The same for plain dictionaries. *)
Theorem C29_dictionaries : forall t fs fn rs bl,
  bl <> [] -> fn <> [] -> Forall2 dict_back rs bl -> file_bytes bl <= 2 ^ 63 - 1 ->
  Forall (acceptable t) (map block_fields bl) ->
  exists w w' fs' rd ds rd',
    sd_writer_new rs [] = Ok w /\ sd_write t fs w fn = (Ok tt, w', fs') /\
    sd_reader_init fs' (FromFile fn) = Ok rd /\ sd_read t rd = (Ok ds, rd') /\
    rdr_records rd' = map block_fields bl /\ Forall2 shown (map block_fields bl) ds.
Proof.
  intros t fs fn rs bl HN HFN HB HL HA.
  assert (HX : exists bl0, dict2dmap rs = Ok (map block_fields bl0) /\ Forall2 block_back bl0 bl /\
    file_bytes bl0 = file_bytes bl /\ exists v, first_value rs = Some (IPlain v)).
  { clear HFN HA HL. destruct HB as [|r b rs bl Hb HB]; [congruence|]. clear HN.
    assert (HY : exists bl0, dict2dmap rs = Ok (map block_fields bl0) /\ Forall2 block_back bl0 bl /\
      file_bytes bl0 = file_bytes bl).
    { clear Hb. induction HB as [|r' b' rs bl Hb HB (bl0 & IH1 & IH2 & IH3)].
      - exists []. splits; auto.
      - destruct (dict_back_block _ _ Hb) as (b0 & H1 & H2 & H3). exists (b0 :: bl0).
        cbn [dict2dmap]. rewrite H1, IH1. splits; auto.
        unfold file_bytes in *. cbn [map total fold_right]. unfold total in *. lia. }
    destruct HY as (bl0 & IH1 & IH2 & IH3).
    destruct (dict_back_block _ _ Hb) as (b0 & H1 & H2 & H3). exists (b0 :: bl0). cbn [dict2dmap].
    rewrite H1, IH1. splits; auto.
    - unfold file_bytes in *. cbn [map total fold_right]. unfold total in *. lia.
    - destruct Hb as (rs1 & ra & -> & HS & _ & _ & _ & H4 & _). destruct H4 as [|p s l l' Hp H4]; [congruence|].
      destruct Hp. cbn. eauto. }
  destruct HX as (bl0 & HD & HBB & HFB & v & HV).
  destruct (C29_round_trip t fs fn bl0 bl) as (w & w' & fs' & rd & ds & rd' & H1 & H2); auto.
  - destruct HBB; [congruence|discriminate].
  - lia.
  - clear - HBB HA. induction HBB as [|b b' bl bl' Hb HB IH]; cbn [map] in *; constructor; inversion HA; subst; auto.
    apply (read_accepts t _ 0). apply (read_accepts t _ 0) in H1. rewrite <- H1.
    now apply same_format_checks, back_format.
  - exists w, w', fs', rd, ds, rd'. split; auto.
    unfold sd_writer_new, writer_new in *. rewrite (proj2 (check_cases rs) v HV), HD.
    destruct HBB as [|b b' bl1 bl2 Hb HB2]; [congruence|]. destruct Hb as (HS & _).
    destruct b as [[|s ss] aa]; [now destruct HS|]. exact H1.
Qed.
Print Assumptions C29_dictionaries.

(** Table entries with ASCII names make representable fields. *)
Definition plain_entry (p : pystr * fmt) : bool :=
  forallb (fun c => (0 <? c) && (c <? 128)) (fst p) && negb (fmt_eqb (snd p) Fs).
Lemma plain_entry_text (p : pystr * fmt) : forallb (fun c => (0 <? c) && (c <? 128)) (fst p) = true -> plain_text (fst p).
Proof. intros H. apply Forall_forall. intros c Hc. rewrite forallb_forall in H. specialize (H c Hc). lia. Qed.
Lemma ex_scalars_back (l : group) : forallb (fun p => forallb (fun c => (0 <? c) && (c <? 128)) (fst p)) l = true ->
  Forall2 scalar_back (map ex_scalar l) (map ex_scalar l).
Proof.
  induction l as [|p l IH]; cbn [forallb map]; intros H; constructor; apply andb_prop in H as [H1 H2]; auto.
  apply plain_entry_text in H1. constructor; auto. destruct (snd p); cbn [ex_value];
  first [apply rb_char; [reflexivity|lia] | apply rb_int; [cbn; tauto|reflexivity|cbn; lia]
        |apply rb_str; forall_tac | apply rb_f32; [lia|reflexivity|cbn; tauto] | apply rb_f64; [lia|cbn; tauto]].
Qed.
Lemma ex_arrays_back blk (l : group) : forallb plain_entry l = true ->
  Forall2 (array_back blk) (map ex_array l) (map ex_array l).
Proof.
  induction l as [|p l IH]; cbn [forallb map]; intros H; constructor; apply andb_prop in H as [H1 H2]; auto.
  apply andb_prop in H1 as [H1 H3]. apply plain_entry_text in H1. unfold ex_array.
  apply (array_back_intro blk (fst p) (snd p) (wire_dtype (snd p)) [2] [1;2]); auto; try (cbn; lia).
  - destruct (snd p); cbn; auto. discriminate.
  - left. forall_tac.
  - destruct (snd p); repeat constructor; cbn; lia.
Qed.
Lemma ex_block_back (l l' : group) :
  forallb (fun p => forallb (fun c => (0 <? c) && (c <? 128)) (fst p)) l = true -> forallb plain_entry l' = true ->
  l <> [] -> l' <> [] -> nodupb (map fst (l ++ l')) = true ->
  block_bytes (map ex_scalar l, map ex_array l') < 2 ^ 31 ->
  block_back (map ex_scalar l, map ex_array l') (map ex_scalar l, map ex_array l').
Proof.
  intros H1 H2 H3 H4 H5 H6. unfold block_back. cbn [fst snd]. splits; auto.
  - destruct l; [congruence|discriminate].
  - destruct l'; [congruence|discriminate].
  - apply nodupb_NoDup in H5. unfold block_fields. cbn [fst snd]. rewrite map_app, !map_map in *. exact H5.
  - now apply ex_scalars_back.
  - now apply ex_arrays_back.
Qed.
Example C29_case :
  Forall2 block_back [ex_rawacf; ex_rawacf] [ex_rawacf; ex_rawacf] /\
  file_bytes [ex_rawacf; ex_rawacf] <= 2 ^ 63 - 1 /\
  Forall (acceptable Rawacf) (map block_fields [ex_rawacf; ex_rawacf]).
Proof.
  assert (HB : block_back ex_rawacf ex_rawacf).
  { apply (ex_block_back (firstn 47 rawacf_types) (skipn 47 rawacf_types ++ rawacf_correlation_field)).
    - vm_compute; reflexivity.
    - vm_compute; reflexivity.
    - discriminate.
    - discriminate.
    - vm_compute; reflexivity.
    - vm_compute; reflexivity. }
  splits; [constructor; [exact HB|constructor; [exact HB|constructor]]|vm_compute; discriminate|].
  constructor; [apply ex_fields|constructor; [apply ex_fields|constructor]].
Qed.
(** A plain dictionary with the fitted fields of a grid record. *)
Definition ex_grid_dict : record :=
  map (fun p => (fst p, IPlain (VF32 1069547520))) (firstn 2 grid_fitted_fields) ++
  map (fun p => (fst p, IPlain (VArr (mk_ndarray (wire_dtype (snd p)) false [2] [1;2])))) (skipn 2 grid_fitted_fields).
Example C29_case_dict :
  dict_back ex_grid_dict ex_grid /\ acceptable Grid (block_fields ex_grid).
Proof.
  split; [|apply ex_fields]. exists (firstn 2 ex_grid_dict), (skipn 2 ex_grid_dict).
  assert (HB : block_bytes ex_grid = 229) by (vm_compute; reflexivity). rewrite HB.
  splits; try reflexivity; try discriminate; try lia.
  - apply nodupb_NoDup. reflexivity.
  - constructor; [|constructor; [|constructor]];
      (apply (dsb_intro _ _ Ff); [apply plain_entry_text with (p := (_, Ff)); reflexivity|reflexivity|];
       apply (rb_f32 1069547520); [lia|reflexivity|cbn; tauto]).
  - repeat (constructor; [apply dab_array; try reflexivity;
      [apply plain_entry_text with (p := (_, Ff)); reflexivity|vm_compute; split; congruence
      |left; forall_tac|repeat constructor; cbn; lia]|]). constructor.
Qed.
Example C29_case_run :
  match sd_writer_new [ex_grid_dict] [] with
  | Ok w => match sd_write Grid (fun _ => None) w [102] with
            | (Ok _, _, fs') =>
                rlet rd := sd_reader_init fs' (FromFile [102]) in
                rlet ds := fst (sd_read Grid rd) in Ok (map zlen ds)
            | (Raise e, _, _) => Raise e
            end
  | Raise e => Raise e
  end = Ok [8].
Proof. vm_compute. reflexivity. Qed.
