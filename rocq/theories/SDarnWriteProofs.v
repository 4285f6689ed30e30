(** Lemmas about SDarnWrite objects. *)
From Coq Require Import ZArith List Bool Lia Permutation.
From Verif Require Import Base Bytes BytesSpec BytesProofs FloatBits DmapTypes DmapRead DmapWrite Conversions
  DmapSpec DmapReadProofs DmapFileProofs DmapStreamProofs DmapWriteSpec DmapWriteProofs DmapWriterProofs
  DmapWriteFacts DmapObjectProofs DmapConvProofs
  SDarnFormats SDarn SDarnSpec SDarnChecks SDarnProofs SDarnObjectProofs SDarnFileProofs.
Import ListNotations.
Open Scope Z_scope.

Lemma field_error_not_w e n : field_error e n -> ~ In e write_exceptions.
Proof.
  intros [(l & ->)|[(l & ->)|(l & ->)]] H; cbn in H; decompose [or] H; try discriminate; auto.
Qed.

(** A plain value in an SDarnWrite record: AttributeError of the type check. *)
Lemma checks_exceptions gs os r n e : gs <> [] -> write_checks gs os r n = Raise e ->
  field_error e n \/ e = AttributeError \/ e = KeyError.
Proof.
  intros HN. unfold write_checks, extra_field_check, missing_field_check, incorrect_types_check, dict_list2set.
  destruct gs as [|g gs]; [congruence|]. cbn [rbind].
  destruct (0 <? zlen (dict_key_diff _ _)); [intros [= <-]; left; right; left; eauto|]. cbn [rbind].
  destruct (0 <? zlen (missing_fields _ _ _)); [intros [= <-]; left; left; eauto|]. cbn [rbind].
  destruct (wrong_types _ r) as [l|e'] eqn:E; cbn [rbind].
  - destruct (0 <? zlen l); [|discriminate]. intros [= <-]. left. right. right. eauto.
  - intros [= <-]. right. clear - E. induction r as [|[k it] r IH]; cbn [wrong_types] in E; [discriminate|].
    destruct (item_fmt it); [|injection E as <-; auto].
    destruct (dict_get _ k); [|injection E as <-; auto].
    destruct (wrong_types _ r); cbn [rbind] in E; [discriminate|]. injection E as <-. auto.
Qed.

(** The failed write in detail. *)
Lemma sd_write_failed t fs w fn e w' fs' :
  sd_write t fs w fn = (Raise e, w', fs') ->
  let name := match fn with [] => wr_filename w | _ => fn end in
  fs' = fs /\
  ((name = [] /\ e = FilenameRequiredError /\ w' = w) \/
   (name <> [] /\ wr_records w = [] /\ e = DmapDataError /\ wr_bytearr w' = wr_bytearr w) \/
   (name <> [] /\ exists pre r post bl rest, wr_records w = pre ++ r :: post /\ Forall (acceptable t) pre /\
      Forall2 (fun r b => dmap_record_to_bytes r = (Ok b, record_after r)) pre bl /\
      wr_bytearr w' = wr_bytearr w ++ concat bl ++ rest /\
      ((~ acceptable t r /\ rest = [] /\ wr_records w' = map flip_record pre ++ r :: post /\
        write_checks (write_struct_list t) (write_optional_list t) r (zlen pre) = Raise e) \/
       (acceptable t r /\ rest = record_rest r /\ exists r', dmap_record_to_bytes r = (Raise e, r') /\
        wr_records w' = map flip_record pre ++ r' :: post)))).
Proof.
  rewrite sd_write_cases. cbv zeta.
  destruct (match fn with [] => wr_filename w | _ => fn end) as [|c n].
  - intros [= <- <- <-]. auto.
  - destruct (wr_records w) as [|r0 rs0] eqn:ER.
    + intros [= <- <- <-]. split; auto. right. left. splits; auto. discriminate.
    + rewrite <- ER in *. pose proof (structure_cases t (wr_records w) 0 (wr_bytearr w)) as HS.
      destruct (structure_to_bytes _ _ 0 _ _) as [[[[]|e'] acc] rs']; [discriminate|].
      intros [= <- <- <-]. split; auto. right. right. split; [discriminate|].
      destruct HS as (pre & r & post & pre' & acc2 & HE & HA & HB & HC).
      apply records_bytes_iff in HB as (bl & HF & -> & ->).
      assert (HFl : map record_after pre = map flip_record pre) by (apply map_ext; intros; symmetry; apply flip_after).
      rewrite HFl in HC.
      destruct HC as [(C1 & -> & C2 & C3)|(C1 & -> & C2)].
      * exists pre, r, post, bl, []. cbn [wr_bytearr wr_records]. rewrite app_nil_r. splits; auto. 
      * exists pre, r, post, bl, (record_rest r). cbn [wr_bytearr wr_records]. rewrite <- app_assoc. splits; auto.
Qed.

Lemma sd_write_succeeded t fs w fn w' fs' :
  sd_write t fs w fn = (Ok tt, w', fs') ->
  Forall (acceptable t) (wr_records w) /\ wr_records w <> [] /\ write_dmap fs w fn = (Ok tt, w', fs').
Proof.
  intros H. assert (HX : Forall (acceptable t) (wr_records w) /\ wr_records w <> []).
  { rewrite sd_write_cases in H.
    destruct (match fn with [] => wr_filename w | _ => fn end); [discriminate|].
    destruct (wr_records w) as [|r0 rs0] eqn:ER; [discriminate|]. rewrite <- ER in *.
    pose proof (structure_cases t (wr_records w) 0 (wr_bytearr w)) as HS.
    destruct (structure_to_bytes _ _ 0 _ _) as [[[[]|e'] acc] rs']; [|discriminate]. destruct HS as [HA _].
    split; auto. congruence. }
  destruct HX as [HA HN]. splits; auto. now rewrite <- (sd_write_dmap t).
Qed.

Lemma sd_writer_new_inv rs fn w : sd_writer_new rs fn = Ok w ->
  exists rs', check_dmap_dict rs = Ok rs' /\ w = mk_writer fn rs' [] /\ rs' <> [].
Proof.
  unfold sd_writer_new, writer_new. intros H. destruct (check_dmap_dict rs) as [rs'|e]; [|discriminate].
  cbn [rbind empty_record_check wr_records] in H. destruct rs' as [|r rs']; [discriminate|].
  apply ok_inj in H as <-. eexists. splits; eauto. discriminate.
Qed.

(** Shapes play no role for the checks. *)
Lemma flip_format r : Forall2 same_format r (flip_record r).
Proof.
  induction r as [|[k it] r IH]; constructor; auto. split; [reflexivity|]. cbn [snd fst].
  intros f. destruct it as [s|a|v]; cbn [flip_item]; [tauto| |tauto].
  split; intros H; inversion H; subst; constructor; reflexivity.
Qed.
Lemma flip_acceptable t rs : Forall (acceptable t) rs -> Forall (acceptable t) (map flip_record rs).
Proof.
  intros H. rewrite Forall_map. eapply Forall_impl; [|exact H]. intros r Hr.
  apply (read_accepts t r 0) in Hr. apply (read_accepts t _ 0).
  now rewrite <- (proj1 (same_format_checks _ _ (flip_format r) _ _ 0)).
Qed.

(** Writing again and again. *)
Definition write_again (t : sd_type) (name : pystr) (s : writer * fsys) : writer * fsys :=
  match sd_write t (snd s) (fst s) name with (_, w', fs') => (w', fs') end.

Lemma sd_step t fs n name rs acc bl :
  name <> [] -> rs <> [] -> Forall (acceptable t) rs ->
  Forall2 (fun r b => dmap_record_to_bytes r = (Ok b, record_after r)) rs bl ->
  sd_write t fs (mk_writer n rs acc) name =
  (Ok tt, mk_writer name (map flip_record rs) (acc ++ concat bl), fs_write fs name (acc ++ concat bl)).
Proof.
  intros HN HR HA HF. rewrite sd_write_dmap by auto. rewrite write_dmap_cases.
  cbn [wr_filename wr_records wr_bytearr]. destruct name as [|c name]; [congruence|].
  rewrite (stream_step _ _ _ bl []); auto.
Qed.

Lemma fs_write_same fs n b : fs_write fs n b n = Some b.
Proof. unfold fs_write. now rewrite str_eqb_refl. Qed.

Lemma sd_repeat t name k : forall fs n rs acc blA blB,
  name <> [] -> rs <> [] -> Forall (acceptable t) rs ->
  Forall2 (fun r b => dmap_record_to_bytes r = (Ok b, record_after r)) rs blA ->
  Forall2 (fun r b => dmap_record_to_bytes r = (Ok b, record_after r)) (map flip_record rs) blB ->
  let s := iterate k (write_again t name) (mk_writer n rs acc, fs) in
  exists w' fs', sd_write t (snd s) (fst s) name = (Ok tt, w', fs') /\
    fs' name = Some (acc ++ alternate (S k) (concat blA) (concat blB)).
Proof.
  induction k as [|k IH]; intros fs n rs acc blA blB HN HR HA HFA HFB; cbn [iterate].
  - cbn [fst snd]. rewrite (sd_step _ _ _ _ _ _ blA) by auto. do 2 eexists. split; [reflexivity|].
    rewrite fs_write_same. cbn [alternate]. now rewrite app_nil_r.
  - cbv zeta. unfold write_again at 2 4. cbn [fst snd]. rewrite (sd_step _ _ _ _ _ _ blA) by auto.
    destruct (IH (fs_write fs name (acc ++ concat blA)) name (map flip_record rs) (acc ++ concat blA) blB blA)
      as (w' & fs' & H1 & H2); auto.
    + destruct rs; [congruence|discriminate].
    + now apply flip_acceptable.
    + rewrite map_map. rewrite (map_ext (fun x => flip_record (flip_record x)) (fun x => x)) by apply flip_twice.
      now rewrite map_id.
    + exists w', fs'. split; [exact H1|]. rewrite H2. change (alternate (S (S k)) (concat blA) (concat blB))
        with (concat blA ++ alternate (S k) (concat blB) (concat blA)). now rewrite <- app_assoc.
Qed.

(** What an object has in store comes first in every later output. *)
Lemma stream_starts w rs bs : fst (write_dmap_stream w rs) = Ok bs -> exists rest, bs = wr_bytearr w ++ rest /\ rest <> [].
Proof.
  unfold write_dmap_stream. destruct w as [n recs acc]. cbn [wr_records wr_filename wr_bytearr].
  set (loaded := match recs with [] => _ | _ => _ end).
  assert (HL : forall w1, loaded = Ok w1 -> wr_bytearr w1 = acc).
  { intros w1. unfold loaded. destruct recs; [|intros [= <-]; reflexivity].
    destruct (check_dmap_dict rs); cbn [rbind]; [|discriminate]. intros [= <-]. reflexivity. }
  destruct loaded as [w1|e]; [|discriminate]. specialize (HL w1 eq_refl).
  unfold empty_record_check. destruct (wr_records w1) as [|r0 rs0] eqn:ER; [discriminate|].
  destruct (dmap_records_to_bytes _ _) as [[[[]|e] acc'] rs'] eqn:EB; cbn [rbind fst]; [|discriminate].
  intros [= <-]. apply records_bytes_iff in EB as (bl & HF & -> & _). rewrite HL. exists (concat bl). split; auto.
  inversion HF as [|? b ? ? Hb]; subst. cbn [concat]. apply record_bytes_header in Hb as (w2 & w3 & w4 & x & -> & _).
  discriminate.
Qed.
