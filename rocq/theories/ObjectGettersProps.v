(** The property C76: what get_records and get_dmap_records give after any calls, and what
    a truncated file gives when it is read again with the same object. *)
From Coq Require Import String ZArith List Bool Lia.
From Verif Require Import Base Bytes BytesSpec BytesProofs DmapTypes DmapSpec DmapRead DmapReadProofs DmapFileProofs DmapStreamProofs
  DmapReadProps DmapWriteFacts Conversions SDarnFormats SDarn SDarnSpec SDarnProofs SDarnObjectProofs SDarnFileProofs ObjectTextsProps ObjectGetters.
Import ListNotations.
Open Scope list_scope.
Open Scope Z_scope.

(** ** C76 Getters *)

(** Of the calls in [l] with the outcomes [xs], the last one in [P] that returned gave [ds]. *)
Inductive latest (P : call -> Prop) : list call -> list (res (list record)) -> list record -> Prop :=
| latest_here c ds l xs : P c -> silent P l xs -> latest P (c :: l) (Ok ds :: xs) ds
| latest_later c x l xs ds : latest P l xs ds -> latest P (c :: l) (x :: xs) ds
(** No call in [P] returned. *)
with silent (P : call -> Prop) : list call -> list (res (list record)) -> Prop :=
| silent_nil : silent P [] []
| silent_other c x l xs : ~ P c -> silent P l xs -> silent P (c :: l) (x :: xs)
| silent_raised c e l xs : silent P l xs -> silent P (c :: l) (Raise e :: xs).

Definition typed (c : call) : Prop := exists t, c = ReadType t.
Definition untyped (c : call) : Prop := c = ReadRecords.

(** SDarnRead.get_records gives the result of the last read_<type> that returned, and
    raises AttributeError when none has. *)
Lemma calls_typed l : forall o xs o', call_all l o = (xs, o') ->
  (exists ds, latest typed l xs ds /\ ro_records o' = Some ds) \/ (silent typed l xs /\ ro_records o' = ro_records o).
Proof.
  induction l as [|c l IH]; intros o xs o' H; cbn [call_all] in H.
  - injection H as <- <-. right. split; [constructor|reflexivity].
  - destruct (call_method c o) as [x o1] eqn:E. destruct (call_all l o1) as [ys o2] eqn:E2. injection H as <- <-.
    destruct (IH _ _ _ E2) as [(ds & H1 & H2)|[H1 H2]]; [left; exists ds; split; [now constructor|exact H2]|].
    destruct c as [|t]; cbn [call_method] in E.
    + right. split; [apply silent_other; [intros (t & T); discriminate T|exact H1]|].
      rewrite H2. destruct (read_records _) as [[rs|e] r']; [|injection E as <- <-; reflexivity].
      destruct (dmap2dict rs); injection E as <- <-; reflexivity.
    + destruct (sd_read t _) as [[ds|e] r']; injection E as <- <-.
      * left. exists ds. split; [apply latest_here; [now exists t|exact H1]|]. rewrite H2. reflexivity.
      * right. split; [now apply silent_raised|]. rewrite H2. reflexivity.
Qed.
Lemma calls_untyped l : forall o xs o', call_all l o = (xs, o') ->
  (exists ds, latest untyped l xs ds /\ ro_plain o' = ds) \/ (silent untyped l xs /\ ro_plain o' = ro_plain o).
Proof.
  induction l as [|c l IH]; intros o xs o' H; cbn [call_all] in H.
  - injection H as <- <-. right. split; [constructor|reflexivity].
  - destruct (call_method c o) as [x o1] eqn:E. destruct (call_all l o1) as [ys o2] eqn:E2. injection H as <- <-.
    destruct (IH _ _ _ E2) as [(ds & H1 & H2)|[H1 H2]]; [left; exists ds; split; [now constructor|exact H2]|].
    destruct c as [|t]; cbn [call_method] in E.
    + destruct (read_records _) as [[rs|e] r'].
      * destruct (dmap2dict rs) as [ds|e]; injection E as <- <-.
        -- left. exists ds. split; [apply latest_here; [reflexivity|exact H1]|]. rewrite H2. reflexivity.
        -- right. split; [now apply silent_raised|]. rewrite H2. reflexivity.
      * injection E as <- <-. right. split; [now apply silent_raised|]. rewrite H2. reflexivity.
    + right. split; [apply silent_other; [intros T; discriminate T|exact H1]|].
      rewrite H2. destruct (sd_read t _) as [[ds|e] r']; injection E as <- <-; reflexivity.
Qed.

Lemma latest_silent P l xs ds : latest P l xs ds -> silent P l xs -> False.
Proof. induction 1 as [c ds l xs HP HS|c x l xs ds H IH]; intros HQ; inversion HQ; subst; auto. Qed.
Lemma latest_unique P l xs d1 : latest P l xs d1 -> forall d2, latest P l xs d2 -> d1 = d2.
Proof.
  induction 1 as [c ds l xs HP HS|c x l xs ds H IH]; intros d2 H2; inversion H2; subst; auto;
    match goal with A : latest _ ?l ?x _, B : silent _ ?l ?x |- _ => destruct (latest_silent _ _ _ _ A B) end.
Qed.

Theorem C76_records : forall fs src o l xs o', object_new fs src = Ok o -> call_all l o = (xs, o') ->
  (forall ds, sdarn_get_records o' = Ok ds <-> latest typed l xs ds) /\
  (sdarn_get_records o' = Raise AttributeError <-> silent typed l xs).
Proof.
  intros fs src o l xs o' HN HC. unfold object_new in HN. destruct (dmap_reader_init fs src) as [r|]; [|discriminate].
  cbn [rbind] in HN. apply ok_inj in HN as <-. unfold sdarn_get_records.
  destruct (calls_typed _ _ _ _ HC) as [(ds & H1 & ->)|[H1 ->]]; cbn [ro_records].
  - split; [intros d|]; split; intros H.
    + apply ok_inj in H as <-. exact H1.
    + f_equal. eapply latest_unique; eassumption.
    + discriminate.
    + exfalso. eapply latest_silent; eassumption.
  - split; [intros d|]; split; intros H; auto; [discriminate|]. exfalso. eapply latest_silent; eassumption.
Qed.
Print Assumptions C76_records.

(** DmapRead.get_records gives the result of the last read_records that returned, and an
    empty list when none has. *)
Theorem C76_plain : forall fs src o l xs o', object_new fs src = Ok o -> call_all l o = (xs, o') ->
  (exists ds, latest untyped l xs ds /\ dmap_get_records o' = ds) \/ (silent untyped l xs /\ dmap_get_records o' = []).
Proof.
  intros fs src o l xs o' HN HC. unfold object_new in HN. destruct (dmap_reader_init fs src) as [r|]; [|discriminate].
  cbn [rbind] in HN. apply ok_inj in HN as <-. exact (calls_untyped _ _ _ _ HC).
Qed.
Print Assumptions C76_plain.

(** ** Reading on after the end *)

Lemma int_end buf c v c' : 0 <= c -> read_data_i buf c = (Ok v, c') -> c' = c + 4.
Proof.
  intros H0 H. unfold read_data_i in H. inv_bind H. injection H as <- <-. apply (read_raw_ok _ 4) in H1 as (_ & _ & ->); [lia|exact H0].
Qed.
Lemma block_end buf c b c' : 0 <= c -> read_record_fields buf c = (Ok b, c') -> c' <= zlen buf.
Proof.
  intros HN H. unfold read_record_fields in H.
  inv_bind H. injection H0 as <- <-.
  inv_bind H. injection H0 as <- <-.
  inv_bindn H as size. apply int_end in H0 as ->; [|lia].
  inv_bind H. injection H0 as <- <-. cbv zeta in H.
  inv_bind H. apply bytes_check_ok in H0 as [HC1 ->].
  inv_bind H. apply zn_check_ok in H0 as [HC2 ->].
  inv_bind H. inv_bind H. inv_bind H. inv_bind H. inv_bind H. inv_bind H. inv_bind H. inv_bind H.
  match goal with HG : get_cursor _ = (Ok ?a, ?b) |- _ => injection HG as -> -> end.
  match type of H with context [if negb (?x =? ?y) then _ else _] => destruct (x =? y) eqn:ES end;
    cbn [negb] in H; [|discriminate].
  injection H as <- <-. unfold end_bytes in *. lia.
Qed.
Lemma reads_end buf c bl c' : reads buf c bl c' -> 0 <= c -> c <= zlen buf -> c' <= zlen buf.
Proof.
  induction 1 as [c|c b c1 bl c' HC HR HRs IH]; intros H0 HE; [exact HE|].
  pose proof (block_end _ _ _ _ H0 HR). pose proof (block_progress _ _ _ _ HR). apply IH; lia.
Qed.

(** An object at the end, whose records convert to [ds]: every call gives [ds]. *)
Definition at_end (o : read_object) (ds : list record) : Prop :=
  zlen (rdr_buf (ro_reader o)) <= rdr_cursor (ro_reader o) /\ dmap2dict (rdr_records (ro_reader o)) = Ok ds.
Lemma typed_end t o ds : at_end o ds -> exists o', call_method (ReadType t) o = (Ok ds, o') /\ at_end o' ds /\
  rdr_records (ro_reader o') = rdr_records (ro_reader o) /\ rdr_cursor (ro_reader o') = rdr_cursor (ro_reader o) /\ rdr_buf (ro_reader o') = rdr_buf (ro_reader o).
Proof.
  intros [H1 H2]. cbn [call_method]. unfold sd_read, read_darn_records. cbn [read_darn_loop rdr_cursor rdr_buf]. unfold end_bytes.
  replace (rdr_cursor (ro_reader o) <? zlen (rdr_buf (ro_reader o))) with false by lia. cbn [rdr_records]. rewrite H2.
  eexists. split; [reflexivity|]. unfold at_end. cbn [ro_reader rdr_records rdr_cursor rdr_buf]. auto.
Qed.
Lemma plain_end o ds : at_end o ds -> rdr_cursor (ro_reader o) <= zlen (rdr_buf (ro_reader o)) ->
  exists o', call_method ReadRecords o = (Ok ds, o') /\ ro_reader o' = ro_reader o.
Proof.
  intros [H1 H2] H3. cbn [call_method]. unfold read_records. cbn [read_records_loop]. unfold end_bytes.
  replace (rdr_cursor (ro_reader o) <? zlen (rdr_buf (ro_reader o))) with false by lia.
  replace (zlen (rdr_buf (ro_reader o)) <? rdr_cursor (ro_reader o)) with false by lia. rewrite H2.
  eexists. split; [reflexivity|]. reflexivity.
Qed.

Lemma first_end fs src o c ds o1 : object_new fs src = Ok o -> call_method c o = (Ok ds, o1) ->
  at_end o1 ds /\ rdr_cursor (ro_reader o1) <= zlen (rdr_buf (ro_reader o1)).
Proof.
  intros HN H. unfold object_new in HN. destruct (dmap_reader_init fs src) as [r|] eqn:HI; [|discriminate].
  cbn [rbind] in HN. apply ok_inj in HN as <-. destruct (init_fresh fs src r HI) as [HF HZ]. pose proof (zlen_nonneg (rdr_buf r)) as HP.
  destruct c as [|t]; cbn [call_method ro_reader] in H.
  - unfold read_records in H. destruct (read_records_loop _ r) as [[u|e] r1] eqn:E; [|discriminate].
    apply loop_state in E as (E1 & _ & E2). destruct u. specialize (E2 eq_refl). unfold end_bytes in H.
    destruct (zlen (rdr_buf r1) <? rdr_cursor r1) eqn:L; [discriminate|].
    destruct (dmap2dict (rdr_records r1)) as [d|] eqn:D; [|discriminate]. injection H as <- <-.
    unfold at_end. cbn [ro_reader]. rewrite E1 in *. split; [split; [exact E2|exact D]|lia].
  - unfold sd_read in H. rewrite HF in H. destruct (darn_records_cases t (mk_reader (rdr_buf r) 0 [] 0)) as (bl & c1 & H1 & _ & H3); [cbn; lia|].
    cbn [rdr_buf rdr_cursor rdr_records app] in *. destruct (read_darn_records _ _ _) as [[[]|e'] r'].
    2:{ discriminate H. }
    destruct H3 as [H3 ->]. cbn [rdr_records] in H. destruct (dmap2dict (recs bl)) as [d|] eqn:D; [|discriminate]. injection H as <- <-.
    unfold at_end. cbn [ro_reader rdr_buf rdr_cursor rdr_records]. split; [split; [exact H3|exact D]|].
    apply (reads_end _ _ _ _ H1); lia.
Qed.

(** When the first call has returned, whatever its kind, every further call of any kind
    gives the same result, without any checks, and the DMAP records stay as they are. *)
Theorem C76_rest : forall fs src o c ds o1 l xs o2, object_new fs src = Ok o -> call_method c o = (Ok ds, o1) ->
  call_all l o1 = (xs, o2) ->
  length xs = length l /\ Forall (eq (Ok ds)) xs /\ get_dmap_records o2 = get_dmap_records o1.
Proof.
  intros fs src o c ds o1 l xs o2 HN HC. destruct (first_end _ _ _ _ _ _ HN HC) as [H1 H2]. clear HN HC o c.
  revert o1 H1 H2 xs o2. induction l as [|c l IH]; intros o1 H1 H2 xs o2 H; cbn [call_all] in H.
  - injection H as <- <-. split; [reflexivity|]. split; [constructor|reflexivity].
  - assert (G : exists o', call_method c o1 = (Ok ds, o') /\ at_end o' ds /\ rdr_cursor (ro_reader o') <= zlen (rdr_buf (ro_reader o')) /\
              get_dmap_records o' = get_dmap_records o1).
    { unfold get_dmap_records. destruct c as [|t].
      - destruct (plain_end o1 ds H1 H2) as (o' & G1 & G2). exists o'. unfold at_end. rewrite G2. auto.
      - destruct (typed_end t o1 ds H1) as (o' & G1 & G2 & G3 & G4 & G5). exists o'. rewrite G4, G5. auto. }
    destruct G as (o' & G1 & G2 & G3 & G4). rewrite G1 in H. destruct (call_all l o') as [ys o3] eqn:E. injection H as <- <-.
    destruct (IH o' G2 G3 _ _ E) as (I1 & I2 & I3). cbn [length]. rewrite I1, I3. split; [reflexivity|]. split; [constructor; [reflexivity|exact I2]|exact G4].
Qed.
Print Assumptions C76_rest.

(** ** Reading a truncated file again *)

Lemma file_reads buf bl A : wire_file bl A -> zlen buf <= ssize_max -> forall c, occurs buf c A -> reads buf c bl (c + zlen A).
Proof.
  intros HW HM. induction HW as [|b bl x xs [id Hb] HW IH]; intros c HO.
  - unfold zlen. cbn [length]. rewrite Z.add_0_r. constructor.
  - apply occurs_app in HO as [HO HO2]. pose proof (wire_block_len _ _ _ Hb) as HL. pose proof (occurs_bounds _ _ _ HO) as HB.
    rewrite zlen_app, Z.add_assoc. econstructor; [|exact (read_block_occ buf c id b x HM HO Hb)|apply IH; exact HO2]. lia.
Qed.
Lemma tail_fails buf c : 0 < zlen buf - c < 8 -> read_record_fields buf c = (Raise CursorError, c + 4).
Proof.
  intros H. unfold read_record_fields. unfold bind at 1, get_cursor. unfold bind at 1, advance. apply bind_raise.
  unfold read_data_i. apply bind_raise. unfold read_data_raw. apply bind_raise. unfold read_data_checks. unfold bind, get_cursor, end_bytes.
  destruct (zlen buf <=? c + 4) eqn:E; [reflexivity|]. replace (zlen buf - (c + 4) <? Z.of_nat 4) with true by lia. reflexivity.
Qed.
Lemma darn_loop_on gs os buf c bl c' : reads buf c bl c' -> Forall (fun r => forall n, read_checks gs os r n = Ok tt) (recs bl) ->
  forall fuel rs n, read_darn_loop (length bl + fuel) gs os (mk_reader buf c rs n) =
                    read_darn_loop fuel gs os (mk_reader buf c' (rs ++ recs bl) (n + zlen bl)).
Proof.
  induction 1 as [c|c b c1 bl c' HC HR HRs IH]; intros HF fuel rs n.
  - cbn [length Nat.add recs map]. rewrite app_nil_r. unfold zlen at 1. cbn [length Z.of_nat]. rewrite Z.add_0_r. reflexivity.
  - cbn [recs map] in HF. apply Forall_cons_iff in HF as [HF1 HF2]. cbn [length Nat.add read_darn_loop rdr_cursor rdr_buf]. unfold end_bytes at 1.
    replace (c <? zlen buf) with true by lia. unfold read_darn_record, read_record. cbn [rdr_cursor rdr_buf rdr_records rdr_rec_num].
    rewrite (bind_eq _ _ _ _ _ HR). unfold ret. rewrite HF1. cbn [rdr_cursor rdr_buf rdr_records rdr_rec_num].
    rewrite (IH HF2). cbn [recs map]. rewrite <- app_assoc, zlen_cons. cbn [app]. replace (n + (1 + zlen bl)) with (n + 1 + zlen bl) by lia. reflexivity.
Qed.
Lemma loop_on buf c bl c' : reads buf c bl c' -> forall fuel rs n, read_records_loop (length bl + fuel) (mk_reader buf c rs n) =
                    read_records_loop fuel (mk_reader buf c' (rs ++ recs bl) (n + zlen bl)).
Proof.
  induction 1 as [c|c b c1 bl c' HC HR HRs IH]; intros fuel rs n.
  - cbn [length Nat.add recs map]. rewrite app_nil_r. unfold zlen at 1. cbn [length Z.of_nat]. rewrite Z.add_0_r. reflexivity.
  - cbn [length Nat.add read_records_loop rdr_cursor rdr_buf]. unfold end_bytes at 1.
    replace (c <? zlen buf) with true by lia. unfold read_record. cbn [rdr_cursor rdr_buf rdr_records rdr_rec_num].
    rewrite (bind_eq _ _ _ _ _ HR). unfold ret.
    rewrite IH. cbn [recs map]. rewrite <- app_assoc, zlen_cons. cbn [app]. replace (n + (1 + zlen bl)) with (n + 1 + zlen bl) by lia. reflexivity.
Qed.
Lemma reads_length buf c bl c' : reads buf c bl c' -> zlen bl <= c' - c.
Proof. induction 1 as [c|c b c1 bl c' HC HR HRs IH]; [unfold zlen; cbn; lia|]. apply block_progress in HR. rewrite zlen_cons. lia. Qed.

Lemma plain_tail buf c bl c' acc n : reads buf c bl c' -> 0 <= c -> 0 < zlen buf - c' < 8 ->
  read_records (mk_reader buf c acc n) = (Raise CursorError, mk_reader buf (c' + 4) (acc ++ recs bl) (n + zlen bl)).
Proof.
  intros HR H0 HT. pose proof (reads_length _ _ _ _ HR) as HL.
  assert (HF : exists f, S (length buf) = (length bl + S f)%nat) by (exists (length buf - length bl)%nat; unfold zlen in *; lia).
  destruct HF as [f HF]. unfold read_records. cbn [rdr_buf]. rewrite HF, (loop_on _ _ _ _ HR). cbn [read_records_loop rdr_cursor rdr_buf]. unfold end_bytes at 1.
  replace (c' <? zlen buf) with true by lia. unfold read_record. rewrite (bind_raise _ _ _ _ _ (tail_fails buf c' HT)). reflexivity.
Qed.
(** One call on an object whose next blocks are [bl] and then 1 to 7 bytes. *)
Lemma call_tail k buf c bl c' acc n pl rec : reads buf c bl c' -> 0 <= c -> 0 < zlen buf - c' < 8 ->
  k = ReadRecords \/ (exists t, k = ReadType t /\ Forall (acceptable t) (recs bl)) ->
  exists n', call_method k (mk_object (mk_reader buf c acc n) pl rec) = (Raise CursorError, mk_object (mk_reader buf (c' + 4) (acc ++ recs bl) n') pl rec).
Proof.
  intros HR H0 HT HK. pose proof (reads_length _ _ _ _ HR) as HL.
  assert (HF : exists f, S (length buf) = (length bl + S f)%nat) by (exists (length buf - length bl)%nat; unfold zlen in *; lia).
  destruct HF as [f HF]. destruct HK as [-> | (t & -> & HA)]; cbn [call_method ro_reader ro_plain ro_records].
  - exists (n + zlen bl). rewrite (plain_tail _ _ _ _ acc n HR H0 HT). reflexivity.
  - exists (0 + zlen bl). unfold sd_read, read_darn_records. cbn [rdr_buf rdr_cursor rdr_records]. rewrite HF, (darn_loop_on _ _ _ _ _ _ HR).
    + cbn [read_darn_loop rdr_cursor rdr_buf]. unfold end_bytes at 1. replace (c' <? zlen buf) with true by lia.
      unfold read_darn_record, read_record. cbn [rdr_cursor rdr_buf]. rewrite (bind_raise _ _ _ _ _ (tail_fails buf c' HT)). reflexivity.
    + eapply Forall_impl; [|exact HA]. intros r Hr m. apply read_accepts. exact Hr.
Qed.

(** A file of good records followed by 1 to 7 bytes: the first call raises CursorError.  But
    when the caller tries again, read_<type> returns the records before the cut as if
    nothing was missing, for any type: at once when at most 4 bytes are left, and at
    the third call otherwise. *)
Theorem C76_truncated : forall fs A B rs o k t2 t3,
  is_bytearray (A ++ B) -> ~ negative_slist A -> dmap_read A = Ok rs -> 1 <= zlen B <= 7 ->
  object_new fs (FromStream (A ++ B)) = Ok o ->
  k = ReadRecords \/ (exists t, k = ReadType t /\ Forall (acceptable t) rs) ->
  exists ds o', dmap2dict rs = Ok ds /\
    call_all [k; ReadType t2; ReadType t3] o =
      ([Raise CursorError; if zlen B <=? 4 then Ok ds else Raise CursorError; Ok ds], o') /\
    sdarn_get_records o' = Ok ds /\ dmap_read (A ++ B) = Raise CursorError.
Proof.
  intros fs A B rs o k t2 t3 HBA HNS HR HB HN HK.
  assert (HA : is_bytearray A).
  { destruct HBA as [H1 H2]. apply Forall_app in H1 as [H1 _]. split; [exact H1|]. rewrite zlen_app in H2. pose proof (zlen_nonneg B). lia. }
  destruct (read_sound A rs HA HNS HR) as (bl & HW & HD).
  assert (HNE : bl <> []).
  { intros ->. inversion HW; subst. discriminate HR. }
  assert (ER : rs = recs bl).
  { rewrite dmap_read_trace, (fields_complete A bl (proj2 HA) HNE HW) in HR. apply ok_inj in HR as <-. reflexivity. }
  subst rs. pose proof (proj2 HBA) as HM.
  assert (H1 : reads (A ++ B) 0 bl (0 + zlen A)) by (apply (file_reads _ _ _ HW HM); apply occurs_app with (y := B); apply occurs_all).
  rewrite Z.add_0_l in H1.
  assert (HK2 : kinds (recs bl)) by (eapply reads_kinds; [exact (proj1 HBA)|exact H1]). destruct (dmap2dict_ok _ HK2) as [ds HDS].
  assert (HT : 0 < zlen (A ++ B) - zlen A < 8) by (rewrite zlen_app; lia).
  assert (EO : o = mk_object (mk_reader (A ++ B) 0 [] 0) [] None).
  { unfold object_new in HN. cbn [dmap_reader_init] in HN. unfold reader_new in HN. destruct (zlen (A ++ B) =? 0); [discriminate|].
    apply ok_inj in HN as <-. reflexivity. }
  subst o. pose proof (zlen_nonneg A) as HPA.
  assert (HX : dmap_read (A ++ B) = Raise CursorError).
  { unfold dmap_read, reader_new. destruct (zlen (A ++ B) =? 0) eqn:EZ; [rewrite zlen_app in *; lia|]. cbn [rbind].
    rewrite (plain_tail _ _ _ _ [] 0 H1 ltac:(lia) HT). reflexivity. }
  destruct (call_tail k _ _ _ _ [] 0 [] None H1 ltac:(lia) HT HK) as [n E]. cbn [app] in E.
  exists ds. cbn [call_all]. rewrite E.
  set (o1 := mk_object (mk_reader (A ++ B) (zlen A + 4) (recs bl) n) [] None) in *.
  destruct (zlen B <=? 4) eqn:EB.
  - assert (G1 : at_end o1 ds) by (split; [cbn [o1 ro_reader rdr_buf rdr_cursor]; rewrite zlen_app; lia|exact HDS]).
    destruct (typed_end t2 o1 ds G1) as (o2 & -> & G2 & _). destruct (typed_end t3 o2 ds G2) as (o3 & E3 & _). rewrite E3.
    exists o3. split; [exact HDS|]. split; [reflexivity|]. split; [|exact HX].
    cbn [call_method] in E3. destruct (sd_read t3 _) as [[d|e] r']; [injection E3 as -> <-; reflexivity|discriminate E3].
  - assert (H2 : reads (A ++ B) (zlen A + 4) [] (zlen A + 4)) by constructor.
    destruct (call_tail (ReadType t2) _ _ _ _ (recs bl) n [] None H2 ltac:(lia) ltac:(rewrite zlen_app in *; lia)) as [n2 E2].
    { right. exists t2. split; [reflexivity|constructor]. }
    unfold o1. rewrite E2. cbn [recs map] in *. rewrite app_nil_r in *. fold (recs bl) in *.
    set (o2 := mk_object _ [] None). assert (G1 : at_end o2 ds) by (split; [cbn [o2 ro_reader rdr_buf rdr_cursor]; rewrite zlen_app; lia|exact HDS]).
    destruct (typed_end t3 o2 ds G1) as (o3 & E3 & _). rewrite E3.
    exists o3. split; [exact HDS|]. split; [reflexivity|]. split; [|exact HX].
    cbn [call_method] in E3. destruct (sd_read t3 _) as [[d|e] r']; [injection E3 as -> <-; reflexivity|discriminate E3].
Qed.
Print Assumptions C76_truncated.

(** A file of one block that is no record of any type, followed by 3 and by 6 bytes; and
    the getters on the way. *)
Definition new_object (B : bytes) : read_object := mk_object (mk_reader (ex_block_bytes ++ B) 0 [] 0) [] None.
Example C76_case :
  object_new (fun _ => None) (FromStream (ex_block_bytes ++ [1; 2; 3])) = Ok (new_object [1; 2; 3]) /\
  fst (call_all [ReadRecords; ReadType Grid; ReadType Map] (new_object [1; 2; 3])) =
    [Raise CursorError; dmap2dict [ex_record]; dmap2dict [ex_record]] /\
  fst (call_all [ReadRecords; ReadType Grid; ReadType Map] (new_object [1; 2; 3; 4; 5; 6])) =
    [Raise CursorError; Raise CursorError; dmap2dict [ex_record]] /\
  sdarn_get_records (snd (call_all [ReadRecords; ReadType Grid] (new_object [1; 2; 3; 4; 5; 6]))) = Raise AttributeError.
Proof. split; [reflexivity|]. split; [vm_compute; reflexivity|]. split; vm_compute; reflexivity. Qed.

(** On a good file read_records returns and get_records of SDarnRead still raises; then
    read_<type> returns the same unchecked and get_records gives it. *)
Example C76_rest_case :
  fst (call_method ReadRecords (new_object [])) = dmap2dict [ex_record] /\
  sdarn_get_records (snd (call_all [ReadRecords] (new_object []))) = Raise AttributeError /\
  Ok (dmap_get_records (snd (call_all [ReadRecords] (new_object [])))) = dmap2dict [ex_record] /\
  sdarn_get_records (snd (call_all [ReadRecords; ReadType Map] (new_object []))) = dmap2dict [ex_record].
Proof. split; [vm_compute; reflexivity|]. split; [vm_compute; reflexivity|]. split; vm_compute; reflexivity. Qed.
