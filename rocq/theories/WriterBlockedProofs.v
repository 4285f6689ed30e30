(** Lemmas for C90: writer objects with a record that cannot be converted. *)
From Coq Require Import ZArith List Bool Lia ZifyBool ZifyNat.
From Verif Require Import Base Bytes BytesSpec BytesProofs DmapTypes DmapRead DmapWrite Conversions DmapSpec DmapWriteSpec
  DmapReadProofs DmapFileProofs DmapStreamProofs DmapWriteProofs DmapWriterProofs DmapWriteFacts DmapObjectProofs DmapConvProofs
  DmapWriteFaultSpec DmapWriteFaultProofs
  SDarnFormats SDarn SDarnSpec SDarnProofs SDarnObjectProofs SDarnWriteProofs.
Import ListNotations.
Open Scope Z_scope.

(** The methods of a writer object that write: dmap.py:928-978 (write_dmap),
    dmap.py:980-1008 (write_dmap_stream) and superdarn.py:612-849 (write_iqdat ...
    write_map; SDarnWrite inherits the first two). *)
Inductive call :=
| CallFile (filename : pystr)
| CallStream (records : list record)
| CallType (t : sd_type) (filename : pystr).

(** The call made and its result dropped: what it raises (None is returned by
    write_dmap, dmap.py:944-962). *)
Definition forget {A} (x : res A) : res unit := rlet _ := x in Ok tt.

(** One call: dmap.py:944-983, superdarn.py:612-849. *)
Definition do_call (fs : fsys) (w : writer) (c : call) : res unit * writer * fsys :=
  match c with
  | CallFile fn => write_dmap fs w fn
  | CallStream rs => let (x, w') := write_dmap_stream w rs in (forget x, w', fs)
  | CallType t fn => sd_write t fs w fn
  end.

(** The calls one after the other, whatever they raise. *)
Fixpoint do_calls (fs : fsys) (w : writer) (cs : list call) : list (res unit) * writer * fsys :=
  match cs with
  | [] => ([], w, fs)
  | c :: cs' =>
      match do_call fs w c with
      | (x, w', fs') => match do_calls fs' w' cs' with (l, w'', fs'') => (x :: l, w'', fs'') end
      end
  end.

Lemma structure_stuck sl ol rs : Exists stuck rs -> forall n acc q acc' rs',
  structure_to_bytes sl ol n acc rs = (q, acc', rs') -> (exists e, q = Raise e) /\ Exists stuck rs'.
Proof.
  intros H. induction H as [r rs H|r rs H IH]; intros n acc q acc' rs'; cbn [structure_to_bytes];
    (destruct (write_checks sl ol r n) as [[]|e1];
     [|intros [= <- <- <-]; split; [eauto|]; first [now apply Exists_cons_hd|now apply Exists_cons_tl]]).
  - destruct H as (e & H). destruct (dmap_record_to_bytes r) as [[b|e0] r'] eqn:E; [discriminate|].
    intros [= <- <- <-]. split; [eauto|]. apply Exists_cons_hd. eapply stuck_after; eauto.
  - destruct (dmap_record_to_bytes r) as [[b|e0] r'] eqn:E.
    + destruct (structure_to_bytes sl ol (n + 1) (acc ++ b) rs) as [[q2 acc2] rs2] eqn:E2. intros [= <- <- <-].
      destruct (IH _ _ _ _ _ E2) as [H1 H2]. split; [exact H1|now apply Exists_cons_tl].
    + intros [= <- <- <-]. split; [eauto|]. apply Exists_cons_hd. eapply stuck_after; eauto.
Qed.

Lemma call_stuck fs w c x w' fs' : Exists stuck (wr_records w) -> do_call fs w c = (x, w', fs') ->
  (exists e, x = Raise e) /\ fs' = fs /\ Exists stuck (wr_records w').
Proof.
  intros HS. destruct c as [fn|rs|t fn]; cbn [do_call].
  - rewrite write_dmap_cases. destruct (match fn with [] => wr_filename w | _ => fn end) as [|c n].
    + intros [= <- <- <-]. eauto.
    + destruct (write_dmap_stream _ _) as [q w2] eqn:E.
      apply stream_stuck in E as [H1 (e & ->)]; [|exact HS]. intros [= <- <- <-]. eauto.
  - destruct (write_dmap_stream w rs) as [q w2] eqn:E.
    apply stream_stuck in E as [H1 (e & ->)]; [|exact HS]. intros [= <- <- <-]. unfold forget. cbn [rbind]. eauto.
  - rewrite sd_write_cases. destruct (match fn with [] => wr_filename w | _ => fn end) as [|c n].
    + intros [= <- <- <-]. eauto.
    + destruct (wr_records w) as [|r0 rs0] eqn:ER; [inversion HS|]. rewrite <- ER in *.
      destruct (structure_to_bytes _ _ 0 _ _) as [[q acc] rs'] eqn:E.
      apply structure_stuck in E as [(e & ->) H1]; [|exact HS]. intros [= <- <- <-]. eauto.
Qed.

Lemma calls_stuck cs : forall fs w l w' fs', Exists stuck (wr_records w) -> do_calls fs w cs = (l, w', fs') ->
  Forall (fun x => exists e, x = Raise e) l /\ length l = length cs /\ fs' = fs /\ Exists stuck (wr_records w').
Proof.
  induction cs as [|c cs IH]; intros fs w l w' fs' HS; cbn [do_calls].
  - intros [= <- <- <-]. splits; auto.
  - destruct (do_call fs w c) as [[x w1] fs1] eqn:E. destruct (do_calls fs1 w1 cs) as [[l2 w2] fs2] eqn:E2.
    intros [= <- <- <-]. destruct (call_stuck _ _ _ _ _ _ HS E) as (H1 & -> & H2).
    destruct (IH _ _ _ _ _ H2 E2) as (I1 & I2 & I3 & I4). splits; auto. cbn [length]. lia.
Qed.

(** Whole blocks in the buffer, or a record that can never be converted. *)
Lemma blocks_like rs bl :
  Forall2 (fun r b => dmap_record_to_bytes r = (Ok b, record_after r)) rs bl -> Forall block_like bl.
Proof. induction 1; constructor; auto. eapply record_bytes_block_like; eauto. Qed.

Lemma call_good fs w c x w' fs' : good_writer w -> do_call fs w c = (x, w', fs') -> good_writer w'.
Proof.
  intros HG. destruct c as [fn|rs|t fn]; cbn [do_call].
  - intros H. apply (run_op_good fs w (OpWrite fn) (rlet _ := x in Ok []) w' fs' HG). cbn [run_op]. now rewrite H.
  - destruct (write_dmap_stream w rs) as [q w2] eqn:E. intros [= _ <- _]. eapply stream_good; eauto.
  - rewrite sd_write_cases. destruct (match fn with [] => wr_filename w | _ => fn end) as [|c n].
    + now intros [= _ <- _].
    + destruct (wr_records w) as [|r0 rs0] eqn:ER.
      { intros [= _ <- _]. destruct HG as [HG|HG]; [left; exact HG|rewrite ER in HG; inversion HG]. }
      rewrite <- ER in *. pose proof (structure_cases t (wr_records w) 0 (wr_bytearr w)) as HC.
      destruct (structure_to_bytes _ _ 0 _ _) as [[q acc] rs'] eqn:E.
      assert (HX : good_writer (mk_writer (c :: n) rs' acc)).
      { destruct HG as [(bl & HB & HW)|HG]; [|right; cbn [wr_records]; eapply structure_stuck; eauto].
        destruct q as [[]|e].
        - destruct HC as [_ HC]. apply records_bytes_iff in HC as (bl2 & HF & -> & _). left. exists (bl ++ bl2).
          cbn [wr_bytearr]. rewrite HW, concat_app. split; [|reflexivity]. apply Forall_app. split; auto. eapply blocks_like; eauto.
        - destruct HC as (pre & r & post & pre' & acc2 & _ & _ & HC & [(_ & -> & _)|(_ & -> & r' & HR & ->)]).
          + apply records_bytes_iff in HC as (bl2 & HF & -> & _). left. exists (bl ++ bl2).
            cbn [wr_bytearr]. rewrite HW, concat_app. split; [|reflexivity]. apply Forall_app. split; auto. eapply blocks_like; eauto.
          + right. cbn [wr_records]. apply Exists_app. right. apply Exists_cons_hd. eapply stuck_after; eauto. }
      destruct q as [[]|e]; intros [= _ <- _]; exact HX.
Qed.

Lemma calls_good cs : forall fs w l w' fs', good_writer w -> do_calls fs w cs = (l, w', fs') -> good_writer w'.
Proof.
  induction cs as [|c cs IH]; intros fs w l w' fs' HG; cbn [do_calls]; [now intros [= _ <- _]|].
  destruct (do_call fs w c) as [[x w1] fs1] eqn:E. destruct (do_calls fs1 w1 cs) as [[l2 w2] fs2] eqn:E2.
  intros [= _ <- _]. eapply IH; [|exact E2]. eapply call_good; eauto.
Qed.

(** Every file is as before or whole blocks. *)
Definition whole (x : option bytes) : Prop := exists bs ns, x = Some bs /\ ns <> [] /\ walk bs 0 ns.

Lemma file_whole fs w fn x w' fs' : good_writer w -> write_dmap fs w fn = (x, w', fs') ->
  forall n, fs' n = fs n \/ whole (fs' n).
Proof.
  intros HG H n. apply write_dmap_effect in H. cbv zeta in H. destruct x as [[]|e]; [|left; now destruct H as [-> _]].
  destruct H as (bs & H1 & H2 & H3 & H4).
  destruct (list_eq_dec Z.eq_dec n (match fn with [] => wr_filename w | _ => fn end)) as [->|HN]; [|left; auto].
  right. exists bs. destruct (stream_nonempty _ _ _ HG H2) as (ns & N1 & N2 & _). exists ns. auto.
Qed.

Lemma calls_whole cs : forall fs w l w' fs', good_writer w -> do_calls fs w cs = (l, w', fs') ->
  forall n, fs' n = fs n \/ whole (fs' n).
Proof.
  induction cs as [|c cs IH]; intros fs w l w' fs' HG; cbn [do_calls]; [intros [= _ _ <-]; auto|].
  destruct (do_call fs w c) as [[x w1] fs1] eqn:E. destruct (do_calls fs1 w1 cs) as [[l2 w2] fs2] eqn:E2.
  intros [= _ _ <-] n. pose proof (call_good _ _ _ _ _ _ HG E) as HG1.
  destruct (IH _ _ _ _ _ HG1 E2 n) as [->|H]; [|auto].
  destruct c as [fn|rs|t fn]; cbn [do_call] in E.
  - exact (file_whole _ _ _ _ _ _ HG E n).
  - destruct (write_dmap_stream w rs) as [q w3]. injection E as _ _ <-. auto.
  - destruct x as [[]|e].
    + apply sd_write_succeeded in E as (_ & _ & E). exact (file_whole _ _ _ _ _ _ HG E n).
    + apply sd_write_failed in E as [-> _]. auto.
Qed.

(** ** A record that is too long *)

Lemma long_record r : record_known r -> Forall (fun p => no_fault (field_fault (snd p))) r -> 2 ^ 31 <= record_length r ->
  fst (dmap_record_to_bytes r) = Raise StructError /\ record_rest r = [1; 0; 1; 0] /\ snd (dmap_record_to_bytes r) = turned_record r.
Proof.
  intros K N L. destruct (record_fails r K) as (F & _ & X).
  assert (NF : ~ fits true 4 (record_length r)).
  { unfold fits. change (8 * Z.of_nat 4 - 1) with 31. clear - L. lia. }
  assert (HF : record_fault r StructError).
  { unfold record_fault. apply fault_snoc. right. split.
    - apply first_none. rewrite Forall_map. exact N.
    - split; [reflexivity|exact NF]. }
  apply F in HF. pose proof (X _ HF) as HL. split; [exact HF|].
  destruct (dmap_record_to_bytes r) as [q r'] eqn:E. cbn [fst snd] in *. subst q.
  destruct (rest_cases _ _ _ E) as [[C1 C2]|(C1 & _ & bl & _ & _ & C3)].
  - exfalso. destruct (fields_fails r K) as (FF & _). apply FF in C2.
    apply (proj2 (first_none _)) in C2; [exact C2|]. rewrite Forall_map. exact N.
  - split; [exact C1|]. rewrite C1 in HL. inversion HL; subst; reflexivity.
Qed.

Definition long (r : record) : Prop :=
  exists bl, Forall2 (fun p b => item_bytes (snd p) = Ok b) r bl /\ 2 ^ 31 <= 16 + zlen (concat bl).

Lemma long_fails r : long r ->
  dmap_record_to_bytes r = (Raise StructError, record_after r) /\ record_rest r = ident65537 /\ long (record_after r).
Proof.
  intros (bl & HF & HL).
  pose proof (proj2 (fields_to_bytes_iff r _ _ _ _) (ex_intro _ bl (conj HF (conj eq_refl (conj eq_refl (conj eq_refl eq_refl)))))) as HB.
  assert (HE : exists e, dmap_record_to_bytes r = (Raise e, record_after r)).
  { unfold dmap_record_to_bytes. rewrite HB. cbv zeta.
    destruct (header_bytes (zlen (concat bl) + 16) (scalars_of r) (arrays_of r)) as [h|e] eqn:EH; [|cbn [rbind]; eauto]. exfalso.
    unfold header_bytes in EH. inv_rbind EH b0. destruct (pack_int true 4 (zlen (concat bl) + 16)) as [b1|e1] eqn:EP; [|discriminate].
    apply pack_int_inv in EP as [_ R]. apply fits_iff in R; [|lia]. unfold fits in R.
    change (8 * Z.of_nat 4 - 1) with 31 in R. lia. }
  destruct HE as (e & HE). destruct (rest_cases _ _ _ HE) as [[_ C]|(C1 & -> & _)].
  - exfalso. rewrite HB in C. discriminate C.
  - splits; auto. destruct (flip_fields _ _ HF) as (bl' & HF' & HL' & _). exists bl'.
    rewrite <- flip_after. split; [exact HF'|]. now rewrite (zlen_concat_map _ _ HL').
Qed.

Lemma known_long r : record_known r -> Forall (fun p => no_fault (field_fault (snd p))) r -> 2 ^ 31 <= record_length r -> long r.
Proof.
  intros K N L. destruct (long_record r K N L) as (H1 & H2 & _).
  destruct (dmap_record_to_bytes r) as [q r'] eqn:E. cbn [fst] in H1. subst q.
  destruct (rest_cases _ _ _ E) as [[C _]|(_ & _ & bl & B1 & B2 & _)]; [congruence|]. exists bl. auto.
Qed.

Lemma long_calls n : forall fs fn r acc, long r -> exists r',
  do_calls fs (mk_writer fn [r] acc) (repeat (CallStream []) n) =
  (repeat (Raise StructError) n, mk_writer fn [r'] (acc ++ concat (repeat ident65537 n)), fs).
Proof.
  induction n as [|n IH]; intros fs fn r acc H; cbn [repeat do_calls concat].
  - exists r. now rewrite app_nil_r.
  - destruct (long_fails r H) as (H1 & H2 & H3). destruct (IH fs fn _ (acc ++ ident65537) H3) as (r' & HI).
    exists r'. cbn [do_call]. unfold write_dmap_stream. cbn [wr_records empty_record_check wr_bytearr wr_filename dmap_records_to_bytes].
    rewrite H1, H2. unfold forget. cbn [rbind]. rewrite HI. now rewrite <- app_assoc.
Qed.
