(** C90: a record that cannot be converted blocks its writer object for good; what
    is written otherwise, after any calls, is whole blocks. *)
From Coq Require Import ZArith List Bool Lia.
From Verif Require Import Base Bytes BytesSpec BytesProofs FloatBits DmapTypes DmapRead DmapWrite Conversions DmapSpec DmapWriteSpec
  DmapReadProofs DmapFileProofs DmapWriterProofs DmapWriteFacts DmapObjectProofs DmapReadProps DmapWriteProps DmapWriteFaultSpec DmapWriteFaultProofs DmapWriteFaultProps
  SDarnFormats SDarn SDarnSpec SDarnProps WriterBlockedProofs.
Import ListNotations.
Open Scope Z_scope.

(** As soon as one record of the object cannot be converted, every call raises,
    whatever its arguments and however many there are, and no file is touched. *)
Theorem C90_blocked : forall fs w cs r e,
  In r (wr_records w) -> fst (dmap_record_to_bytes r) = Raise e ->
  forall l w' fs', do_calls fs w cs = (l, w', fs') ->
  length l = length cs /\ Forall (fun x => exists e', x = Raise e') l /\ fs' = fs.
Proof.
  intros fs w cs r e HI HR l w' fs' H.
  assert (HS : Exists stuck (wr_records w)) by (apply Exists_exists; exists r; split; [exact HI|now exists e]).
  destruct (calls_stuck cs fs w l w' fs' HS H) as (H1 & H2 & H3 & _). auto.
Qed.
Print Assumptions C90_blocked.

(** In particular after a call that failed in the conversion of a record. *)
Theorem C90_after : forall fs w fn e w1 fs1 cs l w2 fs2,
  write_dmap fs w fn = (Raise e, w1, fs1) -> wr_records w <> [] ->
  match fn with [] => wr_filename w | _ => fn end <> [] ->
  do_calls fs1 w1 cs = (l, w2, fs2) ->
  Forall (fun x => exists e', x = Raise e') l /\ fs2 = fs.
Proof.
  intros fs w fn e w1 fs1 cs l w2 fs2 H HN HF HC.
  assert (HS : fs1 = fs /\ Exists stuck (wr_records w1)).
  { rewrite write_dmap_cases in H. destruct (match fn with [] => wr_filename w | _ => fn end) as [|c n]; [contradiction|].
    unfold write_dmap_stream, empty_record_check in H. cbn [wr_records wr_bytearr wr_filename] in H.
    destruct (wr_records w) as [|r0 rs0] eqn:ER; [contradiction|]. cbn [wr_records wr_bytearr wr_filename] in H.
    destruct (dmap_records_to_bytes (wr_bytearr w) (r0 :: rs0)) as [[q acc] rs'] eqn:E.
    destruct q as [[]|e1]; cbn [rbind] in H; [discriminate|]. injection H as _ <- <-. cbn [wr_records]. split; auto.
    clear - E. revert E. generalize (wr_bytearr w). generalize (r0 :: rs0) as rs. intros rs. revert rs'.
    induction rs as [|r rs IH]; intros rs' acc0; cbn [dmap_records_to_bytes]; [discriminate|].
    destruct (dmap_record_to_bytes r) as [[b|e0] r'] eqn:EB.
    - destruct (dmap_records_to_bytes (acc0 ++ b) rs) as [[q2 acc2] rs2] eqn:E2. intros [= -> -> <-].
      apply Exists_cons_tl. eapply IH; eauto.
    - intros [= _ _ <-]. apply Exists_cons_hd. eapply stuck_after; eauto. }
  destruct HS as [-> HS]. destruct (calls_stuck cs _ _ _ _ _ HS HC) as (H1 & _ & H3 & _). auto.
Qed.
Print Assumptions C90_after.

(** A record with a number too large for its type: nothing works any more, not
    even with other records as arguments. *)
Example C90_case :
  let w := mk_writer [102] [good_record; bad_record] [] in
  In bad_record (wr_records w) /\ fst (dmap_record_to_bytes bad_record) = Raise StructError /\
  fst (fst (do_calls (fun _ => None) w [CallFile []; CallStream [good_record]; CallType Grid [103]; CallFile [104]])) =
    [Raise StructError; Raise StructError; Raise (SuperDARNExtraFieldError 0 [[110]; [109]]); Raise StructError].
Proof. cbv zeta. splits; [right; now left|reflexivity|vm_compute; reflexivity]. Qed.

(** A record too long for the length in its header, and otherwise in order, is
    refused, but the first word of the header has been put into the buffer: every
    call adds four bytes. *)
Theorem C90_long : forall fs fn r acc n,
  record_known r -> Forall (fun p => no_fault (field_fault (snd p))) r -> 2 ^ 31 <= record_length r ->
  exists r', do_calls fs (mk_writer fn [r] acc) (repeat (CallStream []) n) =
    (repeat (Raise StructError) n, mk_writer fn [r'] (acc ++ concat (repeat [1; 0; 1; 0] n)), fs).
Proof. intros fs fn r acc n K N L. exact (long_calls n fs fn r acc (known_long r K N L)). Qed.
Print Assumptions C90_long.

(** Two GiB of zeros. *)
Definition zeros : record :=
  [([122], IArray (mk_darray [122] (mk_ndarray DI16 false [2 ^ 30] (repeat 0 (Z.to_nat (2 ^ 30)))) 2 Fh 1 [2 ^ 30]))].
Lemma zlen_repeat (x : Z) n : zlen (repeat x (Z.to_nat n)) = Z.max 0 n.
Proof. unfold zlen. rewrite repeat_length. lia. Qed.
Example C90_long_case :
  record_known zeros /\ Forall (fun p => no_fault (field_fault (snd p))) zeros /\ 2 ^ 31 <= record_length zeros /\
  record_length zeros = 2 ^ 31 + 27.
Proof.
  assert (HL : record_length zeros = 2 ^ 31 + 27).
  { unfold record_length, zeros. cbn [map snd field_length total fold_right ar_name ar_shape ar_value nd_dtype nd_data].
    rewrite zlen_repeat. reflexivity. }
  splits.
  - constructor; [|constructor]. unfold text. cbn [snd]. constructor; [lia|constructor].
  - constructor; [|constructor]. cbn [snd field_fault]. apply first_none. cbn [ar_name ar_type ar_dim ar_shape].
    repeat (apply Forall_cons || apply Forall_nil); intros e C.
    + destruct C as [C|C|n C]; discriminate C.
    + destruct C as [_ C]. inversion C as [x l C1|x l C1]; subst; [unfold surrogate in C1; lia|inversion C1].
    + destruct C as [e C|C]; [|lia]. destruct C as [C|C|C]; [lia|lia|unfold surrogate in C; lia].
    + destruct C as [_ C]. apply C. cbn. lia.
    + destruct C as [_ C]. inversion C as [x l C1|x l C1]; subst; [apply C1; cbn; lia|inversion C1].
  - rewrite HL. lia.
  - exact HL.
Qed.

(** Every stream a writer object of either kind gives, after any calls whatsoever,
    is a sequence of whole blocks and passes the integrity check of a reader. *)
Theorem C90_integrity : forall recs fn w fs cs l w1 fs1 rs bs,
  writer_new recs fn = Ok w -> do_calls fs w cs = (l, w1, fs1) ->
  fst (write_dmap_stream w1 rs) = Ok bs -> is_bytearray bs ->
  (exists ns, ns <> [] /\ walk bs 0 ns) /\
  forall fs', exists rd, dmap_reader_init fs' (FromStream bs) = Ok rd /\ fst (reader_integrity rd) = Ok tt.
Proof.
  intros recs fn w fs cs l w1 fs1 rs bs HW HC HS HB. apply writer_new_good in HW.
  pose proof (calls_good cs fs w l w1 fs1 HW HC) as HG.
  destruct (stream_nonempty _ _ _ HG HS) as (ns & HN & HWk & HNE).
  split; [eauto|]. intros fs'.
  destruct (dmap_reader_init fs' (FromStream bs)) as [rd|e] eqn:E.
  - exists rd. split; auto. apply (C06_integrity fs' bs rd HB E). eauto.
  - unfold dmap_reader_init, reader_new in E. destruct (zlen bs =? 0) eqn:EZ; [|discriminate].
    apply Z.eqb_eq in EZ. unfold zlen in EZ. destruct bs; [congruence|]. cbn in EZ. lia.
Qed.
Print Assumptions C90_integrity.

(** So is every file they write: a file is as it was, or whole blocks. *)
Theorem C90_files : forall recs fn w fs cs l w1 fs1,
  writer_new recs fn = Ok w -> do_calls fs w cs = (l, w1, fs1) ->
  forall name, fs1 name = fs name \/
    exists bs ns, fs1 name = Some bs /\ ns <> [] /\ walk bs 0 ns.
Proof. intros recs fn w fs cs l w1 fs1 HW HC. exact (calls_whole cs fs w l w1 fs1 (writer_new_good _ _ _ HW) HC). Qed.
Print Assumptions C90_files.

(** Calls of all kinds, some refused: two files, and a stream of four blocks. *)
Example C90_calls_case :
  (rlet w := writer_new [block_fields ex_grid] [] in
   match do_calls (fun _ => None) w [CallFile []; CallType Rawacf [102]; CallStream []; CallType Grid [103]; CallFile [102]] with
   | (l, w1, fs1) =>
       rlet bs := fst (write_dmap_stream w1 []) in
       Ok (map (fun x : res unit => match x with Ok _ => true | Raise _ => false end) l,
           option_map zlen (fs1 [102]), option_map zlen (fs1 [103]), zlen bs)
   end) = Ok ([false; false; true; true; true], Some 687, Some 458, 916).
Proof. vm_compute. reflexivity. Qed.
