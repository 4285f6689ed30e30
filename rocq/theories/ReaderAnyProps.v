(** C103: what reader objects return and hold after read_records and read_<type>, for any
    bytes and wherever in them the object stands (C73_kept and C87 say it for objects that
    are new and files without an slist of negative size). *)
From Coq Require Import ZArith List Bool Lia.
From Verif Require Import Base Bytes BytesSpec BytesProofs DmapTypes DmapRead Conversions DmapSpec DmapReadProofs DmapFileProofs
  DmapReadProps DmapFaultSpec DmapFaultProps DmapBackProps DmapAnySpec DmapAnyProofs DmapAnyProps DmapAnyFaultSpec DmapAnyFaultProofs DmapAnyFaultProps
  SDarnFormats SDarn SDarnSpec SDarnProps SDarnFaultSpec SDarnReadFaultProps ReaderAnyProofs.
Import ListNotations.
Open Scope Z_scope.

(** DmapRead.read_records: the blocks from the cursor to the end, or to the first with a
    fault, are appended to the records the object holds and counted. *)
Theorem C103_read : forall r, is_bytearray (rdr_buf r) -> 0 <= rdr_cursor r <= zlen (rdr_buf r) ->
  exists bl rs q x r', chain_at (rdr_buf r) (rdr_cursor r) bl q /\ Forall2 dict_of_block bl rs /\ read_records r = (x, r') /\
    rdr_buf r' = rdr_buf r /\ rdr_records r' = rdr_records r ++ rs /\ rdr_rec_num r' = rdr_rec_num r + zlen bl /\
    ((q = zlen (rdr_buf r) /\ x = Ok (rdr_records r') /\ rdr_cursor r' = q) \/
     exists e, q < zlen (rdr_buf r) /\ block_bad (rdr_buf r) q e /\ x = Raise e).
Proof. exact read_state. Qed.
Print Assumptions C103_read.

(** SDarnRead.read_<type>: likewise, to the first block with a fault or the first whose
    record breaks the rules.  The numbers begin with 0 in every call.  The cursor is behind
    the record that breaks the rules. *)
Theorem C103_darn : forall t r, is_bytearray (rdr_buf r) -> 0 <= rdr_cursor r <= zlen (rdr_buf r) ->
  exists bl rs q x r', chain_at (rdr_buf r) (rdr_cursor r) bl q /\ Forall2 dict_of_block bl rs /\ Forall (acceptable t) rs /\
    sd_read t r = (x, r') /\
    rdr_buf r' = rdr_buf r /\ rdr_records r' = rdr_records r ++ rs /\ rdr_rec_num r' = zlen bl /\
    ((q = zlen (rdr_buf r) /\ x = dmap2dict (rdr_records r') /\ rdr_cursor r' = q) \/
     (exists e, q < zlen (rdr_buf r) /\ block_bad (rdr_buf r) q e /\ x = Raise e) \/
     exists sz b d e, block_at (rdr_buf r) q sz b /\ dict_of_block b d /\ ~ acceptable t d /\
       read_check_error t d (zlen bl) e /\ x = Raise e /\ rdr_cursor r' = q + sz).
Proof. exact darn_state. Qed.
Print Assumptions C103_darn.

(** The bytes and the cursor determine where the blocks end: of two chains one begins with
    the other, and none goes on at the end of the bytes or at a block with a fault. *)
Theorem C103_chain : forall buf p bl q bl' q', is_bytearray buf -> 0 <= p ->
  chain_at buf p bl q -> chain_at buf p bl' q' ->
  (exists t, bl' = bl ++ t /\ chain_at buf q t q') \/ (exists t, bl = bl' ++ t /\ chain_at buf q' t q).
Proof. intros buf p bl q bl' q' [HB HM] HP H H'. eapply chain_same; eauto. Qed.
Print Assumptions C103_chain.

Theorem C103_stop : forall buf p sz b, is_bytearray buf -> block_at buf p sz b ->
  p < zlen buf /\ (forall e, ~ block_bad buf p e) /\ forall sz' b', block_at buf p sz' b' -> sz' = sz /\ b' = b.
Proof.
  intros buf p sz b [HB HM] H. pose proof (block_span _ _ _ _ H) as SP. split; [lia|]. split.
  - intros e F. apply (block_raise buf HB HM) in F; [|lia]. revert F. eapply raising_ok. apply block_iff; eauto; lia.
  - intros sz' b' H'. apply (block_same buf HB HM p sz' b' sz b); auto; lia.
Qed.
Print Assumptions C103_stop.

(** With the cursor behind the end read_records refuses, read_<type> returns what there is. *)
Theorem C103_past : forall t r, zlen (rdr_buf r) < rdr_cursor r ->
  read_records r = (Raise MismatchByteError, r) /\
  sd_read t r = (dmap2dict (rdr_records r), mk_reader (rdr_buf r) (rdr_cursor r) (rdr_records r) 0).
Proof.
  intros t r H. unfold read_records, sd_read, read_darn_records.
  cbn [read_records_loop read_darn_loop rdr_buf rdr_cursor rdr_records]. unfold end_bytes.
  replace (rdr_cursor r <? zlen (rdr_buf r)) with false by (symmetry; apply Z.ltb_ge; lia).
  cbn [rdr_buf rdr_cursor rdr_records]. unfold end_bytes.
  replace (zlen (rdr_buf r) <? rdr_cursor r) with true by (symmetry; apply Z.ltb_lt; lia). split; reflexivity.
Qed.
Print Assumptions C103_past.

(** ** Cases *)

(** A good block and one whose slist has size -46: the cursor goes back into the good one,
    and the next call begins there.  The good record is kept by both. *)
Definition ex_kept : bytes := ex_block_bytes ++ ex_twice.
Definition seen (p : res (list record) * reader) :=
  (match fst p with Ok _ => None | Raise e => Some e end, rdr_cursor (snd p), rdr_rec_num (snd p),
   map (map fst) (rdr_records (snd p))).

Example C103_case :
  is_bytearray ex_kept /\ 0 <= 0 <= zlen ex_kept /\
  let first := read_records (mk_reader ex_kept 0 [] 0) in
  seen first = (Some NegativeByteError, 49, 1, [[[110]; [116]; [109]]]) /\
  fst (fst (fst (seen (read_records (snd first))))) = Some MismatchByteError /\
  rdr_records (snd (read_records (snd first))) = rdr_records (snd first).
Proof.
  split; [split; [unfold ex_kept, ex_block_bytes, ex_twice; bytes_tac|vm_compute; discriminate]|].
  split; [vm_compute; split; discriminate|].
  repeat split; vm_compute; reflexivity.
Qed.

(** A reader that stands in front of the second of three grid records, of which the last
    has 4 of the 8 fields, and holds one record already. *)
Definition ex_stand : reader :=
  mk_reader (grid_bytes ++ grid_bytes ++ half_bytes) (zlen grid_bytes) [[([110], IScalar (mk_dscalar [110] (VInt 7) 2 Fh))]] 5.
Example C103_darn_case :
  is_bytearray (rdr_buf ex_stand) /\ 0 <= rdr_cursor ex_stand <= zlen (rdr_buf ex_stand) /\
  let p := sd_read Grid ex_stand in
  zlen (rdr_records (snd p)) = 2 /\ rdr_rec_num (snd p) = 1 /\ rdr_cursor (snd p) = zlen (rdr_buf ex_stand) /\
  exists l, fst p = Raise (SuperDARNFieldMissingError 1 l).
Proof.
  split; [apply bytesb_ok; vm_compute; reflexivity|]. split; [vm_compute; split; discriminate|].
  cbv zeta. repeat split; [vm_compute; reflexivity..|]. eexists. vm_compute. reflexivity.
Qed.

Example C103_chain_case : is_bytearray ex_twice /\ chain_at ex_twice 0 [] 0 /\ exists bl, bl <> [] /\ chain_at ex_twice 0 bl 46.
Proof.
  split; [split; [unfold ex_twice; bytes_tac|vm_compute; discriminate]|]. split; [constructor|].
  pose proof ex_twice_blocks as H. inversion H as [|p sz b bl H1 H2 E1 E2]. subst.
  exists [([ex_a], [ex_slist; ex_all])]. split; [discriminate|]. econstructor; [exact H1|].
  inversion H2 as [E|p' sz' b' bl' H3 H4 E1 E2]. change 46 with (zlen ex_twice). rewrite E. constructor.
Qed.

(** Two bytes, and a cursor of 4: a truncated block was tried before. *)
Example C103_past_case : snd (read_records (mk_reader [1; 0] 0 [] 0)) = mk_reader [1; 0] 4 [] 0 /\
  fst (read_records (mk_reader [1; 0] 4 [] 0)) = Raise MismatchByteError /\ fst (sd_read Grid (mk_reader [1; 0] 4 [] 0)) = Ok [].
Proof. repeat split. Qed.
