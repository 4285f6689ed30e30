(** C73: which exception the reader and the integrity check raise for which
    defect.  Every theorem is followed by concrete cases. *)
From Coq Require Import ZArith List Bool Lia.
From Verif Require Import Base Bytes BytesSpec BytesProofs DmapTypes DmapRead Conversions
  DmapSpec DmapReadProofs DmapFileProofs DmapStreamProofs DmapConvProofs DmapReadProps
  DmapFaultSpec DmapFaultProofs.
Import ListNotations.
Open Scope Z_scope.

(** ** The exception of a rejected input is that of its first fault *)

Theorem C73_errors : forall buf e,
  is_bytearray buf -> ~ negative_slist buf -> (dmap_read buf = Raise e <-> file_fault buf e).
Proof.
  intros buf e HA HN. split; [|now apply file_fault_raises]. intros H.
  destruct (file_total buf (proj1 HA) HN) as [(bl & HB & HW)|[e' HF]].
  - destruct (read_complete buf bl (proj2 HA) HB HW) as (rs & HR & _). congruence.
  - rewrite (file_fault_raises buf e' HA HF) in H. now injection H as <-.
Qed.
Print Assumptions C73_errors.

(** The same for the dictionaries read_records() returns. *)
Theorem C73_dicts : forall buf e,
  is_bytearray buf -> ~ negative_slist buf -> (dmap_read_dicts buf = Raise e <-> file_fault buf e).
Proof.
  intros buf e HA HN. rewrite <- (C73_errors buf e HA HN).
  pose proof (read_dicts_spec buf (proj1 HA)) as HS. destruct (dmap_read buf) as [rs|e'].
  - destruct HS as [ds HS]. split; congruence.
  - rewrite HS. reflexivity.
Qed.
Print Assumptions C73_dicts.

(** A fault is reported whatever sizes arrays called slist have. *)
Theorem C73_reported : forall buf e,
  is_bytearray buf -> file_fault buf e -> dmap_read buf = Raise e.
Proof. exact file_fault_raises. Qed.
Print Assumptions C73_reported.

(** No input has two faults: the rules exclude each other. *)
Theorem C73_unique : forall buf e1 e2,
  is_bytearray buf -> file_fault buf e1 -> file_fault buf e2 -> e1 = e2.
Proof.
  intros buf e1 e2 HA H1 H2. apply file_fault_raises in H1, H2; auto. congruence.
Qed.
Print Assumptions C73_unique.

(** The object of a failed read holds the records of the blocks before the fault
    and their number. *)
Theorem C73_kept : forall fs src A B bl e r,
  is_bytearray (A ++ B) ->
  src = FromStream (A ++ B) \/ (exists name, src = FromFile name /\ fs name = Some (A ++ B)) ->
  wire_file bl A -> block_fault B e -> dmap_reader_init fs src = Ok r ->
  fst (read_records r) = Raise e /\
  Forall2 dict_of_block bl (rdr_records (snd (read_records r))) /\
  rdr_rec_num (snd (read_records r)) = zlen bl.
Proof.
  intros fs src A B bl e r HA HS HW HF Hr.
  assert (Hr' : reader_new (A ++ B) = Ok r).
  { destruct HS as [->|(name & -> & Hn)]; cbn [dmap_reader_init] in *; [auto|]. now rewrite Hn in Hr. }
  unfold reader_new in Hr'. destruct (zlen (A ++ B) =? 0); [discriminate|]. injection Hr' as <-.
  destruct (file_raises bl A B e HA HW HF) as [c ->].
  split; [reflexivity|]. split; [|reflexivity]. now apply Forall2_dict.
Qed.
Print Assumptions C73_kept.

(** A file cut inside a block: CursorError when less than 8 bytes of the block are
    left, MismatchByteError otherwise, from reading and from the integrity check. *)
Theorem C73_truncated : forall bl A ident b B C fs r,
  is_bytearray (A ++ B) -> wire_file bl A -> wire_block ident b (B ++ C) -> B <> [] -> C <> [] ->
  dmap_reader_init fs (FromStream (A ++ B)) = Ok r ->
  let e := if zlen B <? 8 then CursorError else MismatchByteError in
  fst (read_records r) = Raise e /\ fst (reader_integrity r) = Raise e.
Proof.
  intros bl A ident b B C fs r HA HW HB HNB HNC Hr. cbv zeta.
  pose proof (block_fault_cut ident b (B ++ C) B C HB eq_refl HNB HNC) as HF.
  split; [eapply (C73_kept fs _ A B bl); eauto|].
  cbn [dmap_reader_init] in Hr. unfold reader_new in Hr.
  destruct (zlen (A ++ B) =? 0); [discriminate|]. injection Hr as <-.
  assert (HR : rest (A ++ B) 0 (A ++ B)) by (split; [apply occurs_all|lia]).
  assert (HK : walk_fault (A ++ B) 0 (if zlen B <? 8 then CursorError else MismatchByteError)).
  { apply (walk_fault_shift bl A B _ _ 0 HW HR). apply rest_app in HR as [_ HR].
    apply (walk_fault_block _ _ B _ HR).
    assert (0 < zlen B).
    { assert (zlen B <> 0) by (rewrite zlen_0; auto). pose proof (zlen_nonneg B). lia. }
    destruct (zlen B <? 8) eqn:E8; [left; split; [lia|reflexivity]|right].
    destruct (cut_at B 8 ltac:(lia)) as (h & R & EB & Hh).
    remember (B ++ C) as W eqn:EW.
    assert (HLW : zlen W = zlen B + zlen C) by (rewrite EW; apply zlen_app).
    assert (zlen C <> 0) by (rewrite zlen_0; auto). pose proof (zlen_nonneg C).
    destruct HB as [ss aa szb nsb nab sb ab HI HIB HSS HAA HSZ HNS HNA HS HAR].
    pose proof (wire_int_len _ _ _ _ HSZ) as HLZ.
    assert (HH : h = ident ++ szb).
    { rewrite EB, <- app_assoc, app_assoc in EW. symmetry in EW. apply app_eq_len in EW as [EW _]; auto.
      rewrite app_length. unfold zlen in HLZ. lia. }
    eexists _, R. split; [exists ident, szb; rewrite EB, HH, <- app_assoc; eauto|].
    apply bz_large. lia. }
  destruct HA as [HBY HMX].
  destruct (integrity_raises (A ++ B) HMX _ HK) as [c HC].
  unfold reader_integrity. cbn [rdr_buf rdr_cursor rdr_records rdr_rec_num]. now rewrite HC.
Qed.
Print Assumptions C73_truncated.

(** The exception of the integrity check is that of the first bad size. *)
Theorem C73_integrity : forall fs buf r e,
  is_bytearray buf -> dmap_reader_init fs (FromStream buf) = Ok r ->
  (fst (reader_integrity r) = Raise e <-> walk_fault buf 0 e).
Proof.
  intros fs buf r e [HB HM] Hr. pose proof (C06_integrity fs buf r (conj HB HM) Hr) as [HOK _].
  cbn [dmap_reader_init] in Hr. unfold reader_new in Hr.
  destruct (zlen buf =? 0); [discriminate|]. injection Hr as <-.
  assert (HF : forall e, walk_fault buf 0 e ->
    fst (reader_integrity (mk_reader buf 0 [] 0)) = Raise e).
  { intros e' HK. destruct (integrity_raises buf HM _ HK) as [c HC].
    unfold reader_integrity. cbn [rdr_buf rdr_cursor rdr_records rdr_rec_num]. now rewrite HC. }
  split; [|apply HF]. intros H. pose proof (zlen_nonneg buf).
  destruct (walk_total buf HB (length buf) 0) as [HW|[e' HK]]; try (unfold zlen; lia).
  - apply HOK in HW. congruence.
  - rewrite (HF e' HK) in H. now injection H as <-.
Qed.
Print Assumptions C73_integrity.

(** ** Cases *)

(** A good block followed by one whose size exceeds the rest of the file. *)
Definition ex_long : bytes := [1;0;1;0; 21;0;0;0; 1;0;0;0; 1;0;0;0; 97;0;1;5].
Example C73_case_size :
  file_fault (ex_block_bytes ++ ex_long) MismatchByteError /\
  is_bytearray (ex_block_bytes ++ ex_long) /\ ~ negative_slist (ex_block_bytes ++ ex_long) /\
  dmap_read (ex_block_bytes ++ ex_long) = Raise MismatchByteError.
Proof.
  split; [|split; [|split; [no_slist|reflexivity]]].
  - apply (ff_block [ex_block]).
    + rewrite <- (app_nil_r ex_block_bytes). constructor; [|constructor].
      exists [1;0;1;0]. apply ex_wire_block.
    + apply (bf_size _ 21 (skipn 8 ex_long)); [|apply bz_large; reflexivity].
      exists [1;0;1;0], [21;0;0;0]. split; [reflexivity|]. split; [reflexivity|wint].
  - split; [|vm_compute; discriminate]. apply Forall_app. split; [apply ex_block_bytearray|].
    unfold ex_long. bytes_tac.
Qed.

Ltac hdr sz ns na := exists [ns;0;0;0], [na;0;0;0];
  split; [exists [1;0;1;0], [sz;0;0;0]; split; [reflexivity|split; [reflexivity|wint]]|
  split; [wint|split; [wint|vm_compute; intuition discriminate]]].

(** A scalar with an unknown type code. *)
Definition ex_code : bytes := [1;0;1;0; 20;0;0;0; 1;0;0;0; 1;0;0;0; 97;0;5;5].
Example C73_case_code :
  block_fault ex_code DmapDataTypeError /\ dmap_read ex_code = Raise DmapDataTypeError.
Proof.
  split; [|reflexivity].
  apply (bf_scalar _ 20 1 1 [] [] [97;0;5;5]); [hdr 20 1 1|constructor|reflexivity|].
  apply (sf_code [97] [97;0] [5;5]); [exists [97]; repeat split; cbn; lia|].
  constructor. intros o H. apply type_code_iff in H. discriminate.
Qed.

(** An array of 3 x 9 shorts in a block of 44 bytes. *)
Definition ex_sizes : bytes :=
  [1;0;1;0; 44;0;0;0; 1;0;0;0; 1;0;0;0; 97;0;1;5;
   109;0;2; 2;0;0;0; 9;0;0;0; 3;0;0;0; 1;0; 1;0; 1;0; 1;0; 1].
Example C73_case_sizes :
  block_fault ex_sizes MismatchByteError /\ dmap_read ex_sizes = Raise MismatchByteError.
Proof.
  split; [|reflexivity].
  apply (bf_array _ 44 1 1 [mk_dscalar [97] (VInt 5) 1 Fc] [97;0;1;5] [] [] (skipn 20 ex_sizes));
    [hdr 44 1 1| |reflexivity|constructor|reflexivity|].
  - change [97;0;1;5] with (([97;0] ++ [1] ++ [5]) ++ []). constructor; [|constructor].
    apply (wire_scalar_intro [97] Fc (VInt 5)); [exists [97]; repeat split; cbn; lia|].
    constructor. unfold is_byte. lia.
  - apply (af_sizes 44 [109] [109;0] 2 (Some Fh) [9;3] [2;0;0;0] ([9;0;0;0] ++ [3;0;0;0] ++ [])
             [1;0;1;0;1;0;1;0;1]).
    + exists [109]. repeat split; cbn; lia.
    + apply (tc_format Fh).
    + wint.
    + vm_compute. split; discriminate.
    + repeat (constructor; [wint|]). constructor.
    + apply zf_large; [repeat constructor; cbv; congruence|]. right. reflexivity.
Qed.

(** The fields end before the block does. *)
Example C73_case_length :
  dmap_read (firstn 4 ex_block_bytes ++ [55] ++ skipn 5 ex_block_bytes ++ [0]) = Raise CursorError.
Proof. reflexivity. Qed.

(** Every constructor of the faults of arrays is met by some input. *)
Definition ex_array (tail : bytes) : bytes :=
  [1;0;1;0; 20 + zlen tail;0;0;0; 1;0;0;0; 1;0;0;0; 97;0;1;5] ++ tail.
Example C73_case_arrays :
  map (fun t => dmap_read (ex_array t))
    [[]; [98]; [255; 0]; [98; 0]; [98; 0; 7]; [98; 0; 2; 0]; [98; 0; 2; 99;0;0;0]; [98; 0; 2; 0;0;0;0];
     [98; 0; 2; 255;255;255;255]; [98; 0; 2; 1;0;0;0; 5]; [98; 0; 2; 1;0;0;0; 0;0;0;0];
     [98; 0; 2; 1;0;0;0; 99;0;0;0]; [98; 0; 2; 1;0;0;0; 30;0;0;0]; [98; 0; 9; 1;0;0;0; 1;0;0;0];
     [98; 0; 0; 1;0;0;0; 1;0;0;0]; [98; 0; 2; 1;0;0;0; 3;0;0;0; 1;0]] =
  map Raise
    [CursorError; IndexError; UnicodeDecodeError; CursorError; DmapDataTypeError; CursorError;
     MismatchByteError; ZeroByteError; NegativeByteError; CursorError; DmapDataError;
     DmapDataError; MismatchByteError; DmapDataError; DmapDataError; ValueError].
Proof. reflexivity. Qed.

(** A file of two blocks cut 3, 8 and 53 bytes into the second. *)
Example C73_truncated_case :
  wire_block [1;0;1;0] ex_block (firstn 53 ex_block_bytes ++ skipn 53 ex_block_bytes) /\
  map (fun n => dmap_read (ex_block_bytes ++ firstn n ex_block_bytes)) [3; 7; 8; 53]%nat =
  map Raise [CursorError; CursorError; MismatchByteError; MismatchByteError].
Proof. split; [exact ex_wire_block|reflexivity]. Qed.

(** The integrity check meets the bad size of the second block. *)
Example C73_integrity_case :
  walk_fault (ex_no_array ++ ex_long) 0 MismatchByteError /\
  fst (reader_integrity (mk_reader (ex_no_array ++ ex_long) 0 [] 0)) = Raise MismatchByteError.
Proof.
  split; [|reflexivity].
  apply (kf_step _ 0 20 [20;0;0;0]);
    [exists [1;0;1;0]; eexists; split; reflexivity|wint|vm_compute; split; [reflexivity|discriminate]|].
  apply (kf_size _ 20 21 [21;0;0;0]); [|wint|apply bz_large; reflexivity].
  exists (ex_no_array ++ [1;0;1;0]). eexists. split; reflexivity.
Qed.
