(** C105: truncated files, whatever sizes arrays called slist have (cf. C08). *)
From Coq Require Import ZArith List Bool Lia.
From Verif Require Import Base Bytes BytesSpec BytesProofs DmapTypes DmapRead DmapSpec DmapReadProofs DmapFileProofs
  DmapStreamProofs DmapReadProps DmapAnySpec DmapAnyProofs DmapAnyProps DmapAnyFaultSpec DmapCutSpec DmapCutProofs.
Import ListNotations.
Open Scope Z_scope.

(** If a file and the file cut after some bytes are both accepted, the cut is at the end of
    a block: the lengths of the blocks before it add up to the number of bytes kept, and
    there is one record for each of them. *)
Theorem C105_boundary : forall P Q rs rsP, is_bytearray (P ++ Q) ->
  dmap_read (P ++ Q) = Ok rs -> dmap_read P = Ok rsP ->
  exists ns ms, walk (P ++ Q) 0 (ns ++ ms) /\ ns <> [] /\ sum ns = zlen P /\
    length ns = length rsP /\ length (ns ++ ms) = length rs.
Proof.
  intros P Q rs rsP HA H HP. destruct (read_walk _ _ HA H) as (ks & W & L).
  destruct (read_walk _ _ (part_bytes _ _ HA) HP) as (ns & WP & LP).
  destruct (walk_cut P Q 0 ns WP ltac:(lia) ks W) as (ms & -> & E). exists ns, ms. repeat split; auto.
  intros ->. destruct rsP; [|discriminate LP].
  apply (C101_exact P _ (part_bytes _ _ HA)) in HP as (bl & N & _ & F). inversion F; subst. congruence.
Qed.
Print Assumptions C105_boundary.

(** Any other cut is detected. *)
Theorem C105_detected : forall P Q rs, is_bytearray (P ++ Q) -> dmap_read (P ++ Q) = Ok rs ->
  (forall ns ms, walk (P ++ Q) 0 (ns ++ ms) -> ns <> [] -> sum ns <> zlen P) -> exists e, dmap_read P = Raise e.
Proof.
  intros P Q rs HA H HN. destruct (dmap_read P) as [rsP|e] eqn:E; [|eauto]. exfalso.
  destruct (C105_boundary P Q rs rsP HA H E) as (ns & ms & W & N & S1 & _). now apply (HN ns ms).
Qed.
Print Assumptions C105_detected.

(** A block that has no negative size, in the file or in the file cut, is the same in both. *)
Theorem C105_same : forall P Q bl blP i b b', is_bytearray (P ++ Q) ->
  blocks_at (P ++ Q) 0 bl -> blocks_at P 0 blP ->
  nth_error bl i = Some b -> nth_error blP i = Some b' -> tame b \/ tame b' -> b' = b.
Proof.
  intros P Q bl blP i b b' HA H HP N N' HT.
  destruct (blocks_cut P Q 0 blP HA HP bl H i b b' N N') as [T1 T2]. destruct HT; auto.
Qed.
Print Assumptions C105_same.

(** Blocks without negative sizes can be kept by a cut behind them, whatever comes after. *)
Theorem C105_kept : forall P Q bl, is_bytearray (P ++ Q) -> bl <> [] ->
  chain_at (P ++ Q) 0 bl (zlen P) -> Forall tame bl ->
  exists rsP, dmap_read P = Ok rsP /\ Forall2 dict_of_block bl rsP.
Proof.
  intros P Q bl HA HN HC HT. pose proof (chain_kept P Q 0 bl _ HA HC eq_refl HT) as HB.
  exists (map record_of_fields bl). split; [|now apply Forall2_dict].
  apply (C101_exact P _ (part_bytes _ _ HA)). exists bl. repeat split; auto. now apply Forall2_dict.
Qed.
Print Assumptions C105_kept.

(** ** Cases *)

(** A block whose slist of size -26 takes the rest of the file and leads back into the
    elements of the array m, where the head of the array b stands. *)
Definition ex_cover : bytes :=
  [1;0;1;0; 57;0;0;0; 1;0;0;0; 3;0;0;0; 97;0;1;5;
   109;0;1; 1;0;0;0; 11;0;0;0; 98;0;1; 1;0;0;0; 15;0;0;0;
   115;108;105;115;116;0;1; 1;0;0;0; 230;255;255;255].

(** So a cut at the end of a block can change the records before it: C08 does not hold
    without its hypothesis. *)
Theorem C105_refuted : ~ (forall P Q rs rsP, is_bytearray (P ++ Q) ->
  dmap_read (P ++ Q) = Ok rs -> dmap_read P = Ok rsP -> rsP = firstn (length rsP) rs).
Proof.
  intros H. destruct (dmap_read (ex_cover ++ ex_cover)) as [rs|] eqn:E; [|vm_compute in E; discriminate E].
  destruct (dmap_read ex_cover) as [rsP|] eqn:EP; [|vm_compute in EP; discriminate EP].
  specialize (H ex_cover ex_cover rs rsP).
  assert (A : is_bytearray (ex_cover ++ ex_cover)) by (split; [unfold ex_cover; bytes_tac|vm_compute; discriminate]).
  specialize (H A E EP). vm_compute in E, EP. injection E as <-. injection EP as <-. vm_compute in H. discriminate H.
Qed.
Print Assumptions C105_refuted.

Lemma ex_cover_bytes : is_bytearray (ex_cover ++ ex_cover).
Proof. split; [unfold ex_cover; bytes_tac|vm_compute; discriminate]. Qed.

Lemma ex_cover_walk : walk (ex_cover ++ ex_cover) 0 [57; 57].
Proof.
  apply (walk_step _ 0 57 [57] [57;0;0;0]); [exists (firstn 4 (ex_cover ++ ex_cover)), (skipn 8 (ex_cover ++ ex_cover)); split; reflexivity|wint|lia|].
  apply (walk_step _ 57 57 [] [57;0;0;0]); [exists (firstn 61 (ex_cover ++ ex_cover)), (skipn 65 (ex_cover ++ ex_cover)); split; reflexivity|wint|lia|].
  change (57 + 57) with (zlen (ex_cover ++ ex_cover)). constructor.
Qed.

Example C105_case : is_bytearray (ex_cover ++ ex_cover) /\
  (exists rs, dmap_read (ex_cover ++ ex_cover) = Ok rs /\ length rs = 2%nat) /\
  (exists rs, dmap_read ex_cover = Ok rs /\ length rs = 1%nat).
Proof.
  split; [apply ex_cover_bytes|].
  split; [eexists; split; [vm_compute; reflexivity|reflexivity]|].
  eexists; split; [vm_compute; reflexivity|reflexivity].
Qed.

(** Cut after 60 bytes. *)
Definition ex_cut : bytes * bytes := (ex_cover ++ [1;0;1], skipn 3 ex_cover).

Example C105_detected_case : is_bytearray (fst ex_cut ++ snd ex_cut) /\
  (exists rs, dmap_read (fst ex_cut ++ snd ex_cut) = Ok rs) /\
  (forall ns ms, walk (fst ex_cut ++ snd ex_cut) 0 (ns ++ ms) -> ns <> [] -> sum ns <> zlen (fst ex_cut)) /\
  dmap_read (fst ex_cut) = Raise CursorError.
Proof.
  change (fst ex_cut ++ snd ex_cut) with (ex_cover ++ ex_cover).
  split; [apply ex_cover_bytes|]. split; [eexists; vm_compute; reflexivity|]. split; [|vm_compute; reflexivity].
  intros ns ms W N. pose proof (walk_fun _ _ _ _ ex_cover_walk W) as E. change (zlen (fst ex_cut)) with 60.
  destruct ns as [|a [|b [|c ns]]]; [congruence| | |discriminate E]; injection E; intros; subst; cbn [sum]; lia.
Qed.

(** The good block before such a block. *)
Example C105_kept_case : is_bytearray (ex_block_bytes ++ ex_cover) /\ Forall tame [ex_block] /\
  chain_at (ex_block_bytes ++ ex_cover) 0 [ex_block] (zlen ex_block_bytes).
Proof.
  assert (A : is_bytearray (ex_block_bytes ++ ex_cover)) by (split; [unfold ex_block_bytes, ex_cover; bytes_tac|vm_compute; discriminate]).
  split; [exact A|]. split; [repeat constructor; cbn; lia|].
  change (zlen ex_block_bytes) with (0 + 54). econstructor; [|constructor].
  assert (R : read_record_fields (ex_block_bytes ++ ex_cover) 0 = (Ok ex_block, 0 + 54)) by (vm_compute; reflexivity).
  apply block_iff in R as (sz & H & E); [|apply A|apply A|lia]. replace 54 with sz by lia. exact H.
Qed.

(** There the good block is the same as in the file cut behind it. *)
Example C105_same_case : blocks_at ex_block_bytes 0 [ex_block] /\ tame ex_block.
Proof. split; [apply C101_tame_case|repeat constructor; cbn; lia]. Qed.
