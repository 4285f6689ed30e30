(** C106: joined files, whatever sizes arrays called slist have in the second one (cf. C09). *)
From Coq Require Import ZArith List Bool Lia.
From Verif Require Import Base Bytes BytesSpec BytesProofs DmapTypes DmapRead DmapSpec DmapReadProofs DmapFileProofs
  DmapStreamProofs DmapReadProps DmapBackProps DmapAnySpec DmapAnyProofs DmapAnyProps DmapCutSpec DmapCutProofs DmapCutProps
  DmapJoinSpec DmapJoinProofs.
Import ListNotations.
Open Scope Z_scope.

(** Behind a file without negative sizes, a file whose arrays do not lead to before its
    start gives its own records. *)
Theorem C106_concat : forall A B blA blB rsA rsB, is_bytearray (A ++ B) ->
  blocks_at A 0 blA -> Forall tame blA -> blocks_from B 0 0 blB ->
  dmap_read A = Ok rsA -> dmap_read B = Ok rsB -> dmap_read (A ++ B) = Ok (rsA ++ rsB).
Proof. exact read_join. Qed.
Print Assumptions C106_concat.

(** What follows a file without negative sizes is a file itself if its arrays do not lead
    to before its start. *)
Theorem C106_remainder : forall A B blA blB rsA rs, is_bytearray (A ++ B) ->
  blocks_at A 0 blA -> Forall tame blA -> blocks_from (A ++ B) (zlen A) (zlen A) blB -> blB <> [] ->
  dmap_read A = Ok rsA -> dmap_read (A ++ B) = Ok rs -> exists rsB, dmap_read B = Ok rsB /\ rs = rsA ++ rsB.
Proof. exact read_split. Qed.
Print Assumptions C106_remainder.

(** ** Cases *)

(** The only block of [ex_cover] of C105: m, then slist, which leads back into m, then b. *)
Definition ex_cover_block : block :=
  ([mk_dscalar [97] (VInt 5) 1 Fc],
   [mk_darray [109] (mk_ndarray DI8 false [11] [98;0;1; 1;0;0;0; 15;0;0;0]) 1 Fc 1 [11];
    mk_darray s_slist (mk_ndarray DI8 false [0] []) 1 Fc 1 [-26];
    mk_darray [98] (mk_ndarray DI8 false [15] [115;108;105;115;116;0;1; 1;0;0;0; -26;-1;-1;-1]) 1 Fc 1 [15]]).

Lemma ex_cover_from : blocks_from ex_cover 0 0 [ex_cover_block].
Proof.
  assert (B : Forall is_byte ex_cover) by (unfold ex_cover; bytes_tac).
  assert (M : zlen ex_cover <= ssize_max) by (vm_compute; discriminate).
  apply (bf_block _ _ 0 57 _ _ _ [1;0;1;0] [57;0;0;0] [1;0;0;0] [3;0;0;0] [97;0;1;5]);
    try reflexivity; try discriminate; try wint.
  - exists [], (skipn 20 ex_cover). split; reflexivity.
  - cbv. split; [reflexivity|congruence].
  - change [97;0;1;5] with (([97;0] ++ [1] ++ [5]) ++ []). constructor; [|constructor].
    apply (wire_scalar_intro [97] Fc (VInt 5)).
    + exists [97]. repeat split. cbn; lia.
    + constructor. unfold is_byte. lia.
  - apply (af_cons _ _ _ _ _ 42); [discriminate|apply array_iff; auto; vm_compute; reflexivity|].
    apply (af_cons _ _ _ _ _ 31); [lia|apply array_iff; auto; vm_compute; reflexivity|].
    apply (af_cons _ _ _ _ _ 57); [lia|apply array_iff; auto; vm_compute; reflexivity|]. constructor.
  - change (0 + 57) with (zlen ex_cover). constructor.
Qed.

Example C106_case : is_bytearray (ex_block_bytes ++ ex_cover) /\
  blocks_at ex_block_bytes 0 [ex_block] /\ Forall tame [ex_block] /\ blocks_from ex_cover 0 0 [ex_cover_block] /\
  ~ Forall tame [ex_cover_block] /\ dmap_read ex_block_bytes = Ok [ex_record] /\ exists rs, dmap_read ex_cover = Ok rs.
Proof.
  split; [apply C105_kept_case|]. split; [apply C105_same_case|]. split; [apply C105_kept_case|].
  split; [apply ex_cover_from|]. split; [|split; [reflexivity|eexists; vm_compute; reflexivity]].
  intros H. inversion H as [|? ? H1 _]; subst. inversion H1 as [|? ? _ H2]; subst. inversion H2 as [|? ? H3 _]; subst.
  inversion H3; subst. lia.
Qed.

Example C106_remainder_case :
  blocks_from (ex_block_bytes ++ ex_cover) (zlen ex_block_bytes) (zlen ex_block_bytes) [ex_cover_block].
Proof.
  rewrite <- (Z.add_0_r (zlen ex_block_bytes)) at 2. apply blocks_move; [lia|]. exact ex_cover_from.
Qed.

(** Both conditions are needed: the second file may lead to before its start ... *)
Theorem C106_back_refuted : ~ (forall A B blA rsA rsB, is_bytearray (A ++ B) ->
  blocks_at A 0 blA -> Forall tame blA ->
  dmap_read A = Ok rsA -> dmap_read B = Ok rsB -> dmap_read (A ++ B) = Ok (rsA ++ rsB)).
Proof.
  intros H. destruct (dmap_read ex_twice) as [rs|] eqn:E; [|vm_compute in E; discriminate E].
  specialize (H ex_block_bytes ex_twice [ex_block] [ex_record] rs).
  assert (A : is_bytearray (ex_block_bytes ++ ex_twice)) by (split; [unfold ex_block_bytes, ex_twice; bytes_tac|vm_compute; discriminate]).
  specialize (H A (proj1 C105_same_case) ltac:(constructor; [apply C105_same_case|constructor]) eq_refl E).
  vm_compute in H. discriminate H.
Qed.
Print Assumptions C106_back_refuted.

(** ... and an array of the first file may take the bytes of the second one. *)
Theorem C106_rest_refuted : ~ (forall A B blB rsA rsB, is_bytearray (A ++ B) -> blocks_from B 0 0 blB ->
  dmap_read A = Ok rsA -> dmap_read B = Ok rsB -> dmap_read (A ++ B) = Ok (rsA ++ rsB)).
Proof.
  intros H. destruct (dmap_read ex_cover) as [rs|] eqn:E; [|vm_compute in E; discriminate E].
  specialize (H ex_cover ex_cover _ rs rs ex_cover_bytes ex_cover_from E E).
  vm_compute in E. injection E as <-. vm_compute in H. discriminate H.
Qed.
Print Assumptions C106_rest_refuted.
