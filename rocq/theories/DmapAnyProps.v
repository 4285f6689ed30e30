(** C101: which byte strings the DMAP reader accepts, and what it returns, whatever sizes
    the arrays called slist have (C04 says it for files where none is negative). *)
From Coq Require Import ZArith List Bool Lia.
From Verif Require Import Base Bytes BytesSpec BytesProofs Utf8 DmapTypes DmapRead DmapSpec DmapReadProofs DmapFileProofs
  DmapReadProps DmapBackProps DmapAnySpec DmapAnyProofs.
Import ListNotations.
Open Scope Z_scope.

Theorem C101_exact : forall buf rs, is_bytearray buf ->
  dmap_read buf = Ok rs <->
  exists bl, bl <> [] /\ blocks_at buf 0 bl /\ Forall2 dict_of_block bl rs.
Proof. exact read_any. Qed.
Print Assumptions C101_exact.

(** The bytes determine the blocks. *)
Theorem C101_once : forall buf bl bl', is_bytearray buf ->
  blocks_at buf 0 bl -> blocks_at buf 0 bl' -> bl = bl'.
Proof. exact any_once. Qed.
Print Assumptions C101_once.

(** Without a negative size they are those of C04. *)
Theorem C101_tame : forall buf bl, is_bytearray buf -> nonneg_sizes bl ->
  blocks_at buf 0 bl <-> wire_file bl buf.
Proof. exact any_tame. Qed.
Print Assumptions C101_tame.

(** ** Cases *)

(** The file of C100 whose last 11 bytes are used twice: shown by the rules alone. *)
Definition ex_slist : darray :=
  mk_darray s_slist (mk_ndarray DI8 false [11] [98;0;2; 1;0;0;0; 23;0;0;0]) 1 Fc 1 [-46].
Definition ex_all : darray :=
  mk_darray [98] (mk_ndarray DI16 false [23]
    [1;1;46;0;1;0;2;0;97;1281;27763;29545;116;257;0;-11776;-1;25343;512;1;0;23;0]) 2 Fh 1 [23].
Definition ex_a : dscalar := mk_dscalar [97] (VInt 5) 1 Fc.

Ltac here k n := exists (firstn k ex_twice), (skipn n ex_twice); split; reflexivity.

Example ex_slist_at : array_at ex_twice 46 20 ex_slist (-11).
Proof.
  change (array_at ex_twice 46 20 (mk_darray s_slist
    (mk_ndarray (wire_dtype Fc) false ([] ++ 11 :: []) [98;0;2; 1;0;0;0; 23;0;0;0]) (wire_code Fc) Fc (zlen [-46]) [-46]) (-11)).
  apply (array_at_intro _ _ _ s_slist Fc [-46] _ _ [1;0;0;0] 26).
  - apply (ta_plain ex_twice 20 s_slist [115;108;105;115;116;0]).
    + exists s_slist. split; [reflexivity|]. split; [cbn; lia|reflexivity].
    + apply st_front. here 20%nat 26%nat.
  - apply st_front. here 26%nat 27%nat.
  - discriminate.
  - wint.
  - apply st_front. here 27%nat 31%nat.
  - cbv. split; congruence.
  - cbv. congruence.
  - apply (za_cons _ _ (-46) [] [210;255;255;255]); [wint| |constructor]. apply st_front. here 31%nat 35%nat.
  - constructor; [|constructor]. split; [now right|reflexivity].
  - cbv. congruence.
  - cbv. congruence.
  - apply (ca_rest ex_twice Fc 35 [-46] [] (-46) 11 [] [98;0;2; 1;0;0;0; 23;0;0;0] (firstn 35 ex_twice) [98;0;2; 1;0;0;0; 23;0;0;0]); try reflexivity.
    + constructor.
    + cbv. congruence.
    + change [98;0;2; 1;0;0;0; 23;0;0;0] with ([98]++[0]++[2]++[1]++[0]++[0]++[0]++[23]++[0]++[0]++[0]++[]) at 2.
      repeat (constructor; [wint|]). constructor.
Qed.

Example ex_all_at : array_at ex_twice 46 (-11) ex_all 46.
Proof.
  apply (array_at_intro _ _ _ [98] Fh [23] _ _ [1;0;0;0] (-9)).
  - apply (ta_plain ex_twice (-11) [98] [98;0]).
    + exists [98]. split; [reflexivity|]. split; [cbn; lia|reflexivity].
    + apply st_back; [lia|cbv; congruence|]. here 35%nat 37%nat.
  - apply st_back; [lia|cbv; congruence|]. here 37%nat 38%nat.
  - discriminate.
  - wint.
  - apply st_back; [lia|cbv; congruence|]. here 38%nat 42%nat.
  - cbv. split; congruence.
  - cbv. congruence.
  - apply (za_cons _ _ 23 [] [23;0;0;0]); [wint| |constructor]. apply st_back; [lia|cbv; congruence|]. here 42%nat 46%nat.
  - constructor; [|constructor]. split; [left; lia|reflexivity].
  - cbv. congruence.
  - cbv. congruence.
  - apply (ca_plain ex_twice Fh 0 [23] (nd_data (ar_value ex_all)) ex_twice).
    + constructor; [lia|constructor].
    + change ex_twice with ([1;0]++[1;0]++[46;0]++[0;0]++[1;0]++[0;0]++[2;0]++[0;0]++[97;0]++[1;5]++
        [115;108]++[105;115]++[116;0]++[1;1]++[0;0]++[0;210]++[255;255]++[255;98]++[0;2]++[1;0]++[0;0]++[23;0]++[0;0]++[]).
      repeat (constructor; [wint|]). constructor.
    + apply occurs_all.
    + reflexivity.
Qed.

Example ex_twice_blocks : blocks_at ex_twice 0 [([ex_a], [ex_slist; ex_all])].
Proof.
  apply (bs_block _ 0 46); [|exact (bs_end ex_twice)].
  apply (block_at_intro ex_twice 0 46 [ex_a] [ex_slist; ex_all] [1;0;1;0] [46;0;0;0] [1;0;0;0] [2;0;0;0] [97;0;1;5]);
    try reflexivity; try discriminate; try wint.
  - here 0%nat 20%nat.
  - cbv. split; [reflexivity|congruence].
  - change [97;0;1;5] with (([97;0] ++ [1] ++ [5]) ++ []). constructor; [|constructor].
    apply (wire_scalar_intro [97] Fc (VInt 5)).
    + exists [97]. repeat split. cbn; lia.
    + constructor. unfold is_byte. lia.
  - apply (as_cons _ _ _ _ (-11)); [exact ex_slist_at|]. apply (as_cons _ _ _ _ 46); [exact ex_all_at|constructor].
Qed.

Example C101_case : is_bytearray ex_twice /\
  exists rs, dmap_read ex_twice = Ok rs /\ Forall2 dict_of_block [([ex_a], [ex_slist; ex_all])] rs /\
  ~ nonneg_sizes [([ex_a], [ex_slist; ex_all])] /\ ~ wire_file [([ex_a], [ex_slist; ex_all])] ex_twice.
Proof.
  assert (B : is_bytearray ex_twice) by (split; [unfold ex_twice; bytes_tac|vm_compute; discriminate]). split; [exact B|].
  assert (N : ~ nonneg_sizes [([ex_a], [ex_slist; ex_all])]).
  { intros H. inversion H as [|? ? H1 _]; subst. cbn in H1. inversion H1 as [|? ? H2 _]; subst. cbn in H2. inversion H2. lia. }
  eexists. split; [exact C100_case|]. split; [|split; [exact N|intros H; apply N; eapply wire_file_nonneg; exact H]].
  destruct (proj1 (C101_exact _ _ B) C100_case) as (bl & _ & H1 & H2).
  rewrite (C101_once _ _ _ B ex_twice_blocks H1). exact H2.
Qed.

Example C101_tame_case : is_bytearray ex_block_bytes /\ nonneg_sizes [ex_block] /\ blocks_at ex_block_bytes 0 [ex_block].
Proof.
  assert (N : nonneg_sizes [ex_block]) by apply C04_trace_case. split; [apply ex_block_bytearray|]. split; [exact N|].
  apply C101_tame; [apply ex_block_bytearray|exact N|]. rewrite <- (app_nil_r ex_block_bytes). constructor; [|constructor].
  exists [1;0;1;0]. apply ex_wire_block.
Qed.

(** A name that begins at the end of the file and whose NUL is its first byte. *)
Example C101_round_case : text_at [0; 7; 104; 105] (-2) [104; 105] 1.
Proof.
  apply (ta_round _ _ _ [104; 105]); try reflexivity.
  - exists [104; 105]. split; [reflexivity|]. split; [cbn; lia|reflexivity].
  - exists [0; 7], []. split; reflexivity.
  - exists [], [7; 104; 105]. split; reflexivity.
Qed.
