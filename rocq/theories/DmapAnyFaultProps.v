(** C102: the exception for every byte string the DMAP reader refuses, whatever sizes the
    arrays called slist have (C73 says it for files where none is negative). *)
From Coq Require Import ZArith List Bool Lia.
From Verif Require Import Base Bytes BytesSpec BytesProofs Utf8 DmapTypes DmapRead Conversions DmapSpec DmapReadProofs DmapFileProofs
  DmapStreamProofs DmapReadProps DmapFaultSpec DmapFaultProps DmapAnySpec DmapAnyProofs DmapAnyProps DmapAnyFaultSpec DmapAnyFaultProofs.
Import ListNotations.
Open Scope Z_scope.

Theorem C102_errors : forall buf e, is_bytearray buf -> dmap_read buf = Raise e <-> file_bad buf e.
Proof. exact read_bad. Qed.
Print Assumptions C102_errors.

(** The same for the dictionaries. *)
Theorem C102_dicts : forall buf e, is_bytearray buf -> dmap_read_dicts buf = Raise e <-> file_bad buf e.
Proof.
  intros buf e HA. rewrite <- (C102_errors buf e HA).
  pose proof (read_dicts_spec buf (proj1 HA)) as HS. destruct (dmap_read buf) as [rs|e'].
  - destruct HS as [ds HS]. split; congruence.
  - rewrite HS. reflexivity.
Qed.
Print Assumptions C102_dicts.

(** Every byte string is a chain of blocks or has a fault, and never both or two. *)
Theorem C102_either : forall buf, is_bytearray buf ->
  ((exists bl, bl <> [] /\ blocks_at buf 0 bl) /\ forall e, ~ file_bad buf e) \/
  ((exists e, file_bad buf e /\ forall e', file_bad buf e' -> e' = e) /\ forall bl, bl <> [] -> ~ blocks_at buf 0 bl).
Proof.
  intros buf HA. destruct (dmap_read buf) as [rs|e] eqn:E.
  - left. split.
    + apply (C101_exact buf rs HA) in E as (bl & H1 & H2 & _). eauto.
    + intros e HE. apply (C102_errors buf e HA) in HE. congruence.
  - right. split.
    + exists e. split; [now apply C102_errors|]. intros e' HE. apply (C102_errors buf e' HA) in HE. congruence.
    + intros bl H1 H2.
      apply (C102_errors buf e HA) in E. apply (fields_raise buf (proj1 HA) (proj2 HA)) in E.
      pose proof (proj2 (fields_iff buf (proj1 HA) (proj2 HA) bl) (conj H1 H2)). congruence.
Qed.
Print Assumptions C102_either.

(** When an array of sizes [dims] has no elements from [p] on. *)
Theorem C102_elements : forall buf f p dims, Forall is_byte buf -> f <> Fs -> - 2 ^ 63 <= product dims ->
  cells_bad buf f p dims ValueError <->
  32 < zlen dims \/ p < 0 \/ zlen buf < p \/
  (Forall (fun n => 0 <= n) dims /\ zlen buf < p + product dims * Z.of_nat (wire_size f)) \/
  (exists n, In n dims /\ n < 0 /\ In 0 dims) \/
  (exists a n b m c, dims = a ++ n :: b ++ m :: c /\ n < 0 /\ m < 0) \/
  (exists before n after, dims = before ++ n :: after /\ n < 0 /\ Forall (fun k => 1 <= k) (before ++ after) /\
     ~ (product (before ++ after) * Z.of_nat (wire_size f) | zlen buf - p)).
Proof.
  intros buf f p dims HB Hf HP. rewrite <- (none_iff buf f p dims HB Hf HP). split.
  - intros H. inversion H. assumption.
  - intros H. now apply eb_none.
Qed.
Print Assumptions C102_elements.

(** Without a negative size the faults are those of C73. *)
Theorem C102_tame : forall buf e, is_bytearray buf -> ~ negative_slist buf -> file_bad buf e <-> file_fault buf e.
Proof. intros buf e HA HN. rewrite <- (C102_errors buf e HA). now apply C73_errors. Qed.
Print Assumptions C102_tame.

(** ** Cases *)

(** slist of size -36 in a file of 36 bytes leads to -1; the name there begins with the last
    byte, A, and the search for its end goes on with the B at the start. *)
Ltac there k n := exists (firstn k ex_struct_error), (skipn n ex_struct_error); split; reflexivity.

Example ex_struct_slist : array_at ex_struct_error 36 20
  (mk_darray s_slist (mk_ndarray DI8 false [1] [65]) 1 Fc 1 [-36]) (-1).
Proof.
  change (array_at ex_struct_error 36 20 (mk_darray s_slist
    (mk_ndarray (wire_dtype Fc) false ([] ++ 1 :: []) [65]) (wire_code Fc) Fc (zlen [-36]) [-36]) (-1)).
  apply (array_at_intro _ _ _ s_slist Fc [-36] _ _ [1;0;0;0] 26).
  - apply (ta_plain ex_struct_error 20 s_slist [115;108;105;115;116;0]).
    + exists s_slist. split; [reflexivity|]. split; [cbn; lia|reflexivity].
    + apply st_front. there 20%nat 26%nat.
  - apply st_front. there 26%nat 27%nat.
  - discriminate.
  - wint.
  - apply st_front. there 27%nat 31%nat.
  - cbv. split; congruence.
  - cbv. congruence.
  - apply (za_cons _ _ (-36) [] [220;255;255;255]); [wint| |constructor]. apply st_front. there 31%nat 35%nat.
  - constructor; [|constructor]. split; [now right|reflexivity].
  - cbv. congruence.
  - cbv. congruence.
  - apply (ca_rest ex_struct_error Fc 35 [-36] [] (-36) 1 [] [65] (firstn 35 ex_struct_error) [65]); try reflexivity.
    + constructor.
    + cbv. congruence.
    + change [65] with ([65]++[]) at 2. constructor; [wint|constructor].
Qed.

Example ex_struct_head : head_at ex_struct_error 0 36 1 2.
Proof.
  exists [36;0;0;0], [1;0;0;0], [2;0;0;0]. split; [there 4%nat 16%nat|]. split; [wint|]. split; [wint|]. split; [wint|].
  cbv. repeat split; congruence.
Qed.

Example C102_case : is_bytearray ex_struct_error /\ file_bad ex_struct_error StructError.
Proof.
  split; [split; [unfold ex_struct_error; bytes_tac|vm_compute; discriminate]|].
  apply (fb_block _ [] 0); [constructor|reflexivity|].
  apply (bb_array _ _ 36 1 2 [mk_dscalar [97] (VInt 5) 1 Fc] [97;0;1;5]
           [mk_darray s_slist (mk_ndarray DI8 false [1] [65]) 1 Fc 1 [-36]] (-1)).
  - exact ex_struct_head.
  - there 16%nat 20%nat.
  - change [97;0;1;5] with (([97;0] ++ [1] ++ [5]) ++ []). constructor; [|constructor].
    apply (wire_scalar_intro [97] Fc (VInt 5)).
    + exists [97]. repeat split. cbn; lia.
    + constructor. unfold is_byte. lia.
  - reflexivity.
  - apply (as_cons _ _ _ _ (-1)); [exact ex_struct_slist|constructor].
  - reflexivity.
  - apply ab_name. apply (tb_over _ _ 66 (tl (firstn 35 ex_struct_error)) [65]); try reflexivity; try discriminate.
    + vm_compute. tauto.
    + cbn. lia.
Qed.

(** Both of the reader: by computation. *)
Example C102_case_read : dmap_read ex_struct_error = Raise StructError /\ dmap_read ex_overflow_error = Raise OverflowError.
Proof. split; [|reflexivity]. apply C102_errors; apply C102_case. Qed.

(** Three sizes of -2^31 are -2^93 elements; two negative sizes give no elements. *)
Example C102_overflow_case : cells_bad ex_overflow_error Fc 43 [-2147483648; -2147483648; -2147483648] OverflowError.
Proof. apply eb_count. reflexivity. Qed.
Example C102_elements_case : cells_bad ex_overflow_error Fc 20 [-1; -3] ValueError.
Proof.
  apply C102_elements; [unfold ex_overflow_error; bytes_tac|discriminate|cbv; congruence|].
  do 5 right. left. exists [], (-1), [], (-3), []. repeat split.
Qed.

Example C102_tame_case : is_bytearray (1 :: ex_block_bytes) /\ ~ negative_slist (1 :: ex_block_bytes) /\
  file_bad (1 :: ex_block_bytes) MismatchByteError.
Proof.
  assert (A : is_bytearray (1 :: ex_block_bytes)).
  { split; [constructor; [unfold is_byte; lia|apply ex_block_bytearray]|vm_compute; discriminate]. }
  split; [exact A|]. split; [no_slist|]. apply C102_errors; [exact A|]. reflexivity.
Qed.
