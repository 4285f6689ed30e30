(** Specification of C106: blocks whose arrays do not lead to before a given position. *)
From Coq Require Import ZArith List.
From Verif Require Import Base BytesSpec DmapTypes DmapSpec DmapAnySpec.
Import ListNotations.
Open Scope Z_scope.

(** Arrays each of which starts at [lo] or later. *)
Inductive arrays_from (buf : bytes) (lo blk : Z) : Z -> list darray -> Z -> Prop :=
| af_nil p : arrays_from buf lo blk p [] p
| af_cons p a q aa r : lo <= p -> array_at buf blk p a q -> arrays_from buf lo blk q aa r ->
    arrays_from buf lo blk p (a :: aa) r.

(** Blocks up to the end of the file made of such arrays (cf. [block_at], [blocks_at]). *)
Inductive blocks_from (buf : bytes) (lo : Z) : Z -> list block -> Prop :=
| bf_end : blocks_from buf lo (zlen buf) []
| bf_block p sz ss aa bl ident szb nsb nab sb :
    occurs buf p (ident ++ szb ++ nsb ++ nab ++ sb) -> length ident = 4%nat ->
    wire_int32 sz szb -> wire_int32 (zlen ss) nsb -> wire_int32 (zlen aa) nab ->
    0 < sz <= zlen buf - p -> ss <> [] -> aa <> [] -> zlen ss + zlen aa <= sz ->
    wire_list wire_scalar ss sb -> arrays_from buf lo sz (p + 16 + zlen sb) aa (p + sz) ->
    blocks_from buf lo (p + sz) bl -> blocks_from buf lo p ((ss, aa) :: bl).
