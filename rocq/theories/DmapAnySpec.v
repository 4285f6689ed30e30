(** Specification of C101: which byte strings the DMAP reader accepts, whatever sizes
    arrays called slist have.  As such an array may move the reader back, also to before
    the start of the file, positions can be negative: they count from the end. *)
From Coq Require Import ZArith List.
From Verif Require Import Base BytesSpec Utf8 DmapTypes DmapSpec.
Import ListNotations.
Open Scope Z_scope.

(** The bytes [x] stand at position [p], which counts from the end if it is negative; then
    they must not run over the end. *)
Inductive stands (buf : bytes) (p : Z) (x : bytes) : Prop :=
| st_front : occurs buf p x -> stands buf p x
| st_back : p < 0 -> p + zlen x <= 0 -> occurs buf (zlen buf + p) x -> stands buf p x.

(** A text from [p] to [q].  At a negative position it may reach to the end of the file,
    if the first byte of the file is the NUL. *)
Inductive text_at (buf : bytes) (p : Z) (s : pystr) : Z -> Prop :=
| ta_plain bs : wire_text s bs -> stands buf p bs -> text_at buf p s (p + zlen bs)
| ta_round e : p < 0 -> wire_text s (e ++ [0]) -> occurs buf (zlen buf + p) e -> p + zlen e = 0 ->
    occurs buf 0 [0] -> text_at buf p s 1.

(** Numbers of 32 bits from [p] on. *)
Inductive sizes_at (buf : bytes) : Z -> list Z -> Prop :=
| za_nil p : sizes_at buf p []
| za_cons p n ns bs : wire_int32 n bs -> stands buf p bs -> sizes_at buf (p + 4) ns ->
    sizes_at buf p (n :: ns).

(** The elements of an array with sizes [dims] from [p] on, never at a negative position:
    the shape it gets, the elements, and the next position. *)
Inductive cells_at (buf : bytes) (f : fmt) (p : Z) (dims : list Z) : list Z -> list Z -> Z -> Prop :=
| ca_plain data eb : Forall (fun n => 0 <= n) dims ->
    wire_list (wire_int (wire_signed f) (wire_size f)) data eb -> occurs buf p eb -> zlen data = product dims ->
    cells_at buf f p dims dims data (p + product dims * Z.of_nat (wire_size f))
| ca_rest before n m after data front rest : dims = before ++ n :: after -> n < 0 ->
    Forall (fun k => 1 <= k) (before ++ after) -> - 2 ^ 63 <= product dims ->
    wire_list (wire_int (wire_signed f) (wire_size f)) data rest -> buf = front ++ rest -> zlen front = p ->
    zlen data = product (before ++ m :: after) ->
    cells_at buf f p dims (before ++ m :: after) data (p + product dims * Z.of_nat (wire_size f)).

(** An array from [p] on in a block of [blk] bytes, and the next position. *)
Inductive array_at (buf : bytes) (blk p : Z) : darray -> Z -> Prop :=
| array_at_intro name f dims shape data db p1 q :
    text_at buf p name p1 -> stands buf p1 [wire_code f] -> f <> Fs ->
    wire_int32 (zlen dims) db -> stands buf (p1 + 1) db -> 1 <= zlen dims <= 32 -> zlen dims <= blk ->
    sizes_at buf (p1 + 5) (rev dims) ->
    Forall (fun n => (1 <= n \/ name = s_slist) /\ n < blk) dims ->
    product dims <= blk -> product dims * Z.of_nat (wire_size f) <= blk ->
    cells_at buf f (p1 + 5 + 4 * zlen dims) dims shape data q ->
    array_at buf blk p (mk_darray name (mk_ndarray (wire_dtype f) false shape data)
                                  (wire_code f) f (zlen dims) dims) q.

Inductive arrays_at (buf : bytes) (blk : Z) : Z -> list darray -> Z -> Prop :=
| as_nil p : arrays_at buf blk p [] p
| as_cons p a q aa r : array_at buf blk p a q -> arrays_at buf blk q aa r -> arrays_at buf blk p (a :: aa) r.

(** A block of [sz] bytes at [p]: the arrays lead to its end, by whatever way. *)
Inductive block_at (buf : bytes) (p sz : Z) : block -> Prop :=
| block_at_intro ss aa ident szb nsb nab sb :
    occurs buf p (ident ++ szb ++ nsb ++ nab ++ sb) -> length ident = 4%nat ->
    wire_int32 sz szb -> wire_int32 (zlen ss) nsb -> wire_int32 (zlen aa) nab ->
    0 < sz <= zlen buf - p -> ss <> [] -> aa <> [] -> zlen ss + zlen aa <= sz ->
    wire_list wire_scalar ss sb -> arrays_at buf sz (p + 16 + zlen sb) aa (p + sz) ->
    block_at buf p sz (ss, aa).

(** Blocks from [p] to the end. *)
Inductive blocks_at (buf : bytes) : Z -> list block -> Prop :=
| bs_end : blocks_at buf (zlen buf) []
| bs_block p sz b bl : block_at buf p sz b -> blocks_at buf (p + sz) bl -> blocks_at buf p (b :: bl).
