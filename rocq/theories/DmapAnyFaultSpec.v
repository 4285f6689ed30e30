(** Specification of C102: the exception that belongs to each defect of a byte string,
    whatever sizes arrays called slist have.  Cf. DmapFaultSpec.v, where no array moves the
    reader back, and DmapAnySpec.v for positions that count from the end. *)
From Coq Require Import ZArith List.
From Verif Require Import Base BytesSpec Utf8 DmapTypes DmapSpec DmapFaultSpec DmapAnySpec.
Import ListNotations.
Open Scope Z_scope.

(** A text at [p].  At a negative position the search for its end goes on at the start of
    the file. *)
Inductive text_bad (buf : bytes) (p : Z) : exn -> Prop :=
| tb_end : zlen buf <= p -> text_bad buf p CursorError
| tb_before : p < - zlen buf -> text_bad buf p IndexError
| tb_open front tail : buf = front ++ tail -> zlen front = p -> tail <> [] -> ~ In 0 tail ->
    text_bad buf p IndexError
| tb_endless : - zlen buf <= p < 0 -> ~ In 0 buf -> text_bad buf p IndexError
| tb_over b rest tail : buf = b :: rest ++ tail -> b <> 0 -> In 0 rest -> ~ In 0 tail ->
    tail <> [] -> p = - zlen tail -> text_bad buf p StructError
| tb_utf8 x : ~ In 0 x -> (forall s, utf8_enc s <> Some x) -> stands buf p (x ++ [0]) ->
    text_bad buf p UnicodeDecodeError
| tb_utf8_round x : ~ In 0 x -> (forall s, utf8_enc s <> Some x) -> p < 0 ->
    occurs buf (zlen buf + p) x -> p + zlen x = 0 -> occurs buf 0 [0] ->
    text_bad buf p UnicodeDecodeError.

(** A type code. *)
Inductive code_bad (buf : bytes) (p : Z) : exn -> Prop :=
| cb_end : zlen buf <= p -> code_bad buf p CursorError
| cb_unknown t : stands buf p [t] -> (forall o, ~ type_code t o) -> code_bad buf p DmapDataTypeError.

(** A number of 32 bits: it is cut, or it begins at the end of the file and would go on at
    its start. *)
Inductive number_bad (buf : bytes) (p : Z) : exn -> Prop :=
| nb_cut : zlen buf < p + 4 -> number_bad buf p CursorError
| nb_over : p < 0 < p + 4 -> p + 4 <= zlen buf -> number_bad buf p StructError.

(** The elements of an array of one of the numerical types. *)
Inductive cells_bad (buf : bytes) (f : fmt) (p : Z) (dims : list Z) : exn -> Prop :=
| eb_count : product dims < - 2 ^ 63 -> cells_bad buf f p dims OverflowError
| eb_none : - 2 ^ 63 <= product dims ->
    (zlen dims <= 32 -> forall shape data q, ~ cells_at buf f p dims shape data q) ->
    cells_bad buf f p dims ValueError.

(** What follows the sizes of an array. *)
Inductive sizes_bad (buf : bytes) (blk p : Z) (name : pystr) (o : option fmt) (dims : list Z) : exn -> Prop :=
| zb_size n : In n dims -> (n <= 0 /\ name <> s_slist) \/ blk <= n ->
    sizes_bad buf blk p name o dims DmapDataError
| zb_large : Forall (fun n => (1 <= n \/ name = s_slist) /\ n < blk) dims -> too_large blk o dims ->
    sizes_bad buf blk p name o dims MismatchByteError
| zb_type : Forall (fun n => (1 <= n \/ name = s_slist) /\ n < blk) dims -> ~ too_large blk o dims ->
    o = None \/ o = Some Fs -> sizes_bad buf blk p name o dims DmapDataError
| zb_cells f e : Forall (fun n => (1 <= n \/ name = s_slist) /\ n < blk) dims -> ~ too_large blk o dims ->
    o = Some f -> f <> Fs -> cells_bad buf f p dims e -> sizes_bad buf blk p name o dims e.

Inductive array_bad (buf : bytes) (blk p : Z) : exn -> Prop :=
| ab_name e : text_bad buf p e -> array_bad buf blk p e
| ab_code name q e : text_at buf p name q -> code_bad buf q e -> array_bad buf blk p e
| ab_rank_cut name q t o e : text_at buf p name q -> stands buf q [t] -> type_code t o ->
    number_bad buf (q + 1) e -> array_bad buf blk p e
| ab_rank_large name q t o n db : text_at buf p name q -> stands buf q [t] -> type_code t o ->
    wire_int32 n db -> stands buf (q + 1) db -> blk < n -> array_bad buf blk p MismatchByteError
| ab_rank_sign name q t o n db e : text_at buf p name q -> stands buf q [t] -> type_code t o ->
    wire_int32 n db -> stands buf (q + 1) db -> n <= blk -> sign_fault n e -> array_bad buf blk p e
| ab_sizes_cut name q t o n db sizes e : text_at buf p name q -> stands buf q [t] -> type_code t o ->
    wire_int32 n db -> stands buf (q + 1) db -> 1 <= n <= blk ->
    sizes_at buf (q + 5) sizes -> zlen sizes < n -> number_bad buf (q + 5 + 4 * zlen sizes) e ->
    array_bad buf blk p e
| ab_sizes name q t o dims db e : text_at buf p name q -> stands buf q [t] -> type_code t o ->
    wire_int32 (zlen dims) db -> stands buf (q + 1) db -> 1 <= zlen dims <= blk ->
    sizes_at buf (q + 5) (rev dims) ->
    sizes_bad buf blk (q + 5 + 4 * zlen dims) name o dims e -> array_bad buf blk p e.

(** The head of a block at [p], without fault. *)
Definition head_at (buf : bytes) (p sz ns na : Z) : Prop :=
  exists szb nsb nab, occurs buf (p + 4) (szb ++ nsb ++ nab) /\
    wire_int32 sz szb /\ wire_int32 ns nsb /\ wire_int32 na nab /\
    0 < sz <= zlen buf - p /\ 0 < ns /\ 0 < na /\ ns + na <= sz.

(** A block at [p]. *)
Inductive block_bad (buf : bytes) (p : Z) : exn -> Prop :=
| bb_cut : zlen buf < p + 8 -> block_bad buf p CursorError
| bb_size sz szb e : occurs buf (p + 4) szb -> wire_int32 sz szb ->
    size_fault (zlen buf - p) sz e -> block_bad buf p e
| bb_counts_cut sz szb : occurs buf (p + 4) szb -> wire_int32 sz szb -> 0 < sz <= zlen buf - p ->
    zlen buf < p + 16 -> block_bad buf p CursorError
| bb_counts sz szb ns nsb na nab e : occurs buf (p + 4) (szb ++ nsb ++ nab) ->
    wire_int32 sz szb -> wire_int32 ns nsb -> wire_int32 na nab -> 0 < sz <= zlen buf - p ->
    counts_fault sz ns na e -> block_bad buf p e
| bb_scalar sz ns na A ss sb R e : head_at buf p sz ns na -> buf = A ++ sb ++ R -> zlen A = p + 16 ->
    wire_list wire_scalar ss sb -> zlen ss < ns -> scalar_fault R e -> block_bad buf p e
| bb_array sz ns na ss sb aa q e : head_at buf p sz ns na -> occurs buf (p + 16) sb ->
    wire_list wire_scalar ss sb -> zlen ss = ns -> arrays_at buf sz (p + 16 + zlen sb) aa q ->
    zlen aa < na -> array_bad buf sz q e -> block_bad buf p e
| bb_length sz ns na ss sb aa q : head_at buf p sz ns na -> occurs buf (p + 16) sb ->
    wire_list wire_scalar ss sb -> zlen ss = ns -> arrays_at buf sz (p + 16 + zlen sb) aa q ->
    zlen aa = na -> q <> p + sz -> block_bad buf p CursorError.

(** Blocks without fault from [p] to [q]. *)
Inductive chain_at (buf : bytes) : Z -> list block -> Z -> Prop :=
| ch_nil p : chain_at buf p [] p
| ch_cons p sz b bl q : block_at buf p sz b -> chain_at buf (p + sz) bl q -> chain_at buf p (b :: bl) q.

(** The first block with a fault gives the exception. *)
Inductive file_bad (buf : bytes) : exn -> Prop :=
| fb_empty : buf = [] -> file_bad buf EmptyFileError
| fb_block bl q e : chain_at buf 0 bl q -> q < zlen buf -> block_bad buf q e -> file_bad buf e.
