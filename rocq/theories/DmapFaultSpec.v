(** Specification of the faults of DMAP input: which exception belongs to which
    defect of a byte string.  As in DmapSpec.v there is no parsing and no cursor:
    every rule shows the shape of the bytes that have the fault. *)
From Coq Require Import ZArith List Bool.
From Verif Require Import Base BytesSpec Utf8 DmapTypes DmapSpec.
Import ListNotations.
Open Scope Z_scope.

(** Names and text values: nothing left, no terminating NUL up to the end of the
    input, or bytes that are no UTF-8. *)
Inductive text_fault : bytes -> exn -> Prop :=
| tf_end : text_fault [] CursorError
| tf_open B : B <> [] -> ~ In 0 B -> text_fault B IndexError
| tf_utf8 b B : ~ In 0 b -> (forall s, utf8_enc s <> Some b) ->
    text_fault (b ++ 0 :: B) UnicodeDecodeError.

(** The types a code stands for; code 0 is the DMAP type, which no field may
    have. *)
Inductive type_code : Z -> option fmt -> Prop :=
| tc_dmap : type_code 0 None
| tc_format f : type_code (wire_code f) (Some f).

Inductive code_fault : bytes -> exn -> Prop :=
| cf_end : code_fault [] CursorError
| cf_unknown t B : (forall o, ~ type_code t o) -> code_fault (t :: B) DmapDataTypeError.

(** The value of a scalar: too few bytes left. *)
Inductive value_fault : fmt -> bytes -> exn -> Prop :=
| vf_text B e : text_fault B e -> value_fault Fs B e
| vf_cut f B : f <> Fs -> zlen B < Z.of_nat (wire_size f) -> value_fault f B CursorError.

Inductive scalar_fault : bytes -> exn -> Prop :=
| sf_name B e : text_fault B e -> scalar_fault B e
| sf_code name nb B e : wire_text name nb -> code_fault B e -> scalar_fault (nb ++ B) e
| sf_dmap name nb B : wire_text name nb -> scalar_fault (nb ++ 0 :: B) DmapDataError
| sf_value name nb f B e : wire_text name nb -> value_fault f B e ->
    scalar_fault (nb ++ wire_code f :: B) e.

(** A number that has to be at least 1. *)
Inductive sign_fault : Z -> exn -> Prop :=
| gf_zero : sign_fault 0 ZeroByteError
| gf_negative n : n < 0 -> sign_fault n NegativeByteError.

(** The sizes an array may have in a block of [blk] bytes. *)
Definition sizes_fine (blk : Z) (name : pystr) (sizes : list Z) : Prop :=
  Forall (fun n => (1 <= n \/ (name = s_slist /\ n = 0)) /\ n < blk) sizes.

(** The bytes of one element. *)
Definition item_size (o : option fmt) : Z :=
  match o with Some f => Z.of_nat (wire_size f) | None => 0 end.

(** The elements, or their number, exceed the block. *)
Definition too_large (blk : Z) (o : option fmt) (sizes : list Z) : Prop :=
  blk < product sizes \/ blk < product sizes * item_size o.

(** The sizes and the type of an array when [left] bytes follow the sizes. *)
Inductive sizes_fault (blk : Z) (name : pystr) (o : option fmt) (sizes : list Z) (left : Z)
  : exn -> Prop :=
| zf_size n : In n sizes -> (n <= 0 /\ name <> s_slist) \/ blk <= n ->
    sizes_fault blk name o sizes left DmapDataError
| zf_large : sizes_fine blk name sizes -> too_large blk o sizes ->
    sizes_fault blk name o sizes left MismatchByteError
| zf_type : sizes_fine blk name sizes -> ~ too_large blk o sizes ->
    o = None \/ o = Some Fs -> sizes_fault blk name o sizes left DmapDataError
| zf_cut f : sizes_fine blk name sizes -> ~ too_large blk o sizes ->
    o = Some f -> f <> Fs -> left < product sizes * item_size o ->
    sizes_fault blk name o sizes left ValueError
| zf_rank f : sizes_fine blk name sizes -> ~ too_large blk o sizes ->
    o = Some f -> f <> Fs -> 32 < zlen sizes ->
    sizes_fault blk name o sizes left ValueError.

Inductive array_fault (blk : Z) : bytes -> exn -> Prop :=
| af_name B e : text_fault B e -> array_fault blk B e
| af_code name nb B e : wire_text name nb -> code_fault B e -> array_fault blk (nb ++ B) e
| af_rank_cut name nb t o B : wire_text name nb -> type_code t o -> zlen B < 4 ->
    array_fault blk (nb ++ t :: B) CursorError
| af_rank_large name nb t o n db B : wire_text name nb -> type_code t o -> wire_int32 n db ->
    blk < n -> array_fault blk (nb ++ t :: db ++ B) MismatchByteError
| af_rank_sign name nb t o n db B e : wire_text name nb -> type_code t o -> wire_int32 n db ->
    sign_fault n e -> array_fault blk (nb ++ t :: db ++ B) e
| af_sizes_cut name nb t o n db B : wire_text name nb -> type_code t o -> wire_int32 n db ->
    1 <= n <= blk -> zlen B < 4 * n -> array_fault blk (nb ++ t :: db ++ B) CursorError
| af_sizes name nb t o sizes db sb B e : wire_text name nb -> type_code t o ->
    wire_int32 (zlen sizes) db -> 1 <= zlen sizes <= blk -> wire_list wire_int32 sizes sb ->
    sizes_fault blk name o sizes (zlen B) e ->
    array_fault blk (nb ++ t :: db ++ sb ++ B) e.

(** An array without fault. *)
Definition fine_array (blk : Z) (a : darray) (bs : bytes) : Prop :=
  wire_array blk a bs /\ zlen (ar_shape a) <= blk /\
  ~ too_large blk (Some (ar_fmt a)) (ar_shape a).

(** The stored size of a block when [len] bytes are left from its first byte on. *)
Inductive size_fault (len sz : Z) : exn -> Prop :=
| bz_large : len < sz -> size_fault len sz MismatchByteError
| bz_sign e : sign_fault sz e -> size_fault len sz e.

(** The two counts of a block of [sz] bytes. *)
Inductive counts_fault (sz ns na : Z) : exn -> Prop :=
| bc_scalars e : sign_fault ns e -> counts_fault sz ns na e
| bc_arrays e : 0 < ns -> sign_fault na e -> counts_fault sz ns na e
| bc_sum : 0 < ns -> 0 < na -> sz < ns + na -> counts_fault sz ns na MismatchByteError.

(** [B] starts with identifier and size, [R] follows. *)
Definition starts (B : bytes) (sz : Z) (R : bytes) : Prop :=
  exists ident szb, B = ident ++ szb ++ R /\ length ident = 4%nat /\ wire_int32 sz szb.

(** [B] starts with a header without fault, [R] follows. *)
Definition fine_header (B : bytes) (sz ns na : Z) (R : bytes) : Prop :=
  exists nsb nab, starts B sz (nsb ++ nab ++ R) /\ wire_int32 ns nsb /\ wire_int32 na nab /\
    0 < sz <= zlen B /\ 0 < ns /\ 0 < na /\ ns + na <= sz.

Inductive block_fault : bytes -> exn -> Prop :=
| bf_cut B : 0 < zlen B < 8 -> block_fault B CursorError
| bf_size B sz R e : starts B sz R -> size_fault (zlen B) sz e -> block_fault B e
| bf_counts_cut B sz R : starts B sz R -> 0 < sz <= zlen B -> zlen R < 8 ->
    block_fault B CursorError
| bf_counts B sz ns na nsb nab R e : starts B sz (nsb ++ nab ++ R) -> 0 < sz <= zlen B ->
    wire_int32 ns nsb -> wire_int32 na nab -> counts_fault sz ns na e -> block_fault B e
| bf_scalar B sz ns na ss sb R e : fine_header B sz ns na (sb ++ R) ->
    wire_list wire_scalar ss sb -> zlen ss < ns -> scalar_fault R e -> block_fault B e
| bf_array B sz ns na ss sb aa ab R e : fine_header B sz ns na (sb ++ ab ++ R) ->
    wire_list wire_scalar ss sb -> zlen ss = ns ->
    wire_list (fine_array sz) aa ab -> zlen aa < na -> array_fault sz R e -> block_fault B e
| bf_length B sz ns na ss sb aa ab R : fine_header B sz ns na (sb ++ ab ++ R) ->
    wire_list wire_scalar ss sb -> zlen ss = ns ->
    wire_list (fine_array sz) aa ab -> zlen aa = na ->
    sz <> 16 + zlen sb + zlen ab -> block_fault B CursorError.

(** The fault of a file: that of its first block with a fault. *)
Inductive file_fault : bytes -> exn -> Prop :=
| ff_empty : file_fault [] EmptyFileError
| ff_block bl A B e : wire_file bl A -> block_fault B e -> file_fault (A ++ B) e.

(** The fault met when a file is walked by the sizes stored 4 bytes into each
    block, from position [p] on (cf. [walk]). *)
Inductive walk_fault (buf : bytes) : Z -> exn -> Prop :=
| kf_cut p : p < zlen buf < p + 8 -> walk_fault buf p CursorError
| kf_size p n szb e : occurs buf (p + 4) szb -> wire_int32 n szb ->
    size_fault (zlen buf - p) n e -> walk_fault buf p e
| kf_step p n szb e : occurs buf (p + 4) szb -> wire_int32 n szb ->
    0 < n <= zlen buf - p -> walk_fault buf (p + n) e -> walk_fault buf p e.
