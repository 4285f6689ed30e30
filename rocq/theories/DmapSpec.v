(** Specification of the DMAP wire format, independent of the reader and the
    writer.  It says which byte strings encode which fields; it contains no
    parsing and no cursor. *)
From Coq Require Import ZArith List Bool.
From Verif Require Import Base BytesSpec Utf8 FloatBits DmapTypes.
Import ListNotations.
Open Scope Z_scope.

(** Sizes, signedness and type codes of the formats (RST rtypes.h / the table
    in the documentation of the DMAP format). *)
Definition wire_size (f : fmt) : nat :=
  match f with
  | Fc | FB | Fs => 1 | Fh | FH => 2 | Fi | FI | Ff => 4 | Fq | FQ | Fd => 8
  end%nat.
Definition wire_signed (f : fmt) : bool :=
  match f with Fc | Fh | Fi | Fq => true | _ => false end.
Definition wire_code (f : fmt) : Z :=
  match f with
  | Fc => 1 | Fh => 2 | Fi => 3 | Ff => 4 | Fd => 8 | Fs => 9 | Fq => 10
  | FB => 16 | FH => 17 | FI => 18 | FQ => 19
  end.

(** [z] fits an [n]-byte integer. *)
Definition fits (signed : bool) (n : nat) (z : Z) : Prop :=
  if signed then - 2 ^ (8 * Z.of_nat n - 1) <= z < 2 ^ (8 * Z.of_nat n - 1)
  else 0 <= z < 2 ^ (8 * Z.of_nat n).

(** [bs] is the [n]-byte little-endian (two's complement) representation of
    [z]. *)
Definition wire_int (signed : bool) (n : nat) (z : Z) (bs : bytes) : Prop :=
  length bs = n /\ Forall is_byte bs /\ fits signed n z /\
  le_num bs = z mod 2 ^ (8 * Z.of_nat n).

Definition wire_int32 : Z -> bytes -> Prop := wire_int true 4.

(** NUL-terminated UTF-8 text. *)
Definition wire_text (s : pystr) (bs : bytes) : Prop :=
  exists e, utf8_enc s = Some e /\ ~ In 0 s /\ bs = e ++ [0].

(** Scalar values as the reader presents them: chars are unsigned bytes, single
    floats are shown as doubles. *)
Inductive wire_value : fmt -> pyval -> bytes -> Prop :=
| wv_char b : is_byte b -> wire_value Fc (VInt b) [b]
| wv_str s bs : wire_text s bs -> wire_value Fs (VStr s) bs
| wv_f32 bs : length bs = 4%nat -> Forall is_byte bs ->
              wire_value Ff (VFloat (widen (le_num bs))) bs
| wv_f64 bs : length bs = 8%nat -> Forall is_byte bs ->
              wire_value Fd (VFloat (le_num bs)) bs
| wv_int f z bs : In f [Fh; Fi; Fq; FB; FH; FI; FQ] ->
                  wire_int (wire_signed f) (wire_size f) z bs ->
                  wire_value f (VInt z) bs.

(** A scalar field: name, type code, value. *)
Inductive wire_scalar : dscalar -> bytes -> Prop :=
| wire_scalar_intro name f v nb vb :
    wire_text name nb -> wire_value f v vb ->
    wire_scalar (mk_dscalar name v (wire_code f) f) (nb ++ [wire_code f] ++ vb).

(** A sequence of encodings, one after the other. *)
Inductive wire_list {A} (R : A -> bytes -> Prop) : list A -> bytes -> Prop :=
| wl_nil : wire_list R [] []
| wl_cons x xs b bs : R x b -> wire_list R xs bs -> wire_list R (x :: xs) (b ++ bs).

(** The numpy type shown for an array of a format. *)
Definition wire_dtype (f : fmt) : dtype :=
  match f with
  | Fc => DI8 | Fh => DI16 | Fi => DI32 | Ff => DF32 | Fd => DF64 | Fs => DStr
  | Fq => DLL | FB => DU8 | FH => DU16 | FI => DU32 | FQ => DULL
  end.

(** Product of the sizes. *)
Definition product (l : list Z) : Z := fold_right Z.mul 1 l.

(** An array field inside a block of [blk] bytes: name, type code, number of
    dimensions, sizes from the fastest varying to the slowest, elements in
    row-major order.  Sizes are at least 1 (an array called slist may have
    sizes 0) and below the length of the block. *)
Inductive wire_array (blk : Z) : darray -> bytes -> Prop :=
| wire_array_intro name f dims data nb db sb eb :
    wire_text name nb -> f <> Fs ->
    1 <= zlen dims <= 32 ->
    Forall (fun n => (1 <= n \/ (name = s_slist /\ n = 0)) /\ n < blk) dims ->
    wire_int32 (zlen dims) db ->
    wire_list wire_int32 (rev dims) sb ->
    wire_list (wire_int (wire_signed f) (wire_size f)) data eb ->
    zlen data = product dims ->
    wire_array blk
      (mk_darray name (mk_ndarray (wire_dtype f) false dims data)
                 (wire_code f) f (zlen dims) dims)
      (nb ++ [wire_code f] ++ db ++ sb ++ eb).

(** The fields of a block, in file order. *)
Definition block := (list dscalar * list darray)%type.

(** A block: encoding identifier (any 4 bytes), its own length, the two counts,
    the scalars, the arrays. *)
Inductive wire_block (ident : bytes) : block -> bytes -> Prop :=
| wire_block_intro ss aa szb nsb nab sb ab :
    length ident = 4%nat -> Forall is_byte ident ->
    ss <> [] -> aa <> [] ->
    wire_int32 (zlen (ident ++ szb ++ nsb ++ nab ++ sb ++ ab)) szb ->
    wire_int32 (zlen ss) nsb ->
    wire_int32 (zlen aa) nab ->
    wire_list wire_scalar ss sb ->
    wire_list (wire_array (zlen (ident ++ szb ++ nsb ++ nab ++ sb ++ ab))) aa ab ->
    wire_block ident (ss, aa) (ident ++ szb ++ nsb ++ nab ++ sb ++ ab).

(** A file: one block after the other, with any identifiers. *)
Definition wire_file : list block -> bytes -> Prop :=
  wire_list (fun b bs => exists ident, wire_block ident b bs).

(** A byte string a Python bytearray can hold. *)
Definition is_bytearray (b : bytes) : Prop :=
  Forall is_byte b /\ zlen b <= 2 ^ 63 - 1.

(** No array of any block has a negative size. *)
Definition nonneg_sizes (bl : list block) : Prop :=
  Forall (fun b : block => Forall (fun a => Forall (fun n => 0 <= n) (ar_shape a)) (snd b)) bl.

(** Somewhere in the byte string stand the name, type, rank and sizes of an
    array called slist with a negative size. *)
Definition negative_slist (buf : bytes) : Prop :=
  exists p ty dims db sb,
    occurs buf p (s_slist ++ [0] ++ [ty] ++ db ++ sb) /\
    wire_int32 (zlen dims) db /\ wire_list wire_int32 dims sb /\
    Exists (fun n => n < 0) dims.

(** Walking a file by the sizes stored 4 bytes into each block, from position
    [p] to the end: [ns] are the sizes met, all positive. *)
Inductive walk (buf : bytes) : Z -> list Z -> Prop :=
| walk_end : walk buf (zlen buf) []
| walk_step p n ns szb :
    occurs buf (p + 4) szb -> wire_int32 n szb -> 0 < n ->
    walk buf (p + n) ns -> walk buf p (n :: ns).

(** The named fields of a block, in file order. *)
Definition block_fields (b : block) : list (pystr * item) :=
  map (fun s => (sc_name s, IScalar s)) (fst b) ++
  map (fun a => (ar_name a, IArray a)) (snd b).

(** Names in order of their first occurrence. *)
Fixpoint first_occurrences (l : list pystr) : list pystr :=
  match l with
  | [] => []
  | k :: l' => k :: filter (fun k' => negb (str_eqb k' k)) (first_occurrences l')
  end.

(** The value of the last occurrence of a name. *)
Definition last_value {A} (k : pystr) (l : list (pystr * A)) : option A :=
  fold_left (fun acc p => if str_eqb (fst p) k then Some (snd p) else acc) l None.

(** [r] is the dictionary of a block: every name once, in order of first
    occurrence, with the value of its last occurrence. *)
Definition dict_of_block (b : block) (r : record) : Prop :=
  map fst r = first_occurrences (map fst (block_fields b)) /\
  forall k, dict_get r k = last_value k (block_fields b).
