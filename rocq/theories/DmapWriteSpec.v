(** Specification for the DMAP writer: which records the format can represent,
    what is read back for them, how long they are on the wire. *)
From Coq Require Import ZArith List Bool.
From Verif Require Import Base BytesSpec FloatBits DmapTypes DmapSpec.
Import ListNotations.
Open Scope Z_scope.

(** ASCII text without NUL. *)
Definition plain_text (s : pystr) : Prop := Forall (fun c => 0 < c < 128) s.

(** The integer of an int or numpy integer value. *)
Definition int_of (v : pyval) : option Z :=
  match v with VInt z => Some z | VNpInt _ z => Some z | _ => None end.

(** [reads_back f v w]: the value [v] of format [f] is representable and is read
    back as [w]. *)
Inductive reads_back : fmt -> pyval -> pyval -> Prop :=
| rb_char v z : int_of v = Some z -> 0 <= z < 128 -> reads_back Fc v (VInt z)
| rb_int f v z : In f [Fh; Fi; Fq; FB; FH; FI; FQ] -> int_of v = Some z ->
                 fits (wire_signed f) (wire_size f) z -> reads_back f v (VInt z)
| rb_str s : plain_text s -> reads_back Fs (VStr s) (VStr s)
| rb_f32 b v : 0 <= b < 2 ^ 32 -> f32_snan b = false ->
               In v [VFloat (widen b); VF64 (widen b); VF32 b] ->
               reads_back Ff v (VFloat (widen b))
| rb_f64 b v : 0 <= b < 2 ^ 64 -> In v [VFloat b; VF64 b] -> reads_back Fd v (VFloat b)
| rb_f32_as_f64 b : 0 <= b < 2 ^ 32 -> reads_back Fd (VF32 b) (VFloat (widen b)).

(** A representable scalar field and what is read back. *)
Inductive scalar_back : dscalar -> dscalar -> Prop :=
| scalar_back_intro name f v w :
    plain_text name -> reads_back f v w ->
    scalar_back (mk_dscalar name v (wire_code f) f) (mk_dscalar name w (wire_code f) f).

(** The element types that have the layout of a format. *)
Definition dtype_fits (f : fmt) (d : dtype) : Prop :=
  match f with
  | Fq => d = DI64 \/ d = DLL
  | FQ => d = DU64 \/ d = DULL
  | Fs => False
  | _ => d = wire_dtype f
  end.

(** A representable array field in a block of [blk] bytes and what is read
    back: the same shape and elements.  Sizes are at least 1; an slist (not of
    format 'c') may have sizes 0, and then they must be below [blk]. *)
Inductive array_back (blk : Z) : darray -> darray -> Prop :=
| array_back_intro name f d shape data :
    plain_text name -> dtype_fits f d ->
    1 <= zlen shape <= 32 ->
    Forall (fun n => 1 <= n) shape \/
      (name = s_slist /\ f <> Fc /\ Forall (fun n => 0 <= n < blk) shape) ->
    zlen data = product shape ->
    Forall (fits (wire_signed f) (wire_size f)) data ->
    array_back blk
      (mk_darray name (mk_ndarray d false shape data) (wire_code f) f (zlen shape) shape)
      (mk_darray name (mk_ndarray (wire_dtype f) false shape data) (wire_code f) f (zlen shape) shape).

(** Bytes on the wire. *)
Definition scalar_bytes (s : dscalar) : Z :=
  zlen (sc_name s) + 2 +
  match sc_value s with VStr t => zlen t + 1 | _ => Z.of_nat (wire_size (sc_fmt s)) end.
Definition array_bytes (a : darray) : Z :=
  zlen (ar_name a) + 2 + 4 + 4 * zlen (ar_shape a)
  + Z.of_nat (wire_size (ar_fmt a)) * zlen (nd_data (ar_value a)).
Definition total (l : list Z) : Z := fold_right Z.add 0 l.
Definition block_bytes (b : block) : Z :=
  16 + total (map scalar_bytes (fst b)) + total (map array_bytes (snd b)).

(** A representable block and what is read back: at least one scalar and one
    array, no name twice, shorter than 2 GiB. *)
Definition block_back (b b' : block) : Prop :=
  fst b <> [] /\ snd b <> [] /\
  NoDup (map fst (block_fields b)) /\
  block_bytes b < 2 ^ 31 /\
  Forall2 scalar_back (fst b) (fst b') /\
  Forall2 (array_back (block_bytes b)) (snd b) (snd b').

(** Records: dictionaries with the scalars first. *)
Definition record_back (r r' : record) : Prop :=
  exists b b', block_back b b' /\ r = block_fields b /\ r' = block_fields b'.

(** Length of a file. *)
Definition file_bytes (bl : list block) : Z := total (map block_bytes bl).

(** Numbers of scalar and array fields of a record. *)
Definition is_scalar (it : item) : bool := match it with IScalar _ => true | _ => false end.
Definition is_array (it : item) : bool := match it with IArray _ => true | _ => false end.
Definition scalars_of (r : record) : Z := zlen (filter (fun p => is_scalar (snd p)) r).
Definition arrays_of (r : record) : Z := zlen (filter (fun p => is_array (snd p)) r).

(** The record with the shapes of its arrays of rank above 1 reversed. *)
Definition flip_item (it : item) : item :=
  match it with
  | IArray a => IArray (mk_darray (ar_name a) (ar_value a) (ar_type a) (ar_fmt a) (ar_dim a)
                          (if 1 <? ar_dim a then rev (ar_shape a) else ar_shape a))
  | _ => it
  end.
Definition flip_record (r : record) : record := map (fun p => (fst p, flip_item (snd p))) r.

(** [x], [y], [x], [y], ...: [k] copies. *)
Fixpoint alternate {A} (k : nat) (x y : list A) : list A :=
  match k with O => [] | S k' => x ++ alternate k' y x end.

(** Index tuples of a shape in row-major order (last index fastest). *)
Fixpoint all_indices (shape : list Z) : list (list Z) :=
  match shape with
  | [] => [[]]
  | n :: s => flat_map (fun i => map (cons (Z.of_nat i)) (all_indices s)) (seq 0 (Z.to_nat n))
  end.

(** [((i1 * s2 + i2) * s3 + i3) ...]. *)
Fixpoint horner (acc : Z) (shape idx : list Z) : Z :=
  match shape, idx with
  | n :: s, i :: is => horner (acc * n + i) s is
  | _, _ => acc
  end.

(** An index tuple inside a shape. *)
Definition in_shape (shape idx : list Z) : Prop :=
  Forall2 (fun n i => 0 <= i < n) shape idx.

(** ** Byte strings that are reproduced by reading and writing *)

(** Chars below 128, ASCII strings, no signalling NaN. *)
Definition plain_value (f : fmt) (v : pyval) (vb : bytes) : Prop :=
  match f, v with
  | Fc, VInt z => z < 128
  | Fs, VStr s => plain_text s
  | Ff, _ => f32_snan (le_num vb) = false
  | _, _ => True
  end.

Inductive plain_scalar : dscalar -> bytes -> Prop :=
| plain_scalar_intro name f v vb :
    plain_text name -> wire_value f v vb -> plain_value f v vb ->
    plain_scalar (mk_dscalar name v (wire_code f) f) (name ++ [0] ++ [wire_code f] ++ vb).

(** ASCII name; no size 0, except in an slist that is not of chars. *)
Definition plain_array (a : darray) : Prop :=
  plain_text (ar_name a) /\
  (Forall (fun n => 1 <= n) (ar_shape a) \/ ar_fmt a <> Fc).

(** A block with identifier 65537, no name twice, and plain fields. *)
Inductive plain_block : block -> bytes -> Prop :=
| plain_block_intro ss aa szb nsb nab sb ab bs :
    bs = [1; 0; 1; 0] ++ szb ++ nsb ++ nab ++ sb ++ ab ->
    wire_block [1; 0; 1; 0] (ss, aa) bs ->
    length szb = 4%nat -> length nsb = 4%nat -> length nab = 4%nat ->
    wire_list plain_scalar ss sb ->
    Forall plain_array aa ->
    NoDup (map fst (block_fields (ss, aa))) ->
    plain_block (ss, aa) bs.

(** Every block position of the walk carries the identifier 65537. *)
Definition stamped (buf : bytes) : Prop :=
  forall ns1 ns2, walk buf 0 (ns1 ++ ns2) -> ns2 <> [] -> occurs buf (total ns1) [1; 0; 1; 0].

(** A binary64 NaN. *)
Definition f64_nan (b : Z) : bool := (f64_exp b =? 2047) && negb (f64_man b =? 0).

(** The same conditions on the fields alone, excluding every NaN. *)
Definition tame_scalar (s : dscalar) : Prop :=
  plain_text (sc_name s) /\
  match sc_fmt s, sc_value s with
  | Fc, VInt z => z < 128
  | Fs, VStr t => plain_text t
  | Ff, VFloat b => f64_nan b = false
  | _, _ => True
  end.
Definition tame_block (b : block) : Prop :=
  NoDup (map fst (block_fields b)) /\ Forall tame_scalar (fst b) /\ Forall plain_array (snd b).

(** ** Sequences of calls on one writer object *)

(** write_dmap(filename) or write_dmap_stream(records). *)
Inductive wop : Type :=
| OpWrite (filename : pystr)
| OpStream (records : list record).

(** The most recent non-empty name. *)
Fixpoint last_given (name : pystr) (ops : list wop) : pystr :=
  match ops with
  | [] => name
  | OpWrite [] :: ops' => last_given name ops'
  | OpWrite n :: ops' => last_given n ops'
  | OpStream _ :: ops' => last_given name ops'
  end.

(** ** Plain dictionaries *)

(** The DMAP type of a plain scalar and of a numpy element type. *)
Definition plain_fmt (v : pyval) : option fmt :=
  match v with
  | VInt _ => Some Fi
  | VNpInt NI8 _ => Some Fc | VNpInt NI16 _ => Some Fh | VNpInt NI32 _ => Some Fi
  | VNpInt NI64 _ => Some Fq | VNpInt NU8 _ => Some FB | VNpInt NU16 _ => Some FH
  | VNpInt NU32 _ => Some FI | VNpInt NU64 _ => Some FQ
  | VFloat _ => Some Ff | VF32 _ => Some Ff | VF64 _ => Some Fd
  | VStr _ => Some Fs
  | _ => None
  end.
Definition plain_dtype (d : dtype) : option fmt :=
  match d with
  | DI8 => Some Fc | DI16 => Some Fh | DI32 => Some Fi | DI64 => Some Fq
  | DU8 => Some FB | DU16 => Some FH | DU32 => Some FI | DU64 => Some FQ
  | DF32 => Some Ff | DF64 => Some Fd
  | _ => None
  end.

(** A value read from a file and the same value after dmap2dict and dict2dmap:
    chars of 128 and more come back as negative int8. *)
Definition value_kept (f : fmt) (v w : pyval) : Prop :=
  match f, v, w with
  | Fc, VInt z, VNpInt NI8 z' => z' = if z <? 128 then z else z - 256
  | Fh, VInt z, VNpInt NI16 z' => z' = z
  | Fi, VInt z, VInt z' => z' = z
  | Fq, VInt z, VNpInt NI64 z' => z' = z
  | FB, VInt z, VNpInt NU8 z' => z' = z
  | FH, VInt z, VNpInt NU16 z' => z' = z
  | FI, VInt z, VNpInt NU32 z' => z' = z
  | FQ, VInt z, VNpInt NU64 z' => z' = z
  | Ff, VFloat b, VFloat b' => b' = b
  | Fd, VFloat b, VF64 b' => b' = b
  | Fs, VStr s, VStr s' => s' = s
  | _, _, _ => False
  end.

(** Same name, type code, format; same array. *)
Definition item_kept (it it' : item) : Prop :=
  match it, it' with
  | IScalar s, IScalar s' =>
      sc_name s' = sc_name s /\ sc_type s' = sc_type s /\ sc_fmt s' = sc_fmt s /\
      value_kept (sc_fmt s) (sc_value s) (sc_value s')
  | IArray a, IArray a' => a' = a
  | _, _ => False
  end.
Definition record_kept (r r' : record) : Prop :=
  Forall2 (fun p p' => fst p' = fst p /\ item_kept (snd p) (snd p')) r r'.

(** An array of the 64-bit formats 'q' and 'Q'. *)
Definition long_array (it : item) : bool :=
  match it with IArray a => match ar_fmt a with Fq | FQ => true | _ => false end | _ => false end.

(** The first value of the first record. *)
Definition first_value (rs : list record) : option item :=
  match rs with ((_, it) :: _) :: _ => Some it | _ => None end.

(** A plain field that is representable, and the field read back; [blk] is the
    length of the block. *)
Inductive dict_scalar_back : pystr * item -> dscalar -> Prop :=
| dsb_intro k v f w :
    plain_text k -> plain_fmt v = Some f -> reads_back f v w ->
    dict_scalar_back (k, IPlain v) (mk_dscalar k w (wire_code f) f).
Inductive dict_array_back (blk : Z) : pystr * item -> darray -> Prop :=
| dab_array k d f shape data :
    plain_text k -> plain_dtype d = Some f ->
    1 <= zlen shape <= 32 ->
    Forall (fun n => 1 <= n) shape \/
      (k = s_slist /\ f <> Fc /\ Forall (fun n => 0 <= n < blk) shape) ->
    zlen data = product shape ->
    Forall (fits (wire_signed f) (wire_size f)) data ->
    dict_array_back blk (k, IPlain (VArr (mk_ndarray d false shape data)))
      (mk_darray k (mk_ndarray (wire_dtype f) false shape data) (wire_code f) f (zlen shape) shape)
| dab_list k l :
    plain_text k -> l <> [] -> Forall (fits true 8) l ->
    dict_array_back blk (k, IPlain (VIntList l))
      (mk_darray k (mk_ndarray DLL false [zlen l] l) 10 Fq 1 [zlen l]).
Definition dict_back (r : record) (b : block) : Prop :=
  exists rs ra, r = rs ++ ra /\ fst b <> [] /\ snd b <> [] /\
    NoDup (map fst r) /\ block_bytes b < 2 ^ 31 /\
    Forall2 dict_scalar_back rs (fst b) /\ Forall2 (dict_array_back (block_bytes b)) ra (snd b).

(** [z'] is the number whose bytes are those of [z] in reverse order. *)
Definition byte_swapped (signed : bool) (n : nat) (z z' : Z) : Prop :=
  exists bs, wire_int signed n z bs /\ wire_int signed n z' (rev bs).

(** The same array, except that a big-endian array is replaced by the
    little-endian array of byte-swapped values. *)
Definition swapped_array (a a' : ndarray) : Prop :=
  a' = a \/
  nd_dtype a' = nd_dtype a /\ nd_shape a' = nd_shape a /\
  nd_be a = true /\ nd_be a' = false /\
  Forall2 (byte_swapped (dtype_signed (nd_dtype a)) (dtype_size (nd_dtype a))) (nd_data a) (nd_data a').
Definition swapped_item (it it' : item) : Prop :=
  match it, it' with
  | IPlain (VArr a), IPlain (VArr a') => swapped_array a a'
  | IArray a, IArray a' =>
      ar_name a' = ar_name a /\ ar_type a' = ar_type a /\ ar_fmt a' = ar_fmt a /\
      ar_dim a' = ar_dim a /\ ar_shape a' = ar_shape a /\ swapped_array (ar_value a) (ar_value a')
  | _, _ => it' = it
  end.
Definition swapped_record (r r' : record) : Prop :=
  Forall2 (fun p p' => fst p' = fst p /\ swapped_item (snd p) (snd p')) r r'.

(** ** Text and chars that do not survive *)

(** A char scalar of 128 or more. *)
Definition wide_char (it : item) : Prop :=
  match it with
  | IScalar s => sc_fmt s = Fc /\ exists z, int_of (sc_value s) = Some z /\ 128 <= z
  | _ => False
  end.

(** Only ASCII in the name and the string value of a field. *)
Definition ascii_text (s : pystr) : Prop := Forall (fun c => 0 <= c < 128) s.
Definition ascii_item (it : item) : Prop :=
  match it with
  | IScalar s => ascii_text (sc_name s) /\ forall t, sc_value s = VStr t -> ascii_text t
  | IArray a => ascii_text (ar_name a)
  | IPlain _ => True
  end.
