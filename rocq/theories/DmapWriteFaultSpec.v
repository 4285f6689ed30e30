(** Specification of what makes a DMAP writer fail, and how: the faults of the
    parts of a field, in the order in which they are met, and the length of a
    record without faults.  Independent of the writer. *)
From Coq Require Import ZArith List Bool.
From Coq Require DecimalString.
From Verif Require Import Base FloatBits DmapTypes DmapSpec DmapWriteSpec.
Import ListNotations.
Open Scope Z_scope.

(** A way to fail: the exceptions that may be raised. *)
Definition fault := exn -> Prop.

(** Of several things done one after the other, the first that fails decides. *)
Inductive first_fault : list fault -> fault :=
| ff_here (P : fault) l e : P e -> first_fault (P :: l) e
| ff_later (P : fault) l e : (forall x, ~ P x) -> first_fault l e -> first_fault (P :: l) e.

(** ** Texts and codes *)

(** Half of a surrogate pair: the characters UTF-8 has no bytes for. *)
Definition surrogate (c : Z) : Prop := 55296 <= c < 57344.

(** Any str: its characters are Unicode code points. *)
Definition text (s : pystr) : Prop := Forall (fun c => 0 <= c <= 1114111) s.

(** A text that cannot be encoded. *)
Definition text_fault (s : pystr) : fault :=
  fun e => e = UnicodeEncodeError /\ Exists surrogate s.

(** An integer made a character and encoded. *)
Inductive code_fault (z : Z) : fault :=
| cf_huge : z < - 2 ^ 31 \/ 2 ^ 31 <= z -> code_fault z OverflowError
| cf_none : - 2 ^ 31 <= z < 0 \/ 1114111 < z < 2 ^ 31 -> code_fault z ValueError
| cf_half : surrogate z -> code_fault z UnicodeEncodeError.

(** The same, where it has to be one byte. *)
Inductive type_fault (z : Z) : fault :=
| tf_code e : code_fault z e -> type_fault z e
| tf_wide : 128 <= z <= 1114111 -> ~ surrogate z -> type_fault z StructError.

(** ** Scalars *)

(** The values covered.  Not covered: as text, all but texts and integers; as
    floats, what has one element but is not a number, and texts as 'f'. *)
Definition value_known (f : fmt) (v : pyval) : Prop :=
  match f, v with
  | Fs, VStr s => text s
  | Fs, (VInt z | VNpInt _ z) => Z.abs z < 10 ^ 4300
  | Fs, _ => False
  | Ff, (VInt _ | VFloat _ | VF32 _ | VF64 _) => True
  | Ff, VNpInt _ z => Z.abs z <= 2 ^ 53
  | Ff, VArr a => nd_shape a <> [] /\ nd_dtype a <> DStr /\ length (nd_data a) <> 1%nat
  | Ff, VIntList l => length l <> 1%nat /\ Forall (fun z => - 2 ^ 63 < z < 2 ^ 63) l
  | Ff, (VStr _ | VOther) => False
  | Fd, VArr a => nd_shape a <> [] /\ length (nd_data a) <> 1%nat
  | Fd, VOther => False
  | Fd, _ => True
  | _, VArr a => nd_shape a <> []
  | _, VOther => False
  | _, _ => True
  end.

(** Neither a text nor an array nor something unknown: a float or a list. *)
Definition float_or_list (v : pyval) : Prop :=
  match v with VFloat _ | VF32 _ | VF64 _ | VIntList _ => True | _ => False end.

Definition integer_format (f : fmt) : Prop := In f [Fh; Fi; Fq; FB; FH; FI; FQ].

(** Half way from the largest double to the next power of two, and beyond: no
    double is as large. *)
Definition no_double (z : Z) : Prop := 2 ^ 1024 - 2 ^ 970 <= Z.abs z.

Inductive value_fault : fmt -> pyval -> fault :=
| vf_text s e : text_fault s e -> value_fault Fs (VStr s) e
| vf_char_text s : value_fault Fc (VStr s) DmapCharError
| vf_char_float v : float_or_list v -> value_fault Fc v TypeError
| vf_char_array a : value_fault Fc (VArr a) TypeError
| vf_char_int v z e : int_of v = Some z -> code_fault z e -> value_fault Fc v e
| vf_float_huge v z : int_of v = Some z -> no_double z -> value_fault Ff v OverflowError
| vf_float_array a : value_fault Ff (VArr a) StructError
| vf_float_list l : value_fault Ff (VIntList l) StructError
| vf_double_huge v z : int_of v = Some z -> no_double z -> value_fault Fd v StructError
| vf_double_array a : value_fault Fd (VArr a) StructError
| vf_double_text s : value_fault Fd (VStr s) StructError
| vf_double_list l : value_fault Fd (VIntList l) StructError
| vf_int_text f s : integer_format f -> value_fault f (VStr s) StructError
| vf_int_float f v : integer_format f -> float_or_list v -> value_fault f v StructError
| vf_int_array f a : integer_format f -> value_fault f (VArr a) TypeError
| vf_int_range f v z : integer_format f -> int_of v = Some z ->
    ~ fits (wire_signed f) (wire_size f) z -> value_fault f v StructError.

(** The name, the type, the value. *)
Definition scalar_fault (s : dscalar) : fault :=
  first_fault [text_fault (sc_name s); type_fault (sc_type s); value_fault (sc_fmt s) (sc_value s)].

(** ** Arrays *)

(** What the format forbids: arrays of texts; of characters, arrays without a
    first element and vectors of texts. *)
Inductive format_fault (a : darray) : fault :=
| af_text : ar_fmt a = Fs -> format_fault a DmapDataError
| af_empty : ar_fmt a = Fc -> (forall n l, nd_shape (ar_value a) = n :: l -> n <= 0) ->
    format_fault a IndexError
| af_char n : ar_fmt a = Fc -> nd_shape (ar_value a) = [n] -> 0 < n ->
    nd_dtype (ar_value a) = DStr -> format_fault a DmapCharError.

(** A number that has to be a 32-bit integer. *)
Definition word_fault (z : Z) : fault := fun e => e = StructError /\ ~ fits true 4 z.

Definition sizes_fault (l : list Z) : fault :=
  fun e => e = StructError /\ Exists (fun z => ~ fits true 4 z) l.

Definition array_fault (a : darray) : fault :=
  first_fault [format_fault a; text_fault (ar_name a); type_fault (ar_type a);
               word_fault (ar_dim a); sizes_fault (ar_shape a)].

(** ** Records *)

Definition field_known (it : item) : Prop :=
  match it with
  | IScalar s => text (sc_name s) /\ value_known (sc_fmt s) (sc_value s)
  | IArray a => text (ar_name a)
  | IPlain _ => True
  end.

(** A value that is no DMAP structure cannot be written. *)
Definition field_fault (it : item) : fault :=
  match it with
  | IScalar s => scalar_fault s
  | IArray a => array_fault a
  | IPlain _ => fun e => e = DmapTypeError
  end.

(** Bytes of the UTF-8 form of a character. *)
Definition char_length (z : Z) : Z :=
  if z <? 128 then 1 else if z <? 2048 then 2 else if z <? 65536 then 3 else 4.

(** An integer as text takes a byte for each character of its numeral and one more. *)
Definition value_length (f : fmt) (v : pyval) : Z :=
  match f, v with
  | Fs, VStr s => zlen s + 1
  | Fs, (VInt z | VNpInt _ z) =>
      Z.of_nat (String.length (DecimalString.NilZero.string_of_int (Z.to_int z))) + 1
  | Fc, (VInt z | VNpInt _ z) => char_length z
  | _, _ => Z.of_nat (wire_size f)
  end.

Definition field_length (it : item) : Z :=
  match it with
  | IScalar s => zlen (sc_name s) + 2 + value_length (sc_fmt s) (sc_value s)
  | IArray a => zlen (ar_name a) + 2 + 4 + 4 * zlen (ar_shape a)
                + Z.of_nat (dtype_size (nd_dtype (ar_value a))) * zlen (nd_data (ar_value a))
  | IPlain _ => 0
  end.

Definition record_length (r : record) : Z := 16 + total (map (fun p => field_length (snd p)) r).

(** The fields in order, then the length, which has to be a 32-bit integer. *)
Definition record_fault (r : record) : fault :=
  first_fault (map (fun p => field_fault (snd p)) r ++ [word_fault (record_length r)]).

Definition record_known (r : record) : Prop := Forall (fun p => field_known (snd p)) r.

Definition records_fault (rs : list record) : fault := first_fault (map record_fault rs).

(** ** What a write leaves behind *)

Definition no_fault (P : fault) : Prop := forall e, ~ P e.

(** The shape list of an array that was written, reversed in place. *)
Definition turned (it : item) : item :=
  match it with
  | IArray a => if 1 <? ar_dim a
      then IArray (mk_darray (ar_name a) (ar_value a) (ar_type a) (ar_fmt a) (ar_dim a) (rev (ar_shape a)))
      else it
  | _ => it
  end.

Definition turned_record (r : record) : record := map (fun p => (fst p, turned (snd p))) r.

(** The field that fails is left alone, but for an array that fails at its sizes,
    which was turned just before. *)
Definition field_left (it it' : item) : Prop :=
  match it with
  | IArray a =>
      (no_fault (first_fault [format_fault a; text_fault (ar_name a); type_fault (ar_type a); word_fault (ar_dim a)]) /\
       it' = turned it) \/
      ((exists e, first_fault [format_fault a; text_fault (ar_name a); type_fault (ar_type a); word_fault (ar_dim a)] e) /\
       it' = it)
  | _ => it' = it
  end.

(** A record after a failure: the fields before the failing one are turned, those
    after it are not.  The last argument is what the record leaves in the buffer of
    the writer: nothing, or the identifier of a header whose second word, the
    length, cannot be written. *)
Inductive record_left : record -> record -> bytes -> Prop :=
| rl_field pre k it it' post e :
    Forall (fun p => no_fault (field_fault (snd p))) pre -> field_fault it e -> field_left it it' ->
    record_left (pre ++ (k, it) :: post) (turned_record pre ++ (k, it') :: post) []
| rl_long r :
    Forall (fun p => no_fault (field_fault (snd p))) r -> ~ fits true 4 (record_length r) ->
    record_left r (turned_record r) [1; 0; 1; 0].
