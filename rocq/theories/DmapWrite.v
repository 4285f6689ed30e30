(** Model of class DmapWrite, pydarnio/dmap/dmap.py:813-1160. *)
From Coq Require Import ZArith List Bool.
From Coq Require DecimalString.
From Verif Require Import Base Bytes Utf8 FloatBits FloatInt DmapTypes.
From Verif Require SDarnFormats.
Import ListNotations.
Open Scope Z_scope.

(** [struct.pack('{n}s', bs)]: truncated or padded with NULs to [n] bytes
    (dmap.py:1085, 1094, 1142). *)
Definition pack_s (n : nat) (bs : bytes) : bytes :=
  firstn n bs ++ repeat 0 (n - length bs).

(** dmap.py:1083-1086, 1092-1095, 1140-1143: text plus "\0", encoded, packed
    with the number of characters (not bytes) as length. *)
Definition pack_text (s : pystr) : res bytes :=
  match utf8_enc (s ++ [0]) with
  | Some bs => Ok (pack_s (length (s ++ [0])) bs)
  | None => Raise UnicodeEncodeError
  end.

(** [chr(v).encode('utf-8')] (dmap.py:1089, 1101, 1146). *)
Definition chr_encode (v : Z) : res bytes :=
  if (v <? - 2 ^ 31) || (2 ^ 31 <=? v) then Raise OverflowError else
  if (v <? 0) || (1114111 <? v) then Raise ValueError else
  match utf8_enc1 v with
  | Some bs => Ok bs
  | None => Raise UnicodeEncodeError
  end.

(** [struct.pack('c', chr(code).encode('utf-8'))]: exactly one byte required
    (dmap.py:1088-1089, 1145-1146). *)
Definition pack_type (code : Z) : res bytes :=
  rlet bs := chr_encode code in
  match bs with
  | [b] => Ok [b]
  | _ => Raise StructError
  end.

(** [str(z)] of an int (dmap.py:1092). *)
Definition decimal (z : Z) : pystr :=
  SDarnFormats.str (DecimalString.NilZero.string_of_int (Z.to_int z)).

(** dmap.py:1092-1095: an integer as text.  Simplified: with more than 4300 digits
    it depends on the Python version whether that is a ValueError, so it is
    [OutOfModel]. *)
Definition pack_decimal (z : Z) : res bytes :=
  if 4300 <? zlen (decimal (Z.abs z)) then Raise OutOfModel else pack_text (decimal z).

(** dmap.py:1107 [struct.pack('d', z)] of an integer. *)
Definition pack_double (z : Z) : res bytes :=
  match double_of_int z with
  | Some b => Ok (le_enc 8 b)
  | None => Raise StructError
  end.

(** dmap.py:1103-1105 [struct.pack('f', np.float32(z))] of an int, which numpy first
    makes a double. *)
Definition pack_single (z : Z) : res bytes :=
  match double_of_int z with
  | Some b => Ok (le_enc 4 (narrow (widen (narrow b))))
  | None => Raise OverflowError
  end.

(** dmap.py:1091-1107: the value bytes of a scalar.  An array of any rank but 0
    cannot be an index: a TypeError, as it is for [chr] of a list or a float (as of
    Python 3.10, which no longer tries [__int__]).  An array is a float only if it
    has one element; numpy makes an array of a list.  Simplified, as [OutOfModel]:
    floats, arrays and lists as text, arrays of rank 0, arrays and lists of one
    element as floats, texts and arrays of texts as 'f', numpy integers beyond
    [2^53] as 'f' (rounded once or twice, depending on the numpy version), lists
    with integers of more than 64 bits as 'f'. *)
Definition scalar_data_bytes (f : fmt) (v : pyval) : res bytes :=
  match f with
  | Fs => match v with
          | VStr s => pack_text s
          | VInt z | VNpInt _ z => pack_decimal z
          | _ => Raise OutOfModel
          end
  | Fc => match v with
          | VStr _ => Raise DmapCharError
          | VInt z | VNpInt _ z => chr_encode z
          | VFloat _ | VF32 _ | VF64 _ | VIntList _ => Raise TypeError
          | VArr a => match nd_shape a with [] => Raise OutOfModel | _ => Raise TypeError end
          | VOther => Raise OutOfModel
          end
  | Ff => match v with
          | VInt z => pack_single z
          | VNpInt _ z => if Z.abs z <=? 2 ^ 53 then pack_single z else Raise OutOfModel
          | VFloat b | VF64 b => Ok (le_enc 4 (narrow (widen (narrow b))))
          | VF32 b => Ok (le_enc 4 (narrow (widen b)))
          | VArr a => match nd_shape a, nd_dtype a, nd_data a with
                      | [], _, _ | _, DStr, _ | _, _, [_] => Raise OutOfModel
                      | _, _, _ => Raise StructError
                      end
          | VIntList l => match l with
                          | [_] => Raise OutOfModel
                          | _ => if forallb (fun z => Z.abs z <? 2 ^ 63) l
                                 then Raise StructError else Raise OutOfModel
                          end
          | VStr _ | VOther => Raise OutOfModel
          end
  | Fd => match v with
          | VInt z | VNpInt _ z => pack_double z
          | VFloat b | VF64 b => Ok (le_enc 8 b)
          | VF32 b => Ok (le_enc 8 (widen b))
          | VStr _ | VIntList _ => Raise StructError
          | VArr a => match nd_shape a, nd_data a with
                      | [], _ | _, [_] => Raise OutOfModel
                      | _, _ => Raise StructError
                      end
          | VOther => Raise OutOfModel
          end
  | _ => match v with
         | VInt z | VNpInt _ z => pack_int (fmt_signed f) (fmt_size f) z
         | VArr a => match nd_shape a with [] => Raise OutOfModel | _ => Raise TypeError end
         | VOther => Raise OutOfModel
         | _ => Raise StructError
         end
  end.

(** dmap.py:1067-1112 dmap_scalar_to_bytes. *)
Definition dmap_scalar_to_bytes (s : dscalar) : res bytes :=
  rlet scalar_name_bytes := pack_text (sc_name s) in
  rlet scalar_type_bytes := pack_type (sc_type s) in
  rlet data_bytes := scalar_data_bytes (sc_fmt s) (sc_value s) in
  Ok (scalar_name_bytes ++ scalar_type_bytes ++ data_bytes).

(** dmap.py:1131: [isinstance(array.value[0], str)]; IndexError on an empty
    array.  For arrays of rank above 1 [value[0]] is an array, not a str. *)
Definition first_is_str (a : ndarray) : res bool :=
  match nd_shape a with
  | [] => Raise IndexError
  | n :: rest =>
      if n <=? 0 then Raise IndexError
      else Ok (match rest with
               | [] => match nd_dtype a with DStr => true | _ => false end
               | _ => false
               end)
  end.

(** dmap.py:1152-1153: the packed sizes. *)
Fixpoint pack_sizes (l : list Z) : res bytes :=
  match l with
  | [] => Ok []
  | x :: l' => rlet b := pack_int true 4 x in
               rlet bs := pack_sizes l' in Ok (b ++ bs)
  end.

(** dmap.py:1155: [array_value.tostring()] of the flattened array. *)
Definition tostring (a : ndarray) : bytes :=
  flat_map (elem_enc (nd_dtype a) (nd_be a)) (nd_data a).

(** dmap.py:1114-1160 dmap_array_to_bytes.  [array.shape.reverse()] (line 1151)
    changes the caller's list in place, so the updated array is returned as
    well, also when a later step raises.  Here every field has its own shape
    list; fields sharing one are in [DmapShare.v]. *)
Definition dmap_array_to_bytes (a : darray) : res bytes * darray :=
  let pre :=
    rlet _ :=
      match ar_fmt a with
      | Fc => rlet isstr := first_is_str (ar_value a) in
              if isstr then Raise DmapCharError else Ok tt
      | Fs => Raise DmapDataError
      | _ => Ok tt
      end in
    rlet array_name_bytes := pack_text (ar_name a) in
    rlet array_type_bytes := pack_type (ar_type a) in
    rlet array_dim_bytes := pack_int true 4 (ar_dim a) in
    Ok (array_name_bytes ++ array_type_bytes ++ array_dim_bytes) in
  match pre with
  | Raise e => (Raise e, a)
  | Ok head =>
      let shape' := if 1 <? ar_dim a then rev (ar_shape a) else ar_shape a in
      let a' := mk_darray (ar_name a) (ar_value a) (ar_type a) (ar_fmt a)
                          (ar_dim a) shape' in
      (rlet array_shape_bytes := pack_sizes shape' in
       Ok (head ++ array_shape_bytes ++ tostring (ar_value a)), a')
  end.

(** dmap.py:1044-1054: the loop over the fields; returns the data bytes, the
    numbers of scalars and arrays, and the record with the shapes as the loop
    leaves them. *)
Fixpoint fields_to_bytes (r : record) : res (bytes * Z * Z) * record :=
  match r with
  | [] => (Ok ([], 0, 0), [])
  | (k, it) :: r' =>
      match it with
      | IScalar s =>
          match dmap_scalar_to_bytes s with
          | Raise e => (Raise e, r)
          | Ok b =>
              match fields_to_bytes r' with
              | (Raise e, r'') => (Raise e, (k, it) :: r'')
              | (Ok (bs, ns, na), r'') =>
                  (Ok (b ++ bs, ns + 1, na), (k, it) :: r'')
              end
          end
      | IArray a =>
          match dmap_array_to_bytes a with
          | (Raise e, a') => (Raise e, (k, IArray a') :: r')
          | (Ok b, a') =>
              match fields_to_bytes r' with
              | (Raise e, r'') => (Raise e, (k, IArray a') :: r'')
              | (Ok (bs, ns, na), r'') =>
                  (Ok (b ++ bs, ns, na + 1), (k, IArray a') :: r'')
              end
          end
      | IPlain _ => (Raise DmapTypeError, r)
      end
  end.

(** dmap.py:1061-1064: the four words of the header, when all of them can be
    packed; see [words_left] for the other case. *)
Definition header_bytes (block_size num_scalars num_arrays : Z) : res bytes :=
  rlet b0 := pack_int true 4 65537 in
  rlet b1 := pack_int true 4 block_size in
  rlet b2 := pack_int true 4 num_scalars in
  rlet b3 := pack_int true 4 num_arrays in
  Ok (b0 ++ b1 ++ b2 ++ b3).

(** dmap.py:1024-1065 _dmap_record_to_bytes: the bytes appended to
    [dmap_bytearr], and the record as left behind. *)
Definition dmap_record_to_bytes (r : record) : res bytes * record :=
  match fields_to_bytes r with
  | (Raise e, r') => (Raise e, r')
  | (Ok (data, num_scalars, num_arrays), r') =>
      let block_size := zlen data + 16 in
      (rlet h := header_bytes block_size num_scalars num_arrays in
       Ok (h ++ data), r')
  end.

(** dmap.py:1061-1064: the words are packed and appended to [dmap_bytearr] one
    after the other, so when one cannot be packed the ones before it have been
    appended.  *)
Fixpoint words_left (l : list Z) : bytes :=
  match l with
  | [] => []
  | z :: l' =>
      match pack_int true 4 z with
      | Ok b => b ++ words_left l'
      | Raise _ => []
      end
  end.

(** dmap.py:1024-1065: what a record that cannot be written leaves in
    [dmap_bytearr]: nothing when a field fails (lines 1044-1054 come first). *)
Definition record_rest (r : record) : bytes :=
  match fst (fields_to_bytes r) with
  | Ok (data, num_scalars, num_arrays) =>
      words_left [65537; zlen data + 16; num_scalars; num_arrays]
  | Raise _ => []
  end.

(** dmap.py:1010-1022 dmap_records_to_bytes: appends to [acc]
    (= [self.dmap_bytearr]); on failure the bytes of the earlier records stay
    appended, and what the record that fails leaves. *)
Fixpoint dmap_records_to_bytes (acc : bytes) (rs : list record)
  : res unit * bytes * list record :=
  match rs with
  | [] => (Ok tt, acc, [])
  | r :: rs' =>
      match dmap_record_to_bytes r with
      | (Raise e, r') => (Raise e, acc ++ record_rest r, r' :: rs')
      | (Ok b, r') =>
          match dmap_records_to_bytes (acc ++ b) rs' with
          | (res, acc', rs'') => (res, acc', r' :: rs'')
          end
      end
  end.
