(** Model of pydarnio/utils/conversions.py and of the DmapWrite object
    (pydarnio/dmap/dmap.py:857-1008), which uses it. *)
From Coq Require Import ZArith List Bool.
From Verif Require Import Base Bytes Utf8 FloatBits FloatInt DmapTypes DmapRead DmapWrite.
Import ListNotations.
Open Scope Z_scope.

(** DMAP_FORMAT_TYPES (conversions.py:18-28). *)
Definition dmap_format_types (f : fmt) : Z :=
  match f with
  | Fc => 1 | Fh => 2 | Fi => 3 | Ff => 4 | Fd => 8 | Fs => 9 | Fq => 10
  | FB => 16 | FH => 17 | FI => 18 | FQ => 19
  end.

(** FORMAT_CONVERSION[value.dtype.type] (conversions.py:33-45, 91); [None] is
    KeyError.  [np.longlong], [np.ulonglong], [np.str_] are not keys. *)
Definition dtype_format (d : dtype) : option fmt :=
  match d with
  | DI8 => Some Fc | DI16 => Some Fh | DI32 => Some Fi | DI64 => Some Fq
  | DU8 => Some FB | DU16 => Some FH | DU32 => Some FI | DU64 => Some FQ
  | DF32 => Some Ff | DF64 => Some Fd
  | DLL | DULL | DStr | DOther => None
  end.

(** FORMAT_CONVERSION[np.intX] (conversions.py:33-45, 98). *)
Definition npint_format (t : npint) : fmt :=
  match t with
  | NI8 => Fc | NI16 => Fh | NI32 => Fi | NI64 => Fq
  | NU8 => FB | NU16 => FH | NU32 => FI | NU64 => FQ
  end.

(** FORMAT_CONVERSION[type(value)] for a value that is not an array or list
    (conversions.py:33-45, 98). *)
Definition value_format (v : pyval) : option fmt :=
  match v with
  | VInt _ => Some Fi
  | VNpInt t _ => Some (npint_format t)
  | VFloat _ => Some Ff
  | VF32 _ => Some Ff
  | VF64 _ => Some Fd
  | VStr _ => Some Fs
  | VArr _ | VIntList _ | VOther => None
  end.

(** conversions.py:88-94: an ndarray value becomes a DmapArray. *)
Definition array_item (field : pystr) (a : ndarray) : res item :=
  match dtype_format (nd_dtype a) with
  | None => Raise KeyError
  | Some f =>
      Ok (IArray (mk_darray field a (dmap_format_types f) f
                            (zlen (nd_shape a)) (nd_shape a)))
  end.

(** conversions.py:84-101: one field.  Lists are modelled for integers only:
    [np.array] gives an int64 array when every element fits, a float64 array for the
    empty list, and an array of objects, whose type is not a key, if an element has more
    than 64 bits; lists with an element from 2^63 to 2^64 - 1 are [OutOfModel].  A DmapScalar/DmapArray inside a dictionary that is being
    converted is a tuple, whose type is not a key: KeyError. *)
Definition field2dmap (field : pystr) (it : item) : res item :=
  match it with
  | IPlain (VIntList l) =>
      if zlen l =? 0 then array_item field (mk_ndarray DF64 false [0] [])
      else if forallb (fun z => (int_min true 8 <=? z) && (z <=? int_max true 8)) l
      then array_item field (mk_ndarray DI64 false [zlen l] l)
      else if forallb (fun z => (int_min true 8 <=? z) && (z <=? int_max false 8)) l
      then Raise OutOfModel
      else Raise KeyError
  | IPlain (VArr a) => array_item field a
  | IPlain v =>
      match value_format v with
      | None => Raise KeyError
      | Some f => Ok (IScalar (mk_dscalar field v (dmap_format_types f) f))
      end
  | IScalar _ | IArray _ => Raise KeyError
  end.

(** conversions.py:83-102: one dictionary.  The keys of a Python dictionary are
    distinct, so [dmap_record[field] = ...] appends. *)
Fixpoint record2dmap (r : record) : res record :=
  match r with
  | [] => Ok []
  | (k, it) :: r' =>
      rlet it' := field2dmap k it in
      rlet rest := record2dmap r' in Ok ((k, it') :: rest)
  end.

(** conversions.py:64-103 dict2dmap. *)
Fixpoint dict2dmap (rs : list record) : res (list record) :=
  match rs with
  | [] => Ok []
  | r :: rs' => rlet r' := record2dmap r in
                rlet rest := dict2dmap rs' in Ok (r' :: rest)
  end.

(** The number of type [t] that an integer becomes: modulo the range (the casts of
    conversions.py:125). *)
Definition np_wrap (t : npint) (z : Z) : Z :=
  match t with
  | NI8 => to_signed 1 (z mod 256)
  | NI16 => to_signed 2 (z mod 2 ^ 16)
  | NI32 => to_signed 4 (z mod 2 ^ 32)
  | NI64 => to_signed 8 (z mod 2 ^ 64)
  | NU8 => z mod 2 ^ 8
  | NU16 => z mod 2 ^ 16
  | NU32 => z mod 2 ^ 32
  | NU64 => z mod 2 ^ 64
  end.

(** From here on an int is too large for a numpy integer (conversions.py:125): numpy 1.x
    makes it a C long first, an unsigned long for uint32 and uint64. *)
Definition np_limit (t : npint) : Z := match t with NU32 | NU64 => 2 ^ 64 | _ => 2 ^ 63 end.

(** np.int8(value) .. np.uint64(value) (conversions.py:47-57, 125).  [np.int8(200)] wraps
    to -56 (numpy 1.x; numpy 2 raises OverflowError).  Values of other kinds are
    [OutOfModel]. *)
Definition np_int (t : npint) (v : pyval) : res pyval :=
  match v with
  | VInt z => if (z <? - 2 ^ 63) || (np_limit t <=? z) then Raise OverflowError
              else Ok (VNpInt t (np_wrap t z))
  | VNpInt _ z => Ok (VNpInt t (np_wrap t z))
  | _ => Raise OutOfModel
  end.

(** float(value) and np.float64(value) (conversions.py:47-57, 125): the bits of the
    double.  Texts, lists and other values are [OutOfModel]. *)
Definition np_double (v : pyval) : res Z :=
  match v with
  | VFloat b | VF64 b => Ok b
  | VF32 b => Ok (widen b)
  | VInt z | VNpInt _ z =>
      match double_of_int z with Some b => Ok b | None => Raise OverflowError end
  | _ => Raise OutOfModel
  end.

(** DMAP_CASTING_TYPES[fmt](value) (conversions.py:47-57, 125).  The int of a float or a
    text, and the text of anything but a text, are [OutOfModel]. *)
Definition cast_value (f : fmt) (v : pyval) : res pyval :=
  match f with
  | Fc => np_int NI8 v
  | Fh => np_int NI16 v
  | Fi => match v with VInt z | VNpInt _ z => Ok (VInt z) | _ => Raise OutOfModel end
  | Ff => rlet b := np_double v in Ok (VFloat b)
  | Fd => rlet b := np_double v in Ok (VF64 b)
  | Fs => match v with VStr s => Ok (VStr s) | _ => Raise OutOfModel end
  | Fq => np_int NI64 v
  | FB => np_int NU8 v
  | FH => np_int NU16 v
  | FI => np_int NU32 v
  | FQ => np_int NU64 v
  end.

(** conversions.py:124-126: one field. *)
Definition field2dict (it : item) : res item :=
  match it with
  | IArray a => Ok (IPlain (VArr (ar_value a)))
  | IScalar s =>
      match sc_value s with
      | VArr a => Ok (IPlain (VArr a))
      | _ => rlet v := cast_value (sc_fmt s) (sc_value s) in Ok (IPlain v)
      end
  | IPlain _ => Raise AttributeError
  end.

(** conversions.py:123-127: one record. *)
Fixpoint record2dict (r : record) : res record :=
  match r with
  | [] => Ok []
  | (k, it) :: r' => rlet it' := field2dict it in
                     rlet rest := record2dict r' in Ok ((k, it') :: rest)
  end.

(** conversions.py:106-128 dmap2dict. *)
Fixpoint dmap2dict (rs : list record) : res (list record) :=
  match rs with
  | [] => Ok []
  | r :: rs' => rlet r' := record2dict r in
                rlet rest := dmap2dict rs' in Ok (r' :: rest)
  end.

(** dmap.py:918-938 __check_dmap_dict. *)
Definition check_dmap_dict (rs : list record) : res (list record) :=
  match rs with
  | ((_, IScalar _) :: _) :: _ => Ok rs
  | ((_, IArray _) :: _) :: _ => Ok rs
  | ((_, IPlain _) :: _) :: _ =>
      (* an IndexError inside dict2dmap cannot happen *)
      dict2dmap rs
  | [] :: _ => Ok rs      (* list({}.values())[0]: IndexError caught *)
  | [] => Ok rs           (* [][0]: IndexError caught *)
  end.

(** A writer object: [filename], [dmap_records], [dmap_bytearr]
    (dmap.py:891-896).  Filenames are strings; "" is [[]]. *)
Record writer : Type := mk_writer {
  wr_filename : pystr;
  wr_records  : list record;
  wr_bytearr  : bytes
}.

(** [open(name, 'wb')] and [write]: replace the content (dmap.py:961-962).
    Simplified: opening never fails and the write is atomic. *)
Definition fs_write (fs : fsys) (name : pystr) (content : bytes) : fsys :=
  fun n => if str_eqb n name then Some content else fs n.

(** dmap.py:857-897 DmapWrite.__init__. *)
Definition writer_new (rs : list record) (filename : pystr) : res writer :=
  rlet rs' := check_dmap_dict rs in Ok (mk_writer filename rs' []).

(** dmap.py:991-1008 _filename_check. *)
Definition filename_check (w : writer) (filename : pystr) : res writer :=
  match wr_filename w, filename with
  | [], [] => Raise FilenameRequiredError
  | _, [] => Ok w
  | _, _ => Ok (mk_writer filename (wr_records w) (wr_bytearr w))
  end.

(** dmap.py:985-989 _empty_record_check. *)
Definition empty_record_check (w : writer) : res unit :=
  match wr_records w with [] => Raise DmapDataError | _ => Ok tt end.

(** dmap.py:964-983 write_dmap_stream. *)
Definition write_dmap_stream (w : writer) (dmap_records : list record)
  : res bytes * writer :=
  let loaded :=
    match wr_records w with
    | [] => rlet rs := check_dmap_dict dmap_records in
            Ok (mk_writer (wr_filename w) rs (wr_bytearr w))
    | _ => Ok w
    end in
  match loaded with
  | Raise e => (Raise e, w)
  | Ok w1 =>
      match empty_record_check w1 with
      | Raise e => (Raise e, w1)
      | Ok _ =>
          match dmap_records_to_bytes (wr_bytearr w1) (wr_records w1) with
          | (r, acc, rs) =>
              let w2 := mk_writer (wr_filename w1) rs acc in
              (rlet _ := r in Ok acc, w2)
          end
      end
  end.

(** dmap.py:944-962 write_dmap. *)
Definition write_dmap (fs : fsys) (w : writer) (filename : pystr)
  : res unit * writer * fsys :=
  match filename_check w filename with
  | Raise e => (Raise e, w, fs)
  | Ok w1 =>
      match write_dmap_stream w1 [] with
      | (Raise e, w2) => (Raise e, w2, fs)
      | (Ok _, w2) => (Ok tt, w2, fs_write fs (wr_filename w2) (wr_bytearr w2))
      end
  end.

(** DmapWrite(rs).write_dmap_stream(): the bytes of a fresh writer (dmap.py:880-910,
    964-990). *)
Definition dmap_write (rs : list record) : res bytes :=
  rlet w := writer_new rs [] in fst (write_dmap_stream w []).

(** DmapRead(content, True).read_records() including the conversion of
    dmap.py:406: the plain dictionaries returned to the caller. *)
Definition dmap_read_dicts (content : bytes) : res (list record) :=
  rlet rs := dmap_read content in dmap2dict rs.
