(** Model of the restructuring in pydarnio/borealis/base_format.py:
    [_site_to_array] and [_array_to_site]. *)
From Coq Require Import String ZArith List Bool.
From Verif Require Import Base SDarnFormats BorealisTypes BorealisFormats BorealisChecks.
Import ListNotations.
Open Scope list_scope.
Open Scope Z_scope.

(** A list comprehension or loop whose body may raise (for instance
    base_format.py:1086-1092). *)
Fixpoint mapM {A B} (f : A -> res B) (l : list A) : res (list B) :=
  match l with
  | [] => Ok []
  | x :: l' => rlet y := f x in rlet ys := mapM f l' in Ok (y :: ys)
  end.

(** Integer element types (borealis_formats.py:72-568). *)
Definition is_int_type (t : btype) : bool :=
  match t with
  | BI8 | BI16 | BI32 | BI64 | BU8 | BU16 | BU32 | BU64 => true
  | _ => false
  end.

(** An integer scalar, as in [max_seqs < records[k]["num_sequences"]]
    (base_format.py:1460).  Values of other kinds, which the field checks have
    excluded, are not modelled. *)
Definition scalar_int (v : bval) : res Z :=
  match v with
  | BScalar t (CZ z) => if is_int_type t then Ok z else Raise OutOfModel
  | _ => Raise OutOfModel
  end.

(** [v[i]] for a one-dimensional integer array (borealis_formats.py:642, 852).
    Other values are not modelled. *)
Definition array_int (v : bval) (i : nat) : res Z :=
  match v with
  | BArr t [n] data =>
      if negb (is_int_type t) then Raise OutOfModel
      else if Nat.ltb i n then
        match nth_error data i with
        | Some (CZ z) => Ok z
        | _ => Raise OutOfModel
        end
      else Raise IndexError
  | BArr _ [] _ | BScalar _ _ => Raise IndexError
  | _ => Raise OutOfModel
  end.

(** ** The dimension functions of the arrays *)

(** base_format.py:1435-1462 find_max_sequences. *)
Fixpoint find_max_sequences (rs : brecords) (max_seqs : Z) : res Z :=
  match rs with
  | [] => Ok max_seqs
  | (_, r) :: rs' =>
      rlet v := dict_item r (str "num_sequences") in
      rlet n := scalar_int v in
      find_max_sequences rs' (if max_seqs <? n then n else max_seqs)
  end.

(** base_format.py:1464-1491 find_max_beams, 1493-1536 find_max_field_len_func. *)
Fixpoint find_max_len (field : pystr) (rs : brecords) (max_len : nat) : res nat :=
  match rs with
  | [] => Ok max_len
  | (_, r) :: rs' =>
      rlet v := dict_item r field in
      rlet n := blen v in
      find_max_len field rs' (if Nat.ltb max_len n then n else max_len)
  end.

(** The [shape] of a value that has one (base_format.py:1562, 1567). *)
Definition get_shape (v : bval) : res (list nat) :=
  match bshape v with
  | None => Raise AttributeError
  | Some None => Raise OutOfModel
  | Some (Some s) => Ok s
  end.

(** [np.array([a, b]).max(axis=0)] for two shapes (base_format.py:1568-1569);
    shapes of different rank cannot be stacked: ValueError (numpy 1.24 and
    later). *)
Fixpoint max_shape (a b : list nat) : res (list nat) :=
  match a, b with
  | [], [] => Ok []
  | x :: a', y :: b' => rlet r := max_shape a' b' in Ok (Nat.max x y :: r)
  | _, _ => Raise ValueError
  end.

(** base_format.py:1566-1569: the loop. *)
Fixpoint max_ppo_loop (rs : brecords) (m : list nat) : res (list nat) :=
  match rs with
  | [] => Ok m
  | (_, r) :: rs' =>
      rlet v := dict_item r s_ppo in
      rlet s := get_shape v in
      rlet m' := max_shape s m in max_ppo_loop rs' m'
  end.

(** base_format.py:1538-1571 find_max_pulse_phase_offset: the integer 0, or the
    list of the largest dimensions. *)
Definition find_max_ppo (rs : brecords) : res (list nat) :=
  match rs with
  | [] => Raise IndexError
  | (_, first) :: _ =>
      rlet v := dict_item first s_ppo in
      rlet s := get_shape v in
      match s with
      | [] => Raise IndexError
      | O :: _ => Ok [0%nat]
      | _ => max_ppo_loop rs s
      end
  end.

(** A dimension for [np.empty] (base_format.py:1109): a negative one is a
    ValueError. *)
Definition to_dim (z : Z) : res nat :=
  if z <? 0 then Raise ValueError else Ok (Z.to_nat z).

(** One function of unshared_fields_dims_array; lists are spliced
    (base_format.py:1086-1092). *)
Definition adim_eval (rs : brecords) (d : adim) : res (list nat) :=
  match d with
  | AMaxSequences => rlet z := find_max_sequences rs 0 in rlet n := to_dim z in Ok [n]
  | AMaxBeams => rlet n := find_max_len (str "beam_nums") rs 0 in Ok [n]
  | AMaxLen f => rlet n := find_max_len f rs 0 in Ok [n]
  | AMaxPpo => find_max_ppo rs
  | AFirstItem f i =>
      match rs with
      | [] => Raise IndexError
      | (_, first) :: _ =>
          rlet v := dict_item first f in
          rlet z := array_int v i in rlet n := to_dim z in Ok [n]
      end
  | AFirstShape f i =>
      match rs with
      | [] => Raise IndexError
      | (_, first) :: _ =>
          rlet v := dict_item first f in
          rlet s := get_shape v in
          match nth_error s i with Some n => Ok [n] | None => Raise IndexError end
      end
  end.

(** ** Site to array *)

(** NaN as [float32] (np.nan, base_format.py:1118). *)
Definition nan32 : Z := 2143289344.
(** NaN as [float64] (np.nan, base_format.py:1118). *)
Definition nan64 : Z := 9221120237041090560.

(** base_format.py:1113-1118: the initial value of every cell.  [np.nan] becomes
    True in a boolean array and 'nan' in a text array, and cannot be stored in
    the other integer types. *)
Definition fill_cell (t : btype) : res cell :=
  match t with
  | BI64 => Ok (CZ (-1))
  | BU32 | BU8 => Ok (CZ 0)
  | BF32 => Ok (CZ nan32)
  | BF64 => Ok (CZ nan64)
  | BC64 => Ok (CC nan32 0)
  | BC128 => Ok (CC nan64 0)
  | BBool => Ok (CZ 1)
  | BStr => Ok (CS (str "nan"))
  | BI8 | BI16 | BI32 | BU16 | BU64 => Raise ValueError
  | BNpStr | BBytes | BOther => Raise OutOfModel
  end.

(** Strip the trailing NUL characters, which numpy text arrays do not keep
    (base_format.py:1105-1109, 1272). *)
Fixpoint strip_nul (s : pystr) : pystr :=
  match s with
  | [] => []
  | c :: s' => match strip_nul s' with
               | [] => if c =? 0 then [] else [c]
               | r => c :: r
               end
  end.

(** Storing a text in an array of type '|U256' (base_format.py:1105-1108). *)
Definition store_text (s : pystr) : pystr := strip_nul (firstn 256 s).

(** The shape and elements of a value assigned to part of an array of declared
    type [t] (base_format.py:1136-1138).  Conversion between different types,
    which the field checks have excluded, is not modelled. *)
Definition assigned (t : btype) (v : bval) : res (list nat * list cell) :=
  match t, v with
  | BStr, BText s | BStr, BScalar BNpStr (CS s) => Ok ([], [CS (store_text s)])
  | _, BScalar t' c => if btype_eqb t t' then Ok ([], [c]) else Raise OutOfModel
  | _, BArr t' s data => if btype_eqb t t' then Ok (s, data) else Raise OutOfModel
  | _, _ => Raise OutOfModel
  end.

(** The shape of the region that [slices] leading slices select in a row of
    shape [ds]; more slices than dimensions are an IndexError
    (base_format.py:1131-1136). *)
Fixpoint region (ds ss : list nat) : res (list nat) :=
  match ds, ss with
  | _, [] => Ok ds
  | [], _ :: _ => Raise IndexError
  | d :: ds', s :: ss' => rlet r := region ds' ss' in Ok (Nat.min s d :: r)
  end.

(** [a[(rec, 0:s1, 0:s2, ...)] = v] on the elements of an array whose rows have
    shape [ds] (base_format.py:1131-1138). *)
Definition assign (ds : list nat) (data : list cell) (rec : nat) (ss bs : list nat)
    (b : list cell) : res (list cell) :=
  rlet rg := region ds ss in
  rlet b' := broadcast bs rg b in
  let n := size ds in
  Ok (firstn (rec * n) data ++ paste ds rg (row_of ds rec data) b' ++ skipn ((rec + 1) * n) data).

(** A dimension for [reshape].  numpy takes a negative one for the number that is
    missing, which is not modelled (base_format.py:488-551). *)
Definition reshape_dim (z : Z) : res nat :=
  if z <? 0 then Raise OutOfModel else Ok (Z.to_nat z).

(** base_format.py:488-551 and the overriding reshape_site_arrays
    (borealis_formats.py:669-704, 996-1028, 1303-1335, 2310-2337): one field. *)
Definition reshape_field (dims : bval) (v : bval) : res bval :=
  match dims with
  | BArr t [_] l =>
      rlet shape := mapM (fun c => match c with
                                   | CZ z => if is_int_type t then reshape_dim z else Raise OutOfModel
                                   | _ => Raise OutOfModel
                                   end) l in
      match v with
      | BArr t' _ data =>
          if Nat.eqb (length data) (size shape) then Ok (BArr t' shape data)
          else Raise ValueError
      | _ => Raise OutOfModel
      end
  | _ => Raise OutOfModel
  end.

(** One record, for the given fields (see [reshape_field]; borealis_formats.py:669-704,
    996-1028, 1303-1335, 2310-2337). *)
Fixpoint reshape_record (dims : bval) (fields : list pystr) (r : brecord) : res brecord :=
  match fields with
  | [] => Ok r
  | f :: fs =>
      rlet v := dict_item r f in
      rlet v' := reshape_field dims v in
      reshape_record dims fs (dict_set r f v')
  end.

(** reshape_site_arrays (borealis_formats.py:669-704, 996-1028, 1303-1335, 2310-2337). *)
Definition reshape_site_arrays (F : format) (rs : brecords) : res brecords :=
  match fm_flat F with
  | None => Ok rs
  | Some (dims_field, fields) =>
      mapM (fun p => rlet d := dict_item (snd p) dims_field in
                     rlet r := reshape_record d fields (snd p) in Ok (fst p, r)) rs
  end.

(** The functions of array_specific_fields_generate (borealis_formats.py:882-892,
    1187-1198, 1493-1504, 1754-1762, 2300-2307). *)
Definition agen_eval (rs : brecords) (g : agen) : res bval :=
  match g with
  | GCounts f =>
      rlet ns := mapM (fun p => rlet v := dict_item (snd p) f in blen v) rs in
      Ok (BArr BU32 [length ns] (map (fun n => CZ (Z.of_nat n mod 2 ^ 32)) ns))
  | GNames t l => Ok (BArr t [length l] (map CS l))
  end.

(** An array under construction: declared type, shape of a row, elements
    (base_format.py:1097-1119). *)
Record temp_array : Type := mk_temp {
  ta_type : btype;
  ta_dims : list nat;
  ta_data : list cell
}.

(** base_format.py:1101-1104: the declared type of a field. *)
Definition field_type (F : format) (k : pystr) : res btype :=
  match dict_get (fm_single F) k with
  | Some t => Ok t
  | None => dict_item (fm_array F) k
  end.

(** base_format.py:1081-1119: the initial array of one unshared field. *)
Definition temp_init (F : format) (rs : brecords) (p : pystr * list adim)
  : res (pystr * temp_array) :=
  rlet dims := mapM (adim_eval rs) (snd p) in
  rlet t := field_type F (fst p) in
  rlet c := fill_cell t in
  let ds := concat dims in
  Ok (fst p, mk_temp t ds (repeat c (length rs * size ds))).

(** If the first record has an array, the value needs a shape; [None] cannot be
    iterated (base_format.py:1128-1134). *)
Definition needs_shape (v0 v : bval) : res unit :=
  if is_ndarray v0 then
    match bshape v with
    | None => Raise AttributeError
    | Some None => Raise TypeError
    | Some (Some _) => Ok tt
    end
  else Ok tt.

(** base_format.py:1124-1138: one field of one record. *)
Definition temp_fill (first r : brecord) (rec : nat) (p : pystr * temp_array)
  : res (pystr * temp_array) :=
  let '(f, a) := p in
  rlet v0 := dict_item first f in
  rlet v := dict_item r f in
  rlet _ := needs_shape v0 v in
  rlet sb := assigned (ta_type a) v in
  let ss := if is_ndarray v0 then filter (fun i => negb (Nat.eqb i 0)) (fst sb) else [] in
  rlet data := assign (ta_dims a) (ta_data a) rec ss (fst sb) (snd sb) in
  Ok (f, mk_temp (ta_type a) (ta_dims a) data).

(** base_format.py:1123-1138: the loop over the records. *)
Fixpoint fill_loop (first : brecord) (rs : brecords) (rec : nat)
    (temps : list (pystr * temp_array)) : res (list (pystr * temp_array)) :=
  match rs with
  | [] => Ok temps
  | (_, r) :: rs' =>
      rlet temps' := mapM (temp_fill first r rec) temps in
      fill_loop first rs' (rec + 1) temps'
  end.

(** The finished array (base_format.py:1119, 1140); texts are stored as [np.str_]. *)
Definition temp_value (n : nat) (a : temp_array) : bval :=
  BArr (match ta_type a with BStr => BNpStr | t => t end) (n :: ta_dims a) (ta_data a).

(** base_format.py:1013-1142 _site_to_array. *)
Definition site_to_array (F : format) (records : brecords) : res brecord :=
  if negb (fm_restructureable F) then Raise BorealisRestructureError else
  rlet rs := reshape_site_arrays F records in
  match rs with
  | [] => Raise IndexError
  | (_, first) :: _ =>
      rlet shared := mapM (fun f => rlet v := dict_item first f in Ok (f, v)) (fm_shared F) in
      rlet spec := mapM (fun p => rlet v := agen_eval rs (snd p) in Ok (fst p, v))
                        (fm_array_gen F) in
      rlet dims := fm_dims_array F in
      rlet temps := mapM (temp_init F rs) dims in
      rlet temps := fill_loop first rs 0 temps in
      let arrays := map (fun p => (fst p, temp_value (length rs) (snd p))) temps in
      Ok (dict_update (dict_update (dict_update [] shared) spec) arrays)
  end.

(** ** Array to site *)

(** One function of unshared_fields_dims_site, for record number [rec]; lists are
    spliced (base_format.py:1216-1222). *)
Definition sdim_eval (arrays : brecord) (rec : nat) (d : sdim) : res (list Z) :=
  match d with
  | SItem f =>
      rlet v := dict_item arrays f in rlet z := array_int v rec in Ok [z]
  | SShape f i =>
      rlet v := dict_item arrays f in
      rlet s := get_shape v in
      match nth_error s i with Some n => Ok [Z.of_nat n] | None => Raise IndexError end
  | SLen f =>
      rlet v := dict_item arrays f in
      match v with
      | BArr BNpStr [_] data =>
          match nth_error data rec with
          | Some (CS s) => Ok [zlen s]
          | _ => Raise IndexError
          end
      | _ => Raise OutOfModel
      end
  | SPpo =>
      rlet v := dict_item arrays s_ppo in
      rlet n := (rlet a := dict_item arrays (str "num_sequences") in array_int a rec) in
      match v with
      | BArr _ shape data =>
          if Z.of_nat (size shape) <? n then Ok [-1]
          else match shape with
               | [] => Raise IndexError
               | d :: ds => if Nat.ltb rec d then Ok (n :: map Z.of_nat (tl ds))
                            else Raise IndexError
               end
      | _ => Raise OutOfModel
      end
  end.

(** The functions of site_specific_fields_generate; integers out of range wrap
    around in [np.array(..., dtype=np.uint32)]. *)
Definition sgen_eval (arrays : brecord) (rec : nat) (g : sgen) : res bval :=
  match g with
  | HNames t l => Ok (BArr t [length l] (map CS l))
  | HDims l =>
      rlet zs := mapM (sdim_eval arrays rec) l in
      let zs := concat zs in
      Ok (BArr BU32 [length zs] (map (fun z => CZ (z mod 2 ^ 32)) zs))
  end.

(** base_format.py:1208-1209: [datatype(data_dict[field][record_num])] for an
    array of the declared type with one element per record; other arrays are not
    modelled. *)
Definition single_item (t : btype) (v : bval) (rec : nat) : res bval :=
  match v with
  | BArr t' [n] data =>
      if Nat.ltb rec n then
        match t, nth_error data rec with
        | BStr, Some (CS s) => if btype_eqb t' BNpStr then Ok (BText s) else Raise OutOfModel
        | _, Some c => if btype_eqb t t' then Ok (BScalar t c) else Raise OutOfModel
        | _, None => Raise OutOfModel
        end
      else Raise IndexError
  | BArr _ [] _ | BScalar _ _ => Raise IndexError
  | _ => Raise OutOfModel
  end.

(** base_format.py:1225-1228: [data_dict[field][(record_num, 0:i1, ...)]]. *)
Definition array_item (v : bval) (rec : nat) (is : list Z) : res bval :=
  match v with
  | BArr t (n :: ds) data =>
      rlet ss := slice_shape ds is in
      if Nat.ltb rec n then
        let l := corner ds ss (row_of ds rec data) in
        match ds, l with
        | [], [c] => Ok (BScalar t c)
        | [], _ => Raise OutOfModel
        | _, _ => Ok (BArr t ss l)
        end
      else Raise IndexError
  | BArr _ [] _ | BScalar _ _ => Raise IndexError
  | _ => Raise OutOfModel
  end.

(** base_format.py:1203-1228: one unshared field of one record. *)
Definition site_item (F : format) (arrays : brecord) (rec : nat) (f : pystr) : res bval :=
  match dict_get (fm_single F) f with
  | Some t => rlet v := dict_item arrays f in single_item t v rec
  | None =>
      rlet _ := dict_item (fm_array F) f in
      rlet dims := dict_item (fm_dims_site F) f in
      rlet zs := mapM (sdim_eval arrays rec) dims in
      rlet v := dict_item arrays f in array_item v rec (concat zs)
  end.

(** base_format.py:1192-1228: one record. *)
Definition site_record (F : format) (arrays : brecord) (rec : nat) : res brecord :=
  rlet shared := mapM (fun f => rlet v := dict_item arrays f in Ok (f, v)) (fm_shared F) in
  rlet spec := mapM (fun p => rlet v := sgen_eval arrays rec (snd p) in Ok (fst p, v))
                    (fm_site_gen F) in
  rlet fields := unshared_fields F in
  rlet unshared := mapM (fun f => rlet v := site_item F arrays rec f in Ok (f, v)) fields in
  Ok (dict_update (dict_update (dict_update [] shared) spec) unshared).

(** flatten_site_arrays (borealis_formats.py:706-736, 1030-1060, 1337-1367,
    2339-2363; base_format.py:520-551): one record. *)
Fixpoint flatten_record (fields : list pystr) (r : brecord) : res brecord :=
  match fields with
  | [] => Ok r
  | f :: fs =>
      rlet v := dict_item r f in
      rlet v' := match v with
                 | BArr t _ data => Ok (BArr t [length data] data)
                 | BScalar t c => Ok (BArr t [1%nat] [c])
                 | _ => Raise AttributeError
                 end in
      flatten_record fs (dict_set r f v')
  end.

(** flatten_site_arrays, all records (borealis_formats.py:706-736, 1030-1060, 1337-1367,
    2339-2363; base_format.py:520-551). *)
Definition flatten_site_arrays (F : format) (rs : brecords) : res brecords :=
  match fm_flat F with
  | None => Ok rs
  | Some (_, fields) =>
      mapM (fun p => rlet r := flatten_record fields (snd p) in Ok (fst p, r)) rs
  end.

Section Names.
(** base_format.py:1188-1190: the name of a record from the bit pattern of its
    first timestamp. *)
Variable record_name : Z -> res pystr.

(** base_format.py:1184-1228: the records [rec], [rec + 1], ..., [n] of them in
    all.  [times] are the elements of sqn_timestamps, [width] the row length. *)
Fixpoint site_loop (F : format) (arrays : brecord) (times : list (list cell)) (rec : nat)
    (out : brecords) : res brecords :=
  match times with
  | [] => Ok out
  | row :: times' =>
      match row with
      | CZ b :: _ =>
          rlet key := record_name b in
          rlet r := site_record F arrays rec in
          site_loop F arrays times' (rec + 1) (dict_set out key r)
      | [] => Raise IndexError
      | _ => Raise TypeError
      end
  end.

(** The timestamps that can be dealt with: of the declared type, or texts, which give
    a TypeError.  What utcfromtimestamp does with other types is not modelled
    (base_format.py:1188). *)
Definition time_type (t : btype) : bool := btype_eqb t BF64 || btype_eqb t BNpStr.

(** base_format.py:1144-1232 _array_to_site. *)
Definition array_to_site (F : format) (arrays : brecord) : res brecords :=
  if negb (fm_restructureable F) then Raise BorealisRestructureError else
  rlet ts := dict_item arrays (str "sqn_timestamps") in
  match ts with
  | BArr t [n; w] data =>
      if negb (time_type t) then Raise OutOfModel else
      rlet out := site_loop F arrays (rows n w data) 0 [] in
      flatten_site_arrays F out
  | BArr _ [] _ | BScalar _ _ => Raise TypeError
  | BArr _ [O] _ => flatten_site_arrays F []
  | BArr _ [_] _ => Raise IndexError
  | _ => Raise OutOfModel
  end.
End Names.
