(** Model of pydarnio/borealis/borealis_restructure.py: restructuring a file into
    another file, one record at a time. *)
From Coq Require Import String ZArith List Bool.
From Verif Require Import Base Utf8 SDarnFormats BorealisTypes BorealisFormats BorealisChecks
  BorealisArrays BorealisTime BorealisFile.
Import ListNotations.
Open Scope list_scope.
Open Scope Z_scope.

(** A dataset of the root group ([f[field]], borealis_restructure.py:216, 220, 229,
    233, 235).  Nothing used there works on a group. *)
Definition root_dset (f : hfile) (k : pystr) : res hdset :=
  match dict_get (h_items f) k with
  | None => Raise KeyError
  | Some (HDset d _) => Ok d
  | Some (HGroup _ _) => Raise TypeError
  end.

(** [f[field][:]] (borealis_restructure.py:220, 233, 235). *)
Definition whole (d : hdset) : res bval :=
  match hd_shape d with
  | [] => Raise ValueError
  | _ => Ok (BArr (hd_type d) (hd_shape d) (hd_data d))
  end.

(** The view as texts (borealis_restructure.py:216-218, 229-231, 365-367): KeyError
    without the attribute 'itemsize'. *)
Definition texts (d : hdset) : res bval :=
  match hd_item d with
  | None => Raise KeyError
  | Some _ => read_dset d
  end.

(** [issubclass(v, str)] (base_format.py:979, 993). *)
Definition is_text_type (t : btype) : bool :=
  match t with BStr | BNpStr => true | _ => false end.

(** base_format.py:967-979: is a field one of single_string_fields? *)
Definition single_string (F : format) (k : pystr) : bool :=
  match dict_get (fm_single F) k with Some t => is_text_type t | None => false end.
(** base_format.py:981-993: is a field one of array_string_fields? *)
Definition array_string (F : format) (k : pystr) : bool :=
  match dict_get (fm_array F) k with Some t => is_text_type t | None => false end.

(** ** Array to site *)

(** The datasets of the root group as values: what the functions of
    site_specific_fields_generate and unshared_fields_dims_site see when they get
    the open file (borealis_restructure.py:253-256, 268-271). *)
Definition root_arrays (f : hfile) : brecord :=
  flat_map (fun p => match snd p with
                     | HDset d _ => [(fst p, BArr (hd_type d) (hd_shape d) (hd_data d))]
                     | HGroup _ _ => []
                     end) (h_items f).

(** borealis_restructure.py:212-214: an attribute of the file. *)
Definition decode_attr (a : hattr) : res bval :=
  match a with
  | HBytes b => match utf8_dec b with Some s => Ok (BText s) | None => Raise UnicodeDecodeError end
  | HStr s => Ok (BText s)
  | HEmpty t => Ok (BEmpty t)
  | HValue v => Ok v
  end.

(** borealis_restructure.py:210-221: one shared field. *)
Definition shared_value (F : format) (attrs : dict btype) (f : hfile) (k : pystr) : res bval :=
  match dict_get attrs k with
  | Some _ => rlet a := dict_item (h_attrs f) k in decode_attr a
  | None =>
      rlet d := root_dset f k in
      if array_string F k then texts d else whole d
  end.

(** borealis_restructure.py:226-233: a field with one element per record. *)
Definition single_values (F : format) (f : hfile) (k : pystr) : res bval :=
  rlet d := root_dset f k in
  if single_string F k then texts d else whole d.

(** borealis_restructure.py:258-284: one unshared field of record number [rec].
    Dimensions of -1 are left out (279), other than in base_format.py:1225. *)
Definition file_item (F : format) (f : hfile) (rec : nat) (k : pystr) : res bval :=
  match dict_get (fm_single F) k with
  | Some t => rlet v := single_values F f k in single_item t v rec
  | None =>
      rlet dims := dict_item (fm_dims_site F) k in
      rlet zs := mapM (sdim_eval (root_arrays f) rec) dims in
      rlet v := dict_item (root_arrays f) k in
      array_item v rec (filter (fun i => negb (i =? -1)) (concat zs))
  end.

(** borealis_restructure.py:245-284: one record.  Simplified: the shared fields and
    the single elements are read again for every record; the file does not change
    in between, and all exceptions end up the same (295). *)
Definition file_record (F : format) (attrs : dict btype) (f : hfile) (rec : nat) : res brecord :=
  rlet shared := mapM (fun k => rlet v := shared_value F attrs f k in Ok (k, v)) (fm_shared F) in
  rlet spec := mapM (fun p => rlet v := sgen_eval (root_arrays f) rec (snd p) in Ok (fst p, v))
                    (fm_site_gen F) in
  rlet fields := unshared_fields F in
  rlet unshared := mapM (fun k => rlet v := file_item F f rec k in Ok (k, v)) fields in
  Ok (dict_update (dict_update (dict_update [] shared) spec) unshared).

(** borealis_restructure.py:238-290: one record, checked. *)
Definition site_record_of_file (F : format) (attrs : dict btype) (f : hfile) (row : list cell)
    (rec : nat) : res brecords :=
  match row with
  | CZ b :: _ =>
      rlet key := record_name b in
      rlet r := file_record F attrs f rec in
      rlet rs := flatten_site_arrays F [(key, r)] in
      rlet rs := ppo_site_fix rs in
      rlet _ := check_records attrs (fm_array F) rs in
      Ok rs
  | [] => Raise IndexError
  | _ => Raise TypeError
  end.

Section Restructure.
(** See [Filters] in BorealisFile.v (base_format.py:1393-1429). *)
Variable available : pystr -> bool.

(** borealis_restructure.py:237-294: the loop over the timestamps.  The records
    written before an exception stay in the file. *)
Fixpoint site_file_loop (F : format) (attrs : dict btype) (f : hfile) (out : pystr)
    (compression : option pystr) (times : list (list cell)) (rec : nat) (fs : hfs)
    : hfs * res unit :=
  match times with
  | [] => (fs, Ok tt)
  | row :: times' =>
      match site_record_of_file F attrs f row rec with
      | Raise e => (fs, Raise e)
      | Ok rs =>
          match write_records available F fs out rs compression with
          | (fs', Raise e) => (fs', Raise e)
          | (fs', Ok _) => site_file_loop F attrs f out compression times' (rec + 1) fs'
          end
      end
  end.

(** borealis_restructure.py:208-235: reading the shared fields and the timestamps,
    before the loop. *)
Definition timestamp_rows (F : format) (attrs : dict btype) (f : hfile) : res (list (list cell)) :=
  rlet _ := mapM (shared_value F attrs f) (fm_shared F) in
  rlet fields := unshared_fields F in
  rlet _ := mapM (single_values F f)
                 (filter (fun k => match dict_get (fm_single F) k with Some _ => true | None => false end)
                         fields) in
  rlet d := root_dset f (str "sqn_timestamps") in
  rlet v := whole d in
  match v with
  | BArr t [n; w] data => if time_type t then Ok (rows n w data) else Raise OutOfModel
  | BArr _ [O] _ => Ok []
  | BArr _ [_] _ => Raise IndexError
  | _ => Raise OutOfModel
  end.

(** borealis_restructure.py:190-300 _array_to_site_restructure. *)
Definition array_to_site_file (F : format) (fs : hfs) (f : hfile) (out : pystr)
    (compression : option pystr) : hfs * res unit :=
  match site_single_element_types F with
  | Raise e => (fs, Raise e)
  | Ok attrs =>
      match timestamp_rows F attrs f with
      | Raise e => (fs, wrap_restructure (Raise e))
      | Ok times =>
          let '(fs', r) := site_file_loop F attrs f out compression times 0 fs in
          (fs', wrap_restructure r)
      end
  end.

(** ** Site to array *)

(** [record[k][()]] (borealis_restructure.py:331). *)
Definition dset_value (d : hdset) : res bval :=
  match hd_shape d, hd_data d with
  | [], [c] => Ok (BScalar (hd_type d) c)
  | [], _ => Raise OutOfModel
  | s, data => Ok (BArr (hd_type d) s data)
  end.

(** [record.attrs[k]] (borealis_restructure.py:336, 339). *)
Definition attr_value (a : hattr) : bval :=
  match a with
  | HBytes b => BScalar BBytes (CS b)
  | HStr s => BText s
  | HEmpty t => BEmpty t
  | HValue v => v
  end.

(** base_format.py:995-1010 bool_types. *)
Definition bool_fields (F : format) : list pystr :=
  map fst (filter (fun p => btype_eqb (snd p) BBool) (fm_single F)).

(** borealis_restructure.py:335. *)
Definition class_attrs : list pystr := [str "CLASS"; str "TITLE"; str "VERSION"].

(** borealis_restructure.py:329-339: one record as h5py gives it.  A member that is
    no group has no [keys]. *)
Definition loaded_record (F : format) (i : hitem) : res brecord :=
  match i with
  | HDset _ _ => Raise AttributeError
  | HGroup dsets attrs =>
      rlet ds := mapM (fun p => rlet v := dset_value (snd p) in Ok (fst p, v)) dsets in
      let at_ := map (fun p => (fst p, attr_value (snd p)))
                     (filter (fun p => negb (str_mem (fst p) (class_attrs ++ bool_fields F))) attrs) in
      rlet bools := mapM (fun k => rlet a := dict_item attrs k in Ok (k, attr_value a))
                         (bool_fields F) in
      Ok (dict_update (dict_update (dict_update [] ds) at_) bools)
  end.

(** The state of site_get_max_dims (base_format.py:586-588). *)
Record max_dims : Type := mk_max {
  md_dims : dict (list nat);
  md_seqs : Z;
  md_beams : nat
}.

(** [map(max, a, b)]: as long as the shorter (base_format.py:625-628). *)
Fixpoint max_map (a b : list nat) : list nat :=
  match a, b with
  | x :: a', y :: b' => Nat.max x y :: max_map a' b'
  | _, _ => []
  end.

(** base_format.py:605-618: the shape of a field of a group; None: KeyError, which
    is passed over.  The product does not overflow for arrays that exist. *)
Definition field_shape (dsets : dict hdset) (k : pystr) : res (option (list nat)) :=
  match dict_get dsets k with
  | None => Ok None
  | Some d =>
      if str_eqb k s_ppo then
        match dict_get dsets (str "data_dimensions") with
        | None => Ok None
        | Some dd =>
            rlet n := array_int (BArr (hd_type dd) (hd_shape dd) (hd_data dd)) 1 in
            match dict_get dsets (str "pulses") with
            | None => Ok None
            | Some p =>
                let actual := Z.of_nat (size (hd_shape d)) in
                if negb (actual =? n * Z.of_nat (size (hd_shape p))) && negb (actual =? 0) then
                  if actual =? 1 then Ok (Some [0%nat]) else Raise ValueError
                else Ok (Some (hd_shape d))
            end
        end
      else Ok (Some (hd_shape d))
  end.

(** base_format.py:596-628: one field of one record.  A record that is a dataset
    has no fields. *)
Definition max_field (i : hitem) (first : bool) (k : pystr) (m : max_dims) : res max_dims :=
  match dict_get (item_attrs i) k with
  | Some a =>
      if str_eqb k (str "num_sequences") then
        rlet z := scalar_int (attr_value a) in
        Ok (mk_max (md_dims m) (Z.max (md_seqs m) z) (md_beams m))
      else Ok m
  | None =>
      match i with
      | HDset _ _ => Raise ValueError
      | HGroup dsets _ =>
          rlet s := field_shape dsets k in
          match s with
          | None => Ok m
          | Some s =>
              if first then
                let d := dict_set (md_dims m) k s in
                if str_eqb k (str "beam_nums") then
                  match s with
                  | [] => Raise IndexError
                  | n :: _ => Ok (mk_max d (md_seqs m) (Nat.max n (md_beams m)))
                  end
                else Ok (mk_max d (md_seqs m) (md_beams m))
              else
                rlet old := dict_item (md_dims m) k in
                Ok (mk_max (dict_set (md_dims m) k (max_map old s)) (md_seqs m) (md_beams m))
          end
      end
  end.

(** base_format.py:595-628: the fields of one record. *)
Fixpoint max_fields (i : hitem) (first : bool) (ks : list pystr) (m : max_dims) : res max_dims :=
  match ks with
  | [] => Ok m
  | k :: ks' => rlet m' := max_field i first k m in max_fields i first ks' m'
  end.

(** base_format.py:594-628: all records. *)
Fixpoint max_records (items : dict hitem) (first : bool) (ks : list pystr) (m : max_dims) : res max_dims :=
  match items with
  | [] => Ok m
  | (_, i) :: items' =>
      rlet m' := max_fields i first ks m in max_records items' false ks m'
  end.

(** base_format.py:553-629 site_get_max_dims. *)
Definition base_max_dims (f : hfile) (unshared : list pystr) : res max_dims :=
  max_records (members f) true unshared (mk_max (map (fun k => (k, [])) unshared) 0 0%nat).

(** borealis_formats.py:761-766, 1084-1088, 1393-1397, 2392-2396: the dimensions
    field of the first record, unpacked into [n] numbers. *)
Definition first_dims (f : hfile) (k : pystr) (n : nat) : res (list nat) :=
  match members f with
  | [] => Raise IndexError
  | (_, HDset _ _) :: _ => Raise ValueError
  | (_, HGroup dsets _) :: _ =>
      rlet d := dict_item dsets k in
      match hd_shape d with
      | [] => Raise TypeError
      | [m] =>
          if Nat.eqb m n && is_int_type (hd_type d) then
            mapM (fun c => match c with CZ z => reshape_dim z | _ => Raise OutOfModel end) (hd_data d)
          else if is_int_type (hd_type d) then Raise ValueError else Raise OutOfModel
      | _ => Raise OutOfModel
      end
  end.

(** The overriding site_get_max_dims: borealis_formats.py:738-774 (rawacf),
    2365-2404 (rawacf 0.7), 1062-1094 (bfiq), 1369-1403 (antennas_iq).
    max_num_beams is that of the first record (base_format.py:620-623). *)
Definition site_max_dims (g : generation) (t : filetype) (f : hfile) (unshared : list pystr)
    : res max_dims :=
  rlet m := base_max_dims f unshared in
  let seqs := Z.to_nat (md_seqs m) in
  match t with
  | BRawacf =>
      rlet l := first_dims f (match g with
                              | G7 => str "data_dimensions"
                              | _ => str "correlation_dimensions"
                              end) 3 in
      let d := [md_beams m; nth 1 l 0%nat; nth 2 l 0%nat] in
      Ok (mk_max (dict_update (md_dims m) (map (fun k => (k, d)) acf_fields)) (md_seqs m) (md_beams m))
  | Bfiq =>
      rlet l := first_dims f (str "data_dimensions") 4 in
      let d := [nth 0 l 0%nat; seqs; md_beams m; nth 3 l 0%nat] in
      Ok (mk_max (dict_set (md_dims m) (str "data") d) (md_seqs m) (md_beams m))
  | AntennasIq | Rawrf =>
      rlet l := first_dims f (str "data_dimensions") 3 in
      let d := [nth 0 l 0%nat; seqs; nth 2 l 0%nat] in
      Ok (mk_max (dict_set (md_dims m) (str "data") d) (md_seqs m) (md_beams m))
  end.

(** borealis_restructure.py:349-369: one shared field, from the first record.  A text
    that h5py gives as [str] is a TypeError. *)
Definition first_shared (F : format) (i : hitem) (data : brecord) (k : pystr) : res bval :=
  rlet v := dict_item data k in
  if single_string F k then
    match v with
    | BScalar BBytes (CS b) =>
        match utf8_dec b with Some s => Ok (BText s) | None => Raise UnicodeDecodeError end
    | BEmpty BBytes => Ok (BText [])
    | _ => Raise TypeError
    end
  else if array_string F k then
    match i with
    | HGroup dsets _ => rlet d := dict_item dsets k in texts d
    | HDset _ _ => Raise ValueError
    end
  else Ok v.

(** An array-specific field under construction: a constant, or the lengths of a
    field, one per record so far, and the initial value (borealis_restructure.py:
    371-391). *)
Inductive spec_field : Type :=
| SConst (v : bval)
| SCount (field : pystr) (t : btype) (data : list cell).

(** borealis_restructure.py:371-386: the fields of array_specific_fields_generate;
    those of array_specific_fields_iterative_generator (borealis_formats.py:894-901,
    1200-1207, 1506-1513, 1766-1775, 1855-1864, 1942-1951) are the counts. *)
Definition spec_init (F : format) (n : nat) (data : brecord) (p : pystr * agen)
    : res (pystr * spec_field) :=
  match snd p with
  | GCounts f =>
      rlet t := dict_item (fm_single F) (fst p) in
      rlet c := fill_cell t in
      Ok (fst p, SCount f t (repeat c n))
  | GNames _ _ => rlet v := agen_eval [(str "tmp", data)] (snd p) in Ok (fst p, SConst v)
  end.

(** [a[i] = v] on the elements of a one-dimensional array
    (borealis_restructure.py:391). *)
Definition put (l : list cell) (i : nat) (c : cell) : res (list cell) :=
  if Nat.ltb i (length l) then Ok (firstn i l ++ c :: skipn (S i) l) else Raise IndexError.

(** borealis_restructure.py:390-391: the lengths for one record. *)
Definition spec_fill (r : brecord) (rec : nat) (p : pystr * spec_field) : res (pystr * spec_field) :=
  match snd p with
  | SConst _ => Ok p
  | SCount f t data =>
      rlet v := dict_item r f in
      rlet n := blen v in
      rlet data' := put data rec (CZ (Z.of_nat n mod 2 ^ 32)) in
      Ok (fst p, SCount f t data')
  end.

(** borealis_restructure.py:396-421: the initial array of one unshared field. *)
Definition file_temp_init (F : format) (n : nat) (p : pystr * list nat) : res (pystr * temp_array) :=
  rlet t := field_type F (fst p) in
  rlet c := fill_cell t in
  Ok (fst p, mk_temp t (snd p) (repeat c (n * size (snd p)))).

(** As [assigned]; numpy decodes a byte string into a text array as ASCII
    (borealis_restructure.py:439). *)
Definition assigned_attr (t : btype) (v : bval) : res (list nat * list cell) :=
  match t, v with
  | BStr, BScalar BBytes (CS b) =>
      if forallb (fun c => (0 <=? c) && (c <? 128)) b then Ok ([], [CS (store_text b)])
      else Raise UnicodeDecodeError
  | _, _ => assigned t v
  end.

(** borealis_restructure.py:425-439: one field of one record. *)
Definition file_temp_fill (data : brecord) (rec : nat) (p : pystr * temp_array)
    : res (pystr * temp_array) :=
  let '(k, a) := p in
  rlet v := dict_item data k in
  rlet sb := assigned_attr (ta_type a) v in
  let ss := if is_ndarray v then fst sb else [] in
  rlet cells := assign (ta_dims a) (ta_data a) rec ss (fst sb) (snd sb) in
  Ok (k, mk_temp (ta_type a) (ta_dims a) cells).

(** The arrays under construction (borealis_restructure.py:316). *)
Record building : Type := mk_building {
  bu_shared : brecord;
  bu_spec : list (pystr * spec_field);
  bu_temps : list (pystr * temp_array)
}.

(** borealis_restructure.py:329-439: one record; [st] is None for the first. *)
Definition build_record (F : format) (n : nat) (dims : dict (list nat)) (i : hitem) (rec : nat)
    (st : option building) : res building :=
  rlet loaded := loaded_record F i in
  rlet rs := reshape_site_arrays F [(str "tmp", loaded)] in
  match rs with
  | [(_, data)] =>
      rlet ss := match st with
                 | Some st => Ok (bu_shared st, bu_spec st)
                 | None =>
                     rlet shared := mapM (fun k => rlet v := first_shared F i data k in Ok (k, v))
                                         (fm_shared F) in
                     rlet spec := mapM (spec_init F n data) (fm_array_gen F) in
                     Ok (shared, spec)
                 end in
      rlet spec := mapM (spec_fill loaded rec) (snd ss) in
      rlet temps := match st with
                    | Some st => Ok (bu_temps st)
                    | None => mapM (file_temp_init F n) dims
                    end in
      rlet temps := mapM (file_temp_fill data rec) temps in
      Ok (mk_building (fst ss) spec temps)
  | _ => Raise OutOfModel
  end.

(** borealis_restructure.py:327-439: the loop over the record names. *)
Fixpoint build_loop (F : format) (n : nat) (dims : dict (list nat)) (f : hfile) (names : list pystr)
    (rec : nat) (st : option building) : res (option building) :=
  match names with
  | [] => Ok st
  | name :: names' =>
      rlet i := dict_item (h_items f) name in
      rlet st' := build_record F n dims i rec st in
      build_loop F n dims f names' (rec + 1) (Some st')
  end.

(** The finished dictionary of arrays (borealis_restructure.py:316, 441-446). *)
Definition built (n : nat) (st : building) : brecord :=
  dict_update (dict_update (dict_update [] (bu_shared st))
    (map (fun p => (fst p, match snd p with
                           | SConst v => v
                           | SCount _ t data => BArr t [n] data
                           end)) (bu_spec st)))
    (map (fun p => (fst p, temp_value n (snd p))) (bu_temps st)).

(** borealis_restructure.py:316-445: the arrays of a site file, checked. *)
Definition arrays_of_file (g : generation) (t : filetype) (f : hfile) : res brecord :=
  let F := format_class g t in
  let names := record_names f in
  let n := length names in
  rlet unshared := unshared_fields F in
  rlet m := site_max_dims g t f unshared in
  rlet st := build_loop F n (md_dims m) f names 0 None in
  let a := match st with Some st => built n st | None => [] end in
  rlet _ := check_array_dict F a in
  Ok a.

(** TypeError becomes BorealisRestructureError (borealis_restructure.py:448-452). *)
Definition wrap_type {A} (r : res A) : res A :=
  match r with Raise TypeError => Raise BorealisRestructureError | r => r end.

(** borealis_restructure.py:302-452 _site_to_array_restructure. *)
Definition site_to_array_file (g : generation) (t : filetype) (fs : hfs) (f : hfile) (out : pystr)
    (compression : option pystr) : hfs * res unit :=
  match arrays_of_file g t f with
  | Raise e => (fs, wrap_type (Raise e))
  | Ok a =>
      let '(fs', r) := write_arrays available (format_class g t) fs out a compression in
      (fs', wrap_type r)
  end.

(** ** The class *)

(** borealis_restructure.py:112: the file types that can be restructured. *)
Definition restructured_type (s : pystr) : option filetype :=
  match filetype_of s with
  | Some Rawrf => None
  | o => o
  end.

(** borealis_restructure.py:128-131: structure, version and format of the input.  A
    version that is not in borealis_version_dict is a KeyError. *)
Definition input_format (f : hfile) : res (pystr * generation) :=
  let structure := borealis_structure (record_names f) in
  rlet v := file_version f structure in
  match version_generation v with
  | None => Raise KeyError
  | Some g => Ok (structure, g)
  end.

(** borealis_restructure.py:79-133 BorealisRestructure.__init__ and 168-188
    restructure. *)
Definition restructure (fs : hfs) (infile outfile ft structure : pystr) (compression : option pystr)
    : hfs * res unit :=
  match restructured_type ft with
  | None => (fs, Raise BorealisFileTypeError)
  | Some t =>
      if negb (str_eqb structure (str "site") || str_eqb structure (str "array")) then
        (fs, Raise BorealisStructureError)
      else if str_eqb infile outfile then (fs, Raise ConvertFileOverWriteError)
      else
        match (rlet f := h5_open fs infile in rlet i := input_format f in Ok (f, i)) with
        | Raise e => (fs, Raise e)
        | Ok (f, (have, g)) =>
            let F := format_class g t in
            if str_eqb have structure then (fs, Ok tt)
            else if negb (fm_restructureable F) then (fs, Raise BorealisRestructureError)
            else if str_eqb structure (str "site") then array_to_site_file F fs f outfile compression
            else site_to_array_file g t fs f outfile compression
        end
  end.
End Restructure.
