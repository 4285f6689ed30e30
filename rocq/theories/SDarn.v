(** Model of pydarnio/dmap/superdarn.py: the field checks, SDarnRead and
    SDarnWrite. *)
From Coq Require Import ZArith List Bool.
From Verif Require Import Base DmapTypes DmapRead DmapWrite Conversions SDarnFormats.
Import ListNotations.
Open Scope Z_scope.

(** ** SDarnUtilities *)

(** superdarn.py:80-101 dict_key_diff: the keys of the first dictionary that are
    not keys of the second.  A set is a list here; its order means nothing. *)
Definition dict_key_diff (keys1 keys2 : list pystr) : list pystr :=
  filter (fun k => negb (str_mem k keys2)) keys1.

(** superdarn.py:107-131 dict_list2set: [set.union] of the key sets; without any
    set it raises TypeError. *)
Definition dict_list2set (dict_list : list group) : res (list pystr) :=
  match dict_list with
  | [] => Raise TypeError
  | _ => Ok (flat_map (map fst) dict_list)
  end.

(** [==] on dictionaries, which ignores the order (used by the [not in] of
    superdarn.py:173). *)
Definition group_eqb (a b : group) : bool :=
  (zlen a =? zlen b) &&
  forallb (fun p => match dict_get b (fst p) with
                    | Some f => fmt_eqb f (snd p)
                    | None => false
                    end) a.

(** superdarn.py:171-181: the missing fields, over all groups that are not
    optional. *)
Fixpoint missing_fields (file_struct_list : list group) (keys : list pystr)
    (optional_list : list group) : list pystr :=
  match file_struct_list with
  | [] => []
  | file_struct :: rest =>
      let missing := missing_fields rest keys optional_list in
      if existsb (group_eqb file_struct) optional_list then missing
      else
        let diff_fields := dict_key_diff (map fst file_struct) keys in
        if (zlen diff_fields =? 0) || (zlen diff_fields =? zlen file_struct)
        then missing
        else diff_fields ++ missing
  end.

(** superdarn.py:134-185 missing_field_check. *)
Definition missing_field_check (file_struct_list : list group) (r : record)
    (rec_num : Z) (optional_list : list group) : res unit :=
  let missing := missing_fields file_struct_list (map fst r) optional_list in
  if 0 <? zlen missing then Raise (SuperDARNFieldMissingError rec_num missing)
  else Ok tt.

(** superdarn.py:188-213 extra_field_check. *)
Definition extra_field_check (file_struct_list : list group) (r : record)
    (rec_num : Z) : res unit :=
  rlet file_struct := dict_list2set file_struct_list in
  let extra_fields := dict_key_diff (map fst r) file_struct in
  if 0 <? zlen extra_fields then Raise (SuperDARNExtraFieldError rec_num extra_fields)
  else Ok tt.

(** superdarn.py:239-241: [complete_dict.update(file_struct)] for each group. *)
Definition complete_dict (file_struct_list : list group) : group :=
  fold_left (fun d g => fold_left (fun d p => dict_set d (fst p) (snd p)) g d)
            file_struct_list [].

(** [value.data_type_fmt] (superdarn.py:244); a plain value has no such
    attribute. *)
Definition item_fmt (it : item) : option fmt :=
  match it with
  | IScalar s => Some (sc_fmt s)
  | IArray a => Some (ar_fmt a)
  | IPlain _ => None
  end.

(** superdarn.py:242-245: the fields whose format differs from the declared
    one, in record order. *)
Fixpoint wrong_types (complete : group) (r : record) : res (list pystr) :=
  match r with
  | [] => Ok []
  | (param, it) :: r' =>
      match item_fmt it with
      | None => Raise AttributeError
      | Some f =>
          match dict_get complete param with
          | None => Raise KeyError
          | Some declared =>
              rlet rest := wrong_types complete r' in
              Ok (if fmt_eqb f declared then rest else param :: rest)
          end
      end
  end.

(** superdarn.py:219-248 incorrect_types_check. *)
Definition incorrect_types_check (file_struct_list : list group) (r : record)
    (rec_num : Z) : res unit :=
  rlet wrong := wrong_types (complete_dict file_struct_list) r in
  if 0 <? zlen wrong then Raise (SuperDARNDataFormatTypeError wrong rec_num)
  else Ok tt.

(** ** The file types *)

(** The six file types with a read and a write method (superdarn.py:415-543,
    612-849). *)
Inductive sd_type : Type := Iqdat | Rawacf | Fitacf | Snd | Grid | Map.

(** The [file_struct_list] of read_iqdat ... read_map (superdarn.py:425,
    441-445, 466-471, 488-491, 511-513, 535-540). *)
Definition read_struct_list (t : sd_type) : list group :=
  match t with
  | Iqdat => [iqdat_types]
  | Rawacf => [rawacf_types; rawacf_correlation_field;
               rawacf_cross_correlation_field; rawacf_digitizing_field;
               rawacf_fittex_field]
  | Fitacf => [fitacf_types; fitacf_optional_fields; fitacf_fitted_fields;
               fitacf_xcf_fields; fitacf_xcf_fields_fitacf3;
               fitacf_xcf_fields_fitacf2]
  | Snd => [snd_types; snd_optional_fields; snd_fitted_fields; snd_xcf_fields]
  | Grid => [grid_types; grid_fitted_fields; grid_extra_fields]
  | Map => [map_types; map_partial_fields; map_extra_fields; map_fit_fields;
            map_hmb_fields; map_model_fields]
  end.

(** The [optional_list] of the read methods (superdarn.py:426, 446, 472, 492,
    514, 541; default of line 393-394). *)
Definition read_optional_list (t : sd_type) : list group :=
  match t with
  | Fitacf => [fitacf_optional_fields]
  | Snd => [snd_optional_fields]
  | _ => []
  end.

(** The [file_struct_list] of write_iqdat ... write_map (superdarn.py:640,
    673-677, 715-721, 755-759, 797-799, 840-845). *)
Definition write_struct_list (t : sd_type) : list group :=
  match t with
  | Iqdat => [iqdat_types]
  | Rawacf => [rawacf_types; rawacf_correlation_field;
               rawacf_cross_correlation_field; rawacf_digitizing_field;
               rawacf_fittex_field]
  | Fitacf => [fitacf_types; fitacf_optional_fields; fitacf_fitted_fields;
               fitacf_xcf_fields; fitacf_xcf_fields_fitacf3;
               fitacf_xcf_fields_fitacf2]
  | Snd => [snd_types; snd_optional_fields; snd_fitted_fields; snd_xcf_fields]
  | Grid => [grid_types; grid_fitted_fields; grid_extra_fields]
  | Map => [map_types; map_extra_fields; map_partial_fields; map_fit_fields;
            map_model_fields; map_hmb_fields]
  end.

(** The [optional_list] of the write methods (superdarn.py:641, 678, 722, 760,
    800, 846). *)
Definition write_optional_list (t : sd_type) : list group :=
  match t with
  | Iqdat => [iqdat_optional_fields]
  | Rawacf => [rawacf_optional_fields]
  | Fitacf => [fitacf_optional_fields]
  | Snd => [snd_optional_fields]
  | Grid => [grid_optional_fields]
  | Map => [map_optional_fields]
  end.

(** ** SDarnRead *)

(** superdarn.py:366-370: the checks of _read_darn_record, in their order. *)
Definition read_checks (format_fields optional_list : list group) (r : record)
    (rec_num : Z) : res unit :=
  rlet _ := missing_field_check format_fields r rec_num optional_list in
  rlet _ := extra_field_check format_fields r rec_num in
  incorrect_types_check format_fields r rec_num.

(** superdarn.py:328-371 _read_darn_record: the cursor has moved past the record
    when a check fails, but the record is not kept. *)
Definition read_darn_record (format_fields optional_list : list group) (r : reader)
  : res unit * reader :=
  match read_record (rdr_buf r) (rdr_cursor r) with
  | (Raise e, c) =>
      (Raise e, mk_reader (rdr_buf r) c (rdr_records r) (rdr_rec_num r))
  | (Ok rec, c) =>
      match read_checks format_fields optional_list rec (rdr_rec_num r) with
      | Raise e =>
          (Raise e, mk_reader (rdr_buf r) c (rdr_records r) (rdr_rec_num r))
      | Ok _ =>
          (Ok tt, mk_reader (rdr_buf r) c (rdr_records r ++ [rec]) (rdr_rec_num r))
      end
  end.

(** superdarn.py:396-398: the loop; [fuel] bounds the number of iterations. *)
Fixpoint read_darn_loop (fuel : nat) (format_fields optional_list : list group)
    (r : reader) : res unit * reader :=
  if rdr_cursor r <? end_bytes (rdr_buf r) then
    match fuel with
    | O => (Raise OutOfFuel, r)
    | S fuel' =>
        match read_darn_record format_fields optional_list r with
        | (Raise e, r') => (Raise e, r')
        | (Ok _, r') =>
            read_darn_loop fuel' format_fields optional_list
              (mk_reader (rdr_buf r') (rdr_cursor r') (rdr_records r')
                         (rdr_rec_num r' + 1))
        end
    end
  else (Ok tt, r).

(** superdarn.py:373-398 _read_darn_records.  Unlike read_records it has no
    final comparison of the cursor with the number of bytes. *)
Definition read_darn_records (format_fields optional_list : list group) (r : reader)
  : res unit * reader :=
  read_darn_loop (S (length (rdr_buf r))) format_fields optional_list
    (mk_reader (rdr_buf r) (rdr_cursor r) (rdr_records r) 0).

(** superdarn.py:415-543 read_iqdat ... read_map: the dictionaries returned and
    the object afterwards. *)
Definition sd_read (t : sd_type) (r : reader) : res (list record) * reader :=
  match read_darn_records (read_struct_list t) (read_optional_list t) r with
  | (Raise e, r') => (Raise e, r')
  | (Ok _, r') => (dmap2dict (rdr_records r'), r')
  end.

(** superdarn.py:300-325 SDarnRead.__init__. *)
Definition sd_reader_init (fs : fsys) (src : source) : res reader :=
  dmap_reader_init fs src.

(** ** SDarnWrite *)

(** superdarn.py:594-610 SDarnWrite.__init__. *)
Definition sd_writer_new (rs : list record) (filename : pystr) : res writer :=
  rlet w := writer_new rs filename in
  rlet _ := empty_record_check w in
  Ok w.

(** superdarn.py:893-898: the checks before a record is converted. *)
Definition write_checks (file_struct_list optional_list : list group) (r : record)
    (rec_num : Z) : res unit :=
  rlet _ := extra_field_check file_struct_list r rec_num in
  rlet _ := missing_field_check file_struct_list r rec_num optional_list in
  incorrect_types_check file_struct_list r rec_num.

(** superdarn.py:890-900: the loop over the records from number [rec_num] on;
    appends to [acc] (= [self.dmap_bytearr]).  What was appended before a
    failure stays appended, and what the record that fails leaves. *)
Fixpoint structure_to_bytes (file_struct_list optional_list : list group)
    (rec_num : Z) (acc : bytes) (rs : list record)
  : res unit * bytes * list record :=
  match rs with
  | [] => (Ok tt, acc, [])
  | r :: rs' =>
      match write_checks file_struct_list optional_list r rec_num with
      | Raise e => (Raise e, acc, r :: rs')
      | Ok _ =>
          match dmap_record_to_bytes r with
          | (Raise e, r') => (Raise e, acc ++ record_rest r, r' :: rs')
          | (Ok b, r') =>
              match structure_to_bytes file_struct_list optional_list
                      (rec_num + 1) (acc ++ b) rs' with
              | (x, acc', rs'') => (x, acc', r' :: rs'')
              end
          end
      end
  end.

(** superdarn.py:851-900 superDARN_file_structure_to_bytes. *)
Definition superDARN_file_structure_to_bytes (w : writer)
    (file_struct_list optional_list : list group) : res unit * writer :=
  match structure_to_bytes file_struct_list optional_list 0
          (wr_bytearr w) (wr_records w) with
  | (x, acc, rs) => (x, mk_writer (wr_filename w) rs acc)
  end.

(** superdarn.py:612-849 write_iqdat ... write_map. *)
Definition sd_write (t : sd_type) (fs : fsys) (w : writer) (filename : pystr)
  : res unit * writer * fsys :=
  match filename_check w filename with
  | Raise e => (Raise e, w, fs)
  | Ok w1 =>
      match empty_record_check w1 with
      | Raise e => (Raise e, w1, fs)
      | Ok _ =>
          match superDARN_file_structure_to_bytes w1 (write_struct_list t)
                  (write_optional_list t) with
          | (Raise e, w2) => (Raise e, w2, fs)
          | (Ok _, w2) =>
              (Ok tt, w2, fs_write fs (wr_filename w2) (wr_bytearr w2))
          end
      end
  end.
