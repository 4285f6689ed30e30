(** Model of the field checks of pydarnio/borealis/borealis_utilities.py. *)
From Coq Require Import String ZArith List Bool.
From Verif Require Import Base SDarnFormats BorealisTypes BorealisFormats.
Import ListNotations.
Open Scope list_scope.
Open Scope Z_scope.

(** borealis_utilities.py:81-103 set_diff: [set(a) - set(b)].  A set is a list
    without repetitions here; its order means nothing. *)
Definition set_diff (a b : list pystr) : list pystr :=
  filter (fun k => negb (str_mem k b)) a.

(** [a.union(b)] (borealis_utilities.py:166). *)
Definition set_union (a b : list pystr) : list pystr := a ++ set_diff b a.

(** borealis_utilities.py:105-128 dict_list2set, for the two tables that all
    callers pass (441, 488). *)
Definition dict_list2set (attrs dsets : dict btype) : list pystr :=
  set_union (map fst attrs) (map fst dsets).

(** borealis_utilities.py:130-191 missing_field_check. *)
Definition missing_field_check (attrs dsets : dict btype) (names : list pystr) : res unit :=
  let missing := set_union (set_diff (map fst attrs) names) (set_diff (map fst dsets) names) in
  if zlen missing =? zlen attrs + zlen dsets then Raise BorealisStructureError
  else if 0 <? zlen missing then Raise (BorealisFieldMissingError missing)
  else Ok tt.

(** borealis_utilities.py:196-230 extra_field_check. *)
Definition extra_field_check (attrs dsets : dict btype) (names : list pystr) : res unit :=
  let extra := set_diff names (dict_list2set attrs dsets) in
  if 0 <? zlen extra then Raise (BorealisExtraFieldError extra) else Ok tt.

(** borealis_utilities.py:262-266, 322-326: the attributes of a wrong type, in
    table order. *)
Fixpoint wrong_attributes (attrs : dict btype) (r : brecord) : res (list pystr) :=
  match attrs with
  | [] => Ok []
  | (param, t) :: attrs' =>
      rlet v := dict_item r param in
      rlet wrong :=
        (if has_type v t then Ok false
         else match bshape v with
              | None => Raise AttributeError
              | Some None => Ok false
              | Some (Some _) => Ok true
              end) in
      rlet rest := wrong_attributes attrs' r in
      Ok (if wrong : bool then param :: rest else rest)
  end.

(** borealis_utilities.py:268-272, 343-348: the datasets of a wrong type;
    [text_ok] tells whether arrays of [np.str_] pass (348). *)
Fixpoint wrong_datasets (text_ok : bool) (dsets : dict btype) (r : brecord)
  : res (list pystr) :=
  match dsets with
  | [] => Ok []
  | (param, t) :: dsets' =>
      rlet v := dict_item r param in
      match bdtype v with
      | None => Raise AttributeError
      | Some d =>
          rlet rest := wrong_datasets text_ok dsets' r in
          Ok (if negb (btype_eqb d t) && negb (text_ok && btype_eqb d BNpStr)
              then param :: rest else rest)
      end
  end.

(** borealis_utilities.py:234-275 record_incorrect_types_check.  Updating the
    dictionary of wrong types with the datasets keeps the keys found before. *)
Definition record_incorrect_types_check (attrs dsets : dict btype) (r : brecord) : res unit :=
  rlet w1 := wrong_attributes attrs r in
  rlet w2 := wrong_datasets false dsets r in
  let wrong := set_union w1 w2 in
  if 0 <? zlen wrong then Raise (BorealisDataFormatTypeError wrong) else Ok tt.

(** [isinstance(file_data[param], np.ndarray) for param in ...]
    (borealis_utilities.py:306-307, 329-330). *)
Fixpoint array_flags (params : list pystr) (r : brecord) : res (list bool) :=
  match params with
  | [] => Ok []
  | p :: ps =>
      rlet v := dict_item r p in
      rlet rest := array_flags ps r in Ok (is_ndarray v :: rest)
  end.

(** The name of the field (borealis_utilities.py:349). *)
Definition s_ppo : pystr := str "pulse_phase_offset".

(** borealis_utilities.py:349-351: the tolerated broken pulse_phase_offset. *)
Definition ppo_tolerated (r : brecord) : bool :=
  match dict_get r s_ppo with
  | Some (BArr BI64 [2%nat] _) => true
  | _ => false
  end.

(** borealis_utilities.py:277-356 array_incorrect_types_check.  The keys are
    sorted in the code, which only affects the messages. *)
Definition array_incorrect_types_check (attrs dsets : dict btype) (r : brecord) : res unit :=
  rlet flags := array_flags (map fst attrs) r in
  if existsb (fun b => b) flags then Raise BorealisStructureError else
  rlet w1 := wrong_attributes attrs r in
  rlet flags := array_flags (map fst dsets) r in
  if negb (forallb (fun b => b) flags) then Raise BorealisStructureError else
  rlet w2 := wrong_datasets true dsets r in
  let wrong := set_union w1 w2 in
  let wrong := if str_mem s_ppo wrong && ppo_tolerated r
               then filter (fun k => negb (str_eqb k s_ppo)) wrong else wrong in
  if 0 <? zlen wrong then Raise (BorealisDataFormatTypeError wrong) else Ok tt.

(** borealis_utilities.py:380-381: the shapes of the unshared fields; [None] is the
    shape of an h5py.Empty. *)
Fixpoint shapes_of (params : list pystr) (r : brecord) : res (list (option (list nat))) :=
  match params with
  | [] => Ok []
  | p :: ps =>
      rlet v := dict_item r p in
      match bshape v with
      | Some s => rlet rest := shapes_of ps r in Ok (s :: rest)
      | None => Raise AttributeError
      end
  end.

(** [v[0]] of a shape (borealis_utilities.py:385). *)
Definition first_dim (s : option (list nat)) : res nat :=
  match s with
  | None => Raise TypeError
  | Some [] => Raise IndexError
  | Some (d :: _) => Ok d
  end.

(** borealis_utilities.py:385: is each first dimension that of the first field? *)
Fixpoint all_first_dims (shapes : list (option (list nat))) (first : option (list nat)) : res bool :=
  match shapes with
  | [] => Ok true
  | s :: rest =>
      rlet d := first_dim s in
      rlet n := first_dim first in
      rlet b := all_first_dims rest first in
      Ok (Nat.eqb d n && b)
  end.

(** borealis_utilities.py:358-395 array_num_records_check. *)
Definition array_num_records_check (unshared : list pystr) (r : brecord) : res unit :=
  rlet shapes := shapes_of unshared r in
  match shapes with
  | [] => Ok tt
  | first :: _ =>
      match all_first_dims shapes first with
      | Ok true => Ok tt
      | Ok false | Raise IndexError => Raise BorealisNumberOfRecordsError
      | Raise e => Raise e
      end
  end.

(** borealis_utilities.py:397-446 check_arrays. *)
Definition check_arrays (attrs dsets : dict btype) (unshared : list pystr) (r : brecord)
  : res unit :=
  rlet _ := missing_field_check attrs dsets (map fst r) in
  rlet _ := extra_field_check attrs dsets (map fst r) in
  rlet _ := array_incorrect_types_check attrs dsets r in
  array_num_records_check unshared r.

(** borealis_utilities.py:495-502: the three checks of one record. *)
Definition check_record (attrs dsets : dict btype) (r : brecord) : res unit :=
  rlet _ := missing_field_check attrs dsets (map fst r) in
  rlet _ := extra_field_check attrs dsets (map fst r) in
  record_incorrect_types_check attrs dsets r.

(** borealis_utilities.py:491-511: the loop, with the three dictionaries of bad
    records. *)
Fixpoint check_loop (attrs dsets : dict btype) (rs : brecords)
    (missing extra incorrect : dict (list pystr))
  : res (dict (list pystr) * dict (list pystr) * dict (list pystr)) :=
  match rs with
  | [] => Ok (missing, extra, incorrect)
  | (name, r) :: rs' =>
      match check_record attrs dsets r with
      | Ok _ => check_loop attrs dsets rs' missing extra incorrect
      | Raise (BorealisFieldMissingError l) =>
          check_loop attrs dsets rs' (dict_set missing name l) extra incorrect
      | Raise (BorealisExtraFieldError l) =>
          check_loop attrs dsets rs' missing (dict_set extra name l) incorrect
      | Raise (BorealisDataFormatTypeError l) =>
          check_loop attrs dsets rs' missing extra (dict_set incorrect name l)
      | Raise e => Raise e
      end
  end.

(** borealis_utilities.py:448-514 check_records.  [all_records_good] is False
    exactly when one of the dictionaries has an entry. *)
Definition check_records (attrs dsets : dict btype) (rs : brecords) : res unit :=
  rlet r := check_loop attrs dsets rs [] [] [] in
  match r with
  | ([], [], []) => Ok tt
  | (missing, extra, incorrect) => Raise (BorealisBadRecordsError missing extra incorrect)
  end.

(** borealis_utilities.py:619-628 pulse_phase_offset_array_fix.  [np.zeros] of a
    size-0 shape has no elements. *)
Definition ppo_array_fix (r : brecord) : res brecord :=
  match dict_get r s_ppo with
  | None => Ok r
  | Some v =>
      match bshape v with
      | None => Raise AttributeError
      | Some (Some [2%nat]) =>
          rlet n := dict_item r (str "num_sequences") in
          match bshape n with
          | Some (Some (d :: _)) => Ok (dict_set r s_ppo (BArr BF32 [d; 0%nat] []))
          | Some (Some []) => Raise IndexError
          | Some None => Raise TypeError
          | None => Raise AttributeError
          end
      | Some _ => Ok r
      end
  end.

(** [ppo.shape != rec['pulses'].shape] for the shapes of borealis_utilities.py:639;
    [None] inside is Python's None. *)
Definition shape_eqb (a b : option (list nat)) : bool :=
  match a, b with
  | Some x, Some y => if list_eq_dec Nat.eq_dec x y then true else false
  | None, None => true
  | _, _ => false
  end.

(** borealis_utilities.py:635-640: one record. *)
Definition ppo_site_fix_record (r : brecord) : res brecord :=
  match dict_get r s_ppo with
  | None => Ok r
  | Some v =>
      match bshape v with
      | None => Raise AttributeError
      | Some sv =>
          rlet p := dict_item r (str "pulses") in
          match bshape p with
          | None => Raise AttributeError
          | Some sp =>
              if shape_eqb sv sp then Ok r
              else match sp with
                   | None => Raise OutOfModel
                   | Some s => Ok (dict_set r s_ppo (BArr BF32 s (repeat (CZ 0) (size s))))
                   end
          end
      end
  end.

(** borealis_utilities.py:630-640 pulse_phase_offset_site_fix. *)
Fixpoint ppo_site_fix (rs : brecords) : res brecords :=
  match rs with
  | [] => Ok []
  | (name, r) :: rs' =>
      rlet r' := ppo_site_fix_record r in
      rlet rest := ppo_site_fix rs' in Ok ((name, r') :: rest)
  end.

(** borealis_site.py:260-273, 481-489: the tables of the format and the check of
    all records (BorealisSiteRead.read_file and BorealisSiteWrite.write_file). *)
Definition check_site_records (F : format) (rs : brecords) : res unit :=
  rlet attrs := site_single_element_types F in
  rlet dsets := site_array_dtypes F in
  check_records attrs dsets rs.

(** borealis_array.py:239-251, 449-456: the same for array dictionaries. *)
Definition check_array_dict (F : format) (r : brecord) : res unit :=
  rlet attrs := array_single_element_types F in
  rlet dsets := array_array_dtypes F in
  rlet unshared := unshared_fields F in
  check_arrays attrs dsets unshared r.
