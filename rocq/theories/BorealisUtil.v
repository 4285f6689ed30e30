(** Model of the two field name checks of pydarnio/borealis/borealis_utilities.py
    for any list of tables.  BorealisChecks has them for the two tables that the
    readers and writers pass. *)
From Coq Require Import String ZArith List Bool.
From Verif Require Import Base SDarnFormats BorealisTypes BorealisFormats BorealisChecks.
Import ListNotations.
Open Scope list_scope.
Open Scope Z_scope.

(** [set(...)] of a list, a set or the names of a dictionary
    (borealis_utilities.py:102): each element once. *)
Fixpoint set_of (l : list pystr) : list pystr :=
  match l with
  | [] => []
  | k :: l' => k :: filter (fun x => negb (str_eqb x k)) (set_of l')
  end.

(** borealis_utilities.py:81-103 set_diff: [set(dict1) - set(dict2)]. *)
Definition names_diff (a b : list pystr) : list pystr := set_diff (set_of a) (set_of b).

(** borealis_utilities.py:105-128 dict_list2set.  [set.union] is a method called
    on its first argument, so that without any argument it raises TypeError. *)
Definition tables2set (tables : list (dict btype)) : res (list pystr) :=
  match tables with
  | [] => Raise TypeError
  | _ => Ok (fold_left (fun s t => set_union s (map fst t)) tables [])
  end.

(** borealis_utilities.py:161-166: the loop that collects the missing fields. *)
Definition missing_fields (tables : list (dict btype)) (names : list pystr) : list pystr :=
  fold_left (fun s t =>
    let diff := names_diff (map fst t) names in
    if negb (zlen diff =? 0) then set_union s diff else s) tables [].

(** borealis_utilities.py:168-169: [reduce] adds the lengths up and raises
    TypeError if there is none. *)
Definition reduce_lengths (tables : list (dict btype)) : res Z :=
  match tables with
  | [] => Raise TypeError
  | t :: ts => Ok (fold_left (fun a t => a + zlen t) ts (zlen t))
  end.

(** borealis_utilities.py:130-191 missing_field_check.  The record name only goes
    into the message. *)
Definition tables_missing_check (tables : list (dict btype)) (names : list pystr) : res unit :=
  let missing := missing_fields tables names in
  rlet n := reduce_lengths tables in
  if zlen missing =? n then Raise BorealisStructureError
  else if 0 <? zlen missing then Raise (BorealisFieldMissingError missing)
  else Ok tt.

(** borealis_utilities.py:196-230 extra_field_check. *)
Definition tables_extra_check (tables : list (dict btype)) (names : list pystr) : res unit :=
  rlet struct := tables2set tables in
  let extra := names_diff names struct in
  if 0 <? zlen extra then Raise (BorealisExtraFieldError extra) else Ok tt.
