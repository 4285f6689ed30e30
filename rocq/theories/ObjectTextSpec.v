(** Specification for C75: a text with fields in braces, each to be replaced by its value. *)
From Coq Require Import String ZArith List.
From Verif Require Import Base SDarnFormats.
Import ListNotations.
Open Scope list_scope.
Open Scope Z_scope.

(** The value of a field. *)
Fixpoint value_of (name : pystr) (kv : list (pystr * pystr)) : pystr :=
  match kv with
  | [] => []
  | (k, v) :: kv' => if list_eq_dec Z.eq_dec name k then v else value_of name kv'
  end.

(** [inside] is what has been seen of the name of a field, if an opening brace (123) has
    no closing brace (125) yet. *)
Fixpoint fill (t : pystr) (inside : option pystr) (kv : list (pystr * pystr)) : pystr :=
  match t, inside with
  | [], _ => []
  | c :: t', None => if c =? 123 then fill t' (Some []) kv else c :: fill t' None kv
  | c :: t', Some n => if c =? 125 then value_of n kv ++ fill t' None kv else fill t' (Some (n ++ [c])) kv
  end.

Definition filled (t : string) (kv : list (string * pystr)) : pystr :=
  fill (str t) None (map (fun p => (str (fst p), snd p)) kv).
