(** What is said about messages: parts that occur in them, and what can be told from them. *)
From Coq Require Import String ZArith List.
From Verif Require Import Base Bytes SDarnFormats.
Import ListNotations.
Open Scope list_scope.
Open Scope Z_scope.

(** [p] occurs in [m]. *)
Definition mentions (m p : pystr) : Prop := exists a b, m = a ++ p ++ b.

(** A name of printable ASCII characters without single quotes and backslashes. *)
Definition simple_name (s : pystr) : Prop := Forall (fun c => 32 <= c <= 126 /\ c <> 39 /\ c <> 92) s.
(** The name between single quotes. *)
Definition in_quotes (s : pystr) : pystr := [39] ++ s ++ [39].

(** A text of Unicode characters. *)
Definition unicode (s : pystr) : Prop := Forall (fun c => 0 <= c < 1114112) s.
