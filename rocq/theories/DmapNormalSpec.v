(** Specification for C92: files that come out the same once they have been read
    and written. *)
From Coq Require Import ZArith List Bool.
From Verif Require Import Base DmapTypes DmapSpec DmapWriteSpec.
Import ListNotations.
Open Scope Z_scope.

(** ASCII texts, chars below 128.  Any float. *)
Definition mild_scalar (s : dscalar) : Prop :=
  plain_text (sc_name s) /\
  match sc_fmt s, sc_value s with
  | Fc, VInt z => z < 128
  | Fs, VStr t => plain_text t
  | _, _ => True
  end.

(** ASCII name; an array without elements is not of chars and all its sizes are 0. *)
Definition mild_array (a : darray) : Prop :=
  plain_text (ar_name a) /\
  (Forall (fun n => 1 <= n) (ar_shape a) \/ (ar_fmt a <> Fc /\ Forall (fun n => n = 0) (ar_shape a))).

(** Names may occur more than once, but no name is that of a scalar and of an
    array. *)
Definition mild_block (b : block) : Prop :=
  Forall mild_scalar (fst b) /\ Forall mild_array (snd b) /\
  forall s a, In s (fst b) -> In a (snd b) -> sc_name s <> ar_name a.
