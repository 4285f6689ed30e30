(** Specification for C91: what records with shared shape lists amount to.
    Independent of the writer. *)
From Coq Require Import ZArith List Bool.
From Verif Require Import Base DmapTypes DmapSpec DmapWriteSpec DmapShare.
Import ListNotations.
Open Scope Z_scope.

(** The arrays of a record, in order. *)
Definition arrays_in (r : srecord) : list sarray :=
  flat_map (fun p => match snd p with SArray a => [a] | SScalar _ => [] end) r.

(** How many of some arrays have more than one dimension and the list [p]. *)
Definition turns (seen : list sarray) (p : nat) : nat :=
  length (filter (fun a => Nat.eqb (sa_shape a) p && (1 <? sa_dim a)) seen).

(** The list [p] after these arrays: reversed as often. *)
Definition list_after (h : heap) (seen : list sarray) (p : nat) : list Z :=
  if Nat.even (turns seen p) then h p else rev (h p).

(** The array with a list of its own, as it is after the arrays [seen]. *)
Definition own_array (h : heap) (seen : list sarray) (a : sarray) : darray :=
  mk_darray (sa_name a) (sa_value a) (sa_type a) (sa_fmt a) (sa_dim a) (list_after h seen (sa_shape a)).

(** Records without sharing: every array with the list as it is when its turn
    comes. *)
Inductive apart (h : heap) : list sarray -> srecord -> record -> Prop :=
| ap_nil seen : apart h seen [] []
| ap_scalar seen k s r r' : apart h seen r r' -> apart h seen ((k, SScalar s) :: r) ((k, IScalar s) :: r')
| ap_array seen k a r r' : apart h (seen ++ [a]) r r' ->
    apart h seen ((k, SArray a) :: r) ((k, IArray (own_array h seen a)) :: r').
Inductive all_apart (h : heap) : list sarray -> list srecord -> list record -> Prop :=
| aa_nil seen : all_apart h seen [] []
| aa_cons seen r r' rs rs' : apart h seen r r' -> all_apart h (seen ++ arrays_in r) rs rs' ->
    all_apart h seen (r :: rs) (r' :: rs').

(** The record as it is before anything is written. *)
Definition as_is (h : heap) (r : srecord) : record :=
  map (fun p => (fst p, match snd p with
                        | SScalar s => IScalar s
                        | SArray a => IArray (own_array h [] a)
                        end)) r.

(** An array read with its sizes in the other order; the elements as they were. *)
Definition other_way (a : darray) : darray :=
  let v := ar_value a in
  mk_darray (ar_name a) (mk_ndarray (nd_dtype v) (nd_be v) (rev (nd_shape v)) (nd_data v))
            (ar_type a) (ar_fmt a) (ar_dim a) (rev (ar_shape a)).
Definition block_other_way (b : block) : block := (fst b, map other_way (snd b)).

(** [x], [y], [x], [y], ... *)
Fixpoint alternating {A} (n : nat) (x y : A) : list A :=
  match n with O => [] | S n' => x :: alternating n' y x end.
