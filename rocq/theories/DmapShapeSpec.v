(** Specification for C79: the shape of the arrays read from any file. *)
From Coq Require Import ZArith List.
From Verif Require Import Base BytesSpec DmapTypes DmapSpec.
Import ListNotations.
Open Scope Z_scope.

(** The elements are those of the bytes [eb], one after the other. *)
Definition elements (a : darray) (eb : bytes) : Prop :=
  wire_list (wire_int (wire_signed (ar_fmt a)) (wire_size (ar_fmt a)))
            (nd_data (ar_value a)) eb.

(** No size is negative: the array has the sizes of the file, and its elements
    stand somewhere in the file.  Sizes 0 are only possible for slist. *)
Definition plainly_sized (buf : bytes) (a : darray) : Prop :=
  nd_shape (ar_value a) = ar_shape a /\
  Forall (fun n => 1 <= n \/ (ar_name a = s_slist /\ n = 0)) (ar_shape a) /\
  exists p eb, occurs buf p eb /\ elements a eb.

(** One size of slist is negative: the array holds all the bytes from some
    position to the end of the file, however many records follow there, and
    takes that size from their number. *)
Definition inferred_size (buf : bytes) (a : darray) : Prop :=
  ar_name a = s_slist /\
  exists before n m after,
    ar_shape a = before ++ n :: after /\ n < 0 /\
    nd_shape (ar_value a) = before ++ m :: after /\ 0 <= m /\
    Forall (fun k => 1 <= k) (before ++ after) /\
    exists front rest, buf = front ++ rest /\ elements a rest.

(** An array as the reader gives it, whatever the file. *)
Definition array_read (buf : bytes) (a : darray) : Prop :=
  ar_fmt a <> Fs /\ ar_type a = wire_code (ar_fmt a) /\
  nd_dtype (ar_value a) = wire_dtype (ar_fmt a) /\ nd_be (ar_value a) = false /\
  ar_dim a = zlen (ar_shape a) /\ 1 <= zlen (ar_shape a) <= 32 /\
  zlen (nd_data (ar_value a)) = product (nd_shape (ar_value a)) /\
  (plainly_sized buf a \/ inferred_size buf a).
