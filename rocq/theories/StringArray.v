(** Model of DmapRead.read_string_array (dmap.py:738-773), which no method calls: arrays of
    texts are refused before (dmap.py:610-616). *)
From Coq Require Import ZArith List Bool.
From Verif Require Import Base Bytes DmapTypes DmapRead.
Import ListNotations.
Open Scope Z_scope.

(** dmap.py:767-769: the values of the list comprehension. *)
Fixpoint read_times (buf : bytes) (f : fmt) (n : nat) : rd (list pyval) :=
  match n with
  | O => ret []
  | S n' => do v <- read_data buf f; do vs <- read_times buf f n'; ret (v :: vs)
  end.

(** dmap.py:738-773 read_string_array: the values of the array, and the list handed in as
    [shape] afterwards (dim.pop() of line 759 changes it).  build_n_dimension_list of
    line 771 does not exist.  Simplified: array_fmt_bytes is the size that belongs to
    the format; the array is the list of its values. *)
Definition read_string_array (buf : bytes) (shape : list Z) (f : fmt) (cursor : Z)
  : res (list pyval) * Z * list Z :=
  match rev shape with
  | [] => (Raise IndexError, cursor, [])
  | dimension :: rest =>
      let dim := rev rest in
      match dim with
      | [] => (read_times buf f (Z.to_nat dimension) cursor, dim)
      | _ => (if 0 <? dimension then Raise AttributeError else Ok [], cursor, dim)
      end
  end.
