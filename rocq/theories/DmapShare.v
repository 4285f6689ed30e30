(** Writing DMAP structures whose arrays share shape lists: the same record given
    twice, the same DmapArray in two records, or one list used for two arrays.
    [dmap_array_to_bytes] reverses the list in place, so one field sees what was
    done to it for another.  Shape lists are kept in a heap. *)
From Coq Require Import ZArith List Bool.
From Verif Require Import Base Bytes DmapTypes DmapWrite.
Import ListNotations.
Open Scope Z_scope.

(** datastructures.py:47-74 DmapArray, with the address of its shape list.  The other
    attributes are not changed by writing. *)
Record sarray := mk_sarray {
  sa_name : pystr; sa_value : ndarray; sa_type : Z; sa_fmt : fmt; sa_dim : Z;
  sa_shape : nat }.

(** A field of a record of DMAP structures (dmap.py:1044-1051). *)
Inductive sitem :=
| SScalar (s : dscalar)
| SArray (a : sarray).
(** A record of such fields: the OrderedDict that _dmap_record_to_bytes goes through
    (dmap.py:1044). *)
Definition srecord := list (pystr * sitem).

(** The lists at their addresses (datastructures.py:74 [shape: list]). *)
Definition heap := nat -> list Z.
(** A list changed in place, as dmap.py:1151 does. *)
Definition heap_set (h : heap) (p : nat) (l : list Z) : heap :=
  fun q => if Nat.eqb q p then l else h q.

(** datastructures.py:47-74: the array as [dmap_array_to_bytes] sees it. *)
Definition load (h : heap) (a : sarray) : darray :=
  mk_darray (sa_name a) (sa_value a) (sa_type a) (sa_fmt a) (sa_dim a) (h (sa_shape a)).

(** dmap.py:1114-1160 dmap_array_to_bytes; line 1151 changes the list in the heap. *)
Definition share_array (h : heap) (a : sarray) : res bytes * heap :=
  match dmap_array_to_bytes (load h a) with
  | (x, a') => (x, heap_set h (sa_shape a) (ar_shape a'))
  end.

(** dmap.py:1044-1054: the loop over the fields. *)
Fixpoint share_fields (h : heap) (r : srecord) : res (bytes * Z * Z) * heap :=
  match r with
  | [] => (Ok ([], 0, 0), h)
  | (_, SScalar s) :: r' =>
      match dmap_scalar_to_bytes s with
      | Raise e => (Raise e, h)
      | Ok b =>
          match share_fields h r' with
          | (Raise e, h') => (Raise e, h')
          | (Ok (bs, ns, na), h') => (Ok (b ++ bs, ns + 1, na), h')
          end
      end
  | (_, SArray a) :: r' =>
      match share_array h a with
      | (Raise e, h') => (Raise e, h')
      | (Ok b, h') =>
          match share_fields h' r' with
          | (Raise e, h'') => (Raise e, h'')
          | (Ok (bs, ns, na), h'') => (Ok (b ++ bs, ns, na + 1), h'')
          end
      end
  end.

(** dmap.py:1024-1065 _dmap_record_to_bytes: what is appended to [dmap_bytearr],
    also on failure (see [record_rest]). *)
Definition share_record (h : heap) (r : srecord) : res unit * bytes * heap :=
  match share_fields h r with
  | (Raise e, h') => (Raise e, [], h')
  | (Ok (data, num_scalars, num_arrays), h') =>
      match header_bytes (zlen data + 16) num_scalars num_arrays with
      | Ok b => (Ok tt, b ++ data, h')
      | Raise e => (Raise e, words_left [65537; zlen data + 16; num_scalars; num_arrays], h')
      end
  end.

(** dmap.py:1010-1022 dmap_records_to_bytes. *)
Fixpoint share_records (h : heap) (acc : bytes) (rs : list srecord) : res unit * bytes * heap :=
  match rs with
  | [] => (Ok tt, acc, h)
  | r :: rs' =>
      match share_record h r with
      | (Raise e, b, h') => (Raise e, acc ++ b, h')
      | (Ok _, b, h') => share_records h' (acc ++ b) rs'
      end
  end.

(** dmap.py:894-918 __init__, 964-983 write_dmap_stream and 985-990
    _empty_record_check on a new object: what is returned, and the lists
    afterwards. *)
Definition share_write (h : heap) (rs : list srecord) : res bytes * heap :=
  match rs with
  | [] => (Raise DmapDataError, h)
  | _ => match share_records h [] rs with
         | (x, acc, h') => (rlet _ := x in Ok acc, h')
         end
  end.
