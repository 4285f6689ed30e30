(** What reader objects give back besides the results of their methods: get_records and
    get_dmap_records (dmap.py:214-226, superdarn.py:400-413). *)
From Coq Require Import String ZArith List Bool.
From Verif Require Import Base Bytes DmapTypes DmapRead Conversions SDarnFormats SDarn.
Import ListNotations.
Open Scope list_scope.
Open Scope Z_scope.

(** An SDarnRead or DmapRead object: the bytes, cursor and DMAP records, then [_records]
    (dmap.py:163) and [records] (superdarn.py:427, ...), which __init__ does not set. *)
Record read_object : Type := mk_object {
  ro_reader : reader;
  ro_plain : list record;
  ro_records : option (list record)
}.

(** The methods that read (dmap.py:375-407, superdarn.py:415-543). *)
Inductive call : Type := ReadRecords | ReadType (t : sd_type).

(** dmap.py:127-187, superdarn.py:300-325 __init__. *)
Definition object_new (fs : fsys) (src : source) : res read_object :=
  rlet r := dmap_reader_init fs src in Ok (mk_object r [] None).

(** dmap.py:375-407 read_records (line 406 sets [_records]); superdarn.py:415-543
    read_iqdat ... read_map (lines 427, 447, 474, 494, 515, 542 set [records]). *)
Definition call_method (c : call) (o : read_object) : res (list record) * read_object :=
  match c with
  | ReadRecords =>
      match read_records (ro_reader o) with
      | (Raise e, r') => (Raise e, mk_object r' (ro_plain o) (ro_records o))
      | (Ok rs, r') =>
          match dmap2dict rs with
          | Raise e => (Raise e, mk_object r' (ro_plain o) (ro_records o))
          | Ok ds => (Ok ds, mk_object r' ds (ro_records o))
          end
      end
  | ReadType t =>
      match sd_read t (ro_reader o) with
      | (Raise e, r') => (Raise e, mk_object r' (ro_plain o) (ro_records o))
      | (Ok ds, r') => (Ok ds, mk_object r' (ro_plain o) (Some ds))
      end
  end.

(** Several calls, one after the other; exceptions are caught by the caller
    (dmap.py:375-407, superdarn.py:415-543). *)
Fixpoint call_all (l : list call) (o : read_object) : list (res (list record)) * read_object :=
  match l with
  | [] => ([], o)
  | c :: l' => let '(x, o') := call_method c o in
               let '(xs, o'') := call_all l' o' in (x :: xs, o'')
  end.

(** dmap.py:221-226 DmapRead.get_records. *)
Definition dmap_get_records (o : read_object) : list record := ro_plain o.
(** superdarn.py:407-413 SDarnRead.get_records. *)
Definition sdarn_get_records (o : read_object) : res (list record) :=
  match ro_records o with Some ds => Ok ds | None => Raise AttributeError end.
(** dmap.py:214-219 and superdarn.py:400-405 get_dmap_records. *)
Definition get_dmap_records (o : read_object) : list record := rdr_records (ro_reader o).
