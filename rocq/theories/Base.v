(** Exceptions as values, results, byte strings and Python dictionaries.
    Shared by all model files. *)
From Coq Require Import ZArith List Bool.
Import ListNotations.
Open Scope Z_scope.

(** Python text: a list of Unicode code points (names and texts everywhere, for
    instance pydarnio/dmap/datastructures.py:36-44). *)
Definition pystr := list Z.

(** Byte strings: lists of integers, each meant to be in 0..255
    (pydarnio/dmap/dmap.py:174, 181, 896). *)
Definition bytes := list Z.

(** A byte: what an element of a Python [bytearray] can be (dmap.py:174, 694). *)
Definition is_byte (b : Z) : Prop := 0 <= b < 256.

(** The exception classes that the modelled code can raise.
    pydarnio/exceptions/dmap_exceptions.py, superdarn_exceptions.py,
    borealis_exceptions.py (classes) and Python/numpy built-ins.  Simplified:
    the message text is dropped; the record number is kept for the SuperDARN
    field errors only, the field names for the SuperDARN and Borealis field
    errors.
    [OutOfFuel] is an artefact of the model (bounded loops); theorems exclude
    it.  [OutOfModel] marks an execution path that is deliberately not
    modelled; no theorem claims anything about it. *)
Inductive exn : Type :=
| EmptyFileError
| CursorError
| ZeroByteError
| NegativeByteError
| MismatchByteError
| DmapDataTypeError
| DmapDataError
| DmapTypeError
| DmapCharError
| FilenameRequiredError
| FileNotFoundError
| SuperDARNFieldMissingError (rec_num : Z) (fields : list pystr)
| SuperDARNExtraFieldError (rec_num : Z) (fields : list pystr)
| SuperDARNDataFormatTypeError (fields : list pystr) (rec_num : Z)
| IndexError
| KeyError
| AttributeError
| TypeError
| ValueError
| OverflowError
| UnicodeDecodeError
| UnicodeEncodeError
| StructError
| OSError
| BorealisFileTypeError
| BorealisFieldMissingError (fields : list pystr)
| BorealisExtraFieldError (fields : list pystr)
| BorealisDataFormatTypeError (fields : list pystr)
| BorealisNumberOfRecordsError
| BorealisBadRecordsError (missing extra incorrect : list (pystr * list pystr))
| BorealisConversionTypesError
| BorealisConvert2IqdatError
| BorealisConvert2RawacfError
| BorealisRestructureError
| BorealisStructureError
| ConvertFileOverWriteError
| BorealisVersionError
| OutOfFuel
| OutOfModel.

(** Result of a Python call: a value or a raised exception (the [raise] statements of
    pydarnio/dmap/dmap.py, for instance 250-255, and of all other modules). *)
Inductive res (A : Type) : Type :=
| Ok (a : A)
| Raise (e : exn).
Arguments Ok {A} a.
Arguments Raise {A} e.

(** Sequencing of calls that may raise (consecutive statements, for instance
    dmap.py:398-407). *)
Definition rbind {A B} (r : res A) (f : A -> res B) : res B :=
  match r with
  | Ok a => f a
  | Raise e => Raise e
  end.

(** Notation for [rbind] (see there). *)
Notation "'rlet' x := r 'in' k" := (rbind r (fun x => k))
  (at level 200, x pattern, r at level 100, k at level 200).

(** Length as an integer ([len] in Python; dmap.py:185, 1058). *)
Definition zlen {A} (l : list A) : Z := Z.of_nat (length l).

(** Equality of Python strings ([==], for instance dmap.py:570, 690). *)
Fixpoint str_eqb (a b : pystr) : bool :=
  match a, b with
  | [], [] => true
  | x :: a', y :: b' => (x =? y) && str_eqb a' b'
  | _, _ => false
  end.

(** Ordered dictionaries ([dict] / [collections.OrderedDict]): association
    lists in insertion order (dmap.py:463, base_format.py:1259). *)
Definition dict (A : Type) := list (pystr * A).

(** [d[k] = v]: an existing key keeps its position, a new key goes last
    (dmap.py:465-471, base_format.py:1275, 1297). *)
Fixpoint dict_set {A} (d : dict A) (k : pystr) (v : A) : dict A :=
  match d with
  | [] => [(k, v)]
  | (k', v') :: d' =>
      if str_eqb k' k then (k', v) :: d' else (k', v') :: dict_set d' k v
  end.

(** [d[k]] or [k in d]: the value if there is one (pydarnio/utils/conversions.py:60-110,
    base_format.py:1101-1104). *)
Fixpoint dict_get {A} (d : dict A) (k : pystr) : option A :=
  match d with
  | [] => None
  | (k', v') :: d' => if str_eqb k' k then Some v' else dict_get d' k
  end.

(** Membership of a string in a list of strings ([in], base_format.py:1280, 1385). *)
Fixpoint str_mem (s : pystr) (l : list pystr) : bool :=
  match l with
  | [] => false
  | x :: l' => str_eqb x s || str_mem s l'
  end.

(** The part of the file system that matters: names to contents
    (pydarnio/dmap/dmap.py:168-174, 961-962). *)
Definition fsys := pystr -> option bytes.
