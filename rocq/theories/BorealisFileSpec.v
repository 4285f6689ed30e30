(** What the file layer should keep: the values that survive a file, the version
    of a hash, sorted names. *)
From Coq Require Import String ZArith List Bool Sorted.
From Verif Require Import Base Utf8 SDarnFormats BorealisTypes BorealisFormats BorealisSpec BorealisFile.
Import ListNotations.
Open Scope list_scope.
Open Scope Z_scope.

(** A text that an HDF5 attribute keeps: ASCII, no trailing NUL. *)
Definition plain_text (s : pystr) : Prop :=
  Forall (fun c => 0 <= c < 128) s /\ last s 1 <> 0.

(** An item that an array of texts keeps: code points, no trailing NUL. *)
Definition text_cell (c : cell) : Prop :=
  exists s, c = CS s /\ Forall (fun x => 0 <= x < 1114112) s /\ last s 1 <> 0.

(** The types of numbers. *)
Definition number_type (t : btype) : Prop :=
  match t with BStr | BNpStr | BBytes | BOther => False | _ => True end.

(** An attribute that a file keeps: a plain text or a number. *)
Inductive attr_kept : bval -> Prop :=
| kept_text   : forall s, plain_text s -> attr_kept (BText s)
| kept_number : forall t c, number_type t -> attr_kept (BScalar t c).

(** A dataset that a file keeps: an array with at least one dimension. *)
Inductive dset_kept : bval -> Prop :=
| kept_array : forall t s l, s <> [] -> number_type t \/ t = BBytes -> dset_kept (BArr t s l)
| kept_texts : forall s l, s <> [] -> length l = size s -> Forall text_cell l ->
    dset_kept (BArr BNpStr s l).

(** The shape of a value. *)
Definition has_shape (v : bval) (s : list nat) : Prop :=
  match v with
  | BArr _ s' _ => s' = s
  | BScalar _ _ => s = []
  | _ => False
  end.

(** The phase offsets are one for each pulse. *)
Definition offsets_per_pulse (r : brecord) : Prop :=
  forall v, dict_get r (str "pulse_phase_offset") = Some v ->
    exists p s, dict_get r (str "pulses") = Some p /\ has_shape v s /\ has_shape p s.

(** Records that a file keeps. *)
Definition storable (F : format) (r : brecord) : Prop :=
  (forall k v t, In (k, v) r -> site_attr F k t -> attr_kept v) /\
  (forall k v t, In (k, v) r -> site_dset F k t -> dset_kept v).

(** The same for an array dictionary. *)
Definition storable_arrays (F : format) (a : brecord) : Prop :=
  (forall k v t, In (k, v) a -> array_attr F k t -> attr_kept v) /\
  (forall k v t, In (k, v) a -> array_dset F k t -> dset_kept v).

(** Names of groups: not empty, not ".", without '/' and NUL. *)
Definition group_name (n : pystr) : Prop :=
  n <> [] /\ n <> str "." /\ ~ In 47 n /\ ~ In 0 n.

(** Strings in the order of their code points. *)
Inductive str_lt : pystr -> pystr -> Prop :=
| lt_nil  : forall x b, str_lt [] (x :: b)
| lt_head : forall x y a b, x < y -> str_lt (x :: a) (y :: b)
| lt_tail : forall x a b, str_lt a b -> str_lt (x :: a) (x :: b).

(** A dictionary with its keys in order, with the same entries as [d]. *)
Definition in_order {A} (d d' : dict A) : Prop :=
  StronglySorted str_lt (keys d') /\ forall k, dict_get d' k = dict_get d k.

(** The same fields with the same values. *)
Definition same_fields_as (r r' : brecord) : Prop := forall k, dict_get r' k = dict_get r k.

(** [v] is the version in the hash [h]: what is before the first '-', cut before
    its second '.'. *)
Definition ends_part (stop : list Z) (rest : pystr) : Prop :=
  match rest with [] => True | c :: _ => In c stop end.
Inductive hash_version : pystr -> pystr -> Prop :=
| ver_two : forall x y rest, ~ In 46 x -> ~ In 45 x -> ~ In 46 y -> ~ In 45 y ->
    ends_part [46; 45] rest -> hash_version (x ++ 46 :: y ++ rest) (x ++ 46 :: y)
| ver_one : forall x rest, ~ In 46 x -> ~ In 45 x -> ends_part [45] rest ->
    hash_version (x ++ rest) x.

(** Names of the file types. *)
Definition type_name (t : filetype) : pystr :=
  match t with
  | Bfiq => str "bfiq" | AntennasIq => str "antennas_iq"
  | BRawacf => str "rawacf" | Rawrf => str "rawrf"
  end.

(** The versions that have a format. *)
Definition supported (v : pystr) (g : generation) : Prop :=
  In (v, g) [(str "v0.2", G4); (str "v0.3", G4); (str "v0.4", G4); (str "v0.5", G5);
             (str "v0.6", G6); (str "v0.7", G7)].

(** The version of a dictionary of records is that of the record whose name comes
    first. *)
Definition records_version (rs : brecords) (v : pystr) : Prop :=
  exists n r h, In (n, r) rs /\ (forall n', In n' (keys rs) -> n' = n \/ str_lt n n') /\
    dict_get r (str "borealis_git_hash") = Some (BText h) /\ hash_version h v.

(** What is read back of a record: the same fields, but phase offsets that are not
    one for each pulse are replaced by zeros. *)
Definition record_back (r r' : brecord) : Prop :=
  (forall k, k <> str "pulse_phase_offset" -> dict_get r' k = dict_get r k) /\
  match dict_get r (str "pulse_phase_offset") with
  | None => dict_get r' (str "pulse_phase_offset") = None
  | Some v =>
      exists p s sp, dict_get r (str "pulses") = Some p /\ has_shape v s /\ has_shape p sp /\
        (s = sp -> dict_get r' (str "pulse_phase_offset") = Some v) /\
        (s <> sp -> dict_get r' (str "pulse_phase_offset") =
                    Some (BArr BF32 sp (repeat (CZ 0) (size sp))))
  end.

(** The same for all records, sorted by name. *)
Definition records_back (rs rs' : brecords) : Prop :=
  StronglySorted str_lt (keys rs') /\
  (forall n, In n (keys rs') <-> In n (keys rs)) /\
  (forall n r r', In (n, r) rs -> In (n, r') rs' -> record_back r r').

(** What is read back of arrays: the same fields, but phase offsets of the shape
    (2,) are dropped. *)
Definition arrays_back (a a' : brecord) : Prop :=
  (forall k, k <> str "pulse_phase_offset" -> dict_get a' k = dict_get a k) /\
  match dict_get a (str "pulse_phase_offset") with
  | None => dict_get a' (str "pulse_phase_offset") = None
  | Some v =>
      exists s, has_shape v s /\
        (s <> [2%nat] -> dict_get a' (str "pulse_phase_offset") = Some v) /\
        (s = [2%nat] -> exists n ds, 
           (exists t l, dict_get a (str "num_sequences") = Some (BArr t (n :: ds) l)) /\
           dict_get a' (str "pulse_phase_offset") = Some (BArr BF32 [n; 0%nat] []))
  end.

(** All but one file are as before. *)
Definition only_file (name : pystr) (fs fs' : hfs) : Prop := forall n, n <> name -> fs' n = fs n.

(** The compression is off or one that HDF5 has. *)
Definition can_compress (available : pystr -> bool) (c : option pystr) : Prop :=
  c = None \/ exists n, c = Some n /\ available n = true.

(** The errors that say that the data do not have the structure tried. *)
Inductive structure_error : exn -> Prop :=
| se_extra     : forall l, structure_error (BorealisExtraFieldError l)
| se_missing   : forall l, structure_error (BorealisFieldMissingError l)
| se_structure : structure_error BorealisStructureError.

(** The hash of a file: of its root for the array structure, of the first group for
    the site structure. *)
Definition root_hash (f : hfile) (h : pystr) : Prop :=
  exists b, dict_get (h_attrs f) (str "borealis_git_hash") = Some (HBytes b) /\ utf8_dec b = Some h.
Definition first_hash (f : hfile) (h : pystr) : Prop :=
  exists n i b, In (n, i) (h_items f) /\
    (forall n', In n' (keys (h_items f)) -> n' = n \/ str_lt n n') /\
    dict_get (item_attrs i) (str "borealis_git_hash") = Some (HBytes b) /\ utf8_dec b = Some h.

(** A file that is there. *)
Definition holds (fs : hfs) (name : pystr) (f : hfile) : Prop := fs name = Some (Hdf f).
