(** Specification of the SuperDARN file types: which fields a record may have,
    independent of the order of checks in the code. *)
From Coq Require Import ZArith List Bool Permutation.
From Verif Require Import Base DmapTypes DmapWriteSpec SDarnFormats SDarn.
Import ListNotations.
Open Scope Z_scope.

(** The groups whose fields come all together or not at all. *)
Definition sd_groups (t : sd_type) : list group :=
  match t with
  | Iqdat => [iqdat_types]
  | Rawacf => [rawacf_types; rawacf_correlation_field; rawacf_cross_correlation_field;
               rawacf_digitizing_field; rawacf_fittex_field]
  | Fitacf => [fitacf_types; fitacf_fitted_fields; fitacf_xcf_fields;
               fitacf_xcf_fields_fitacf2; fitacf_xcf_fields_fitacf3]
  | Snd => [snd_types; snd_fitted_fields; snd_xcf_fields]
  | Grid => [grid_types; grid_fitted_fields; grid_extra_fields]
  | Map => [map_types; map_partial_fields; map_extra_fields; map_fit_fields;
            map_model_fields; map_hmb_fields]
  end.

(** The fields that may be present or absent one by one. *)
Definition sd_loose (t : sd_type) : group :=
  match t with Fitacf => fitacf_optional_fields | _ => [] end.

(** The main group. *)
Definition sd_main (t : sd_type) : group :=
  match t with
  | Iqdat => iqdat_types | Rawacf => rawacf_types | Fitacf => fitacf_types
  | Snd => snd_types | Grid => grid_types | Map => map_types
  end.

Definition names {A} (d : list (pystr * A)) : list pystr := map fst d.

(** The type declares field [k] with format [f]. *)
Definition declared (t : sd_type) (k : pystr) (f : fmt) : Prop :=
  In (k, f) (sd_loose t) \/ exists g, In g (sd_groups t) /\ In (k, f) g.

(** A DMAP field of format [f], scalar or array. *)
Inductive has_format (f : fmt) : item -> Prop :=
| hf_scalar s : sc_fmt s = f -> has_format f (IScalar s)
| hf_array a : ar_fmt a = f -> has_format f (IArray a).

Definition dmap_item (it : item) : Prop := exists f, has_format f it.

(** Field [k] belongs to a group of which the record has other fields. *)
Definition missing (t : sd_type) (r : record) (k : pystr) : Prop :=
  exists g k', In g (sd_groups t) /\ In k (names g) /\ ~ In k (names r) /\
               In k' (names g) /\ In k' (names r).
(** Field [k] of the record is not declared. *)
Definition unknown (t : sd_type) (r : record) (k : pystr) : Prop :=
  In k (names r) /\ forall f, ~ declared t k f.
(** Field [k] of the record is declared with another format. *)
Definition mistyped (t : sd_type) (r : record) (k : pystr) : Prop :=
  exists it f, In (k, it) r /\ declared t k f /\ ~ has_format f it.

(** The rules: every group completely present or completely absent, every field
    declared and of the declared format. *)
Definition acceptable (t : sd_type) (r : record) : Prop :=
  (forall g, In g (sd_groups t) ->
     (forall k, In k (names g) -> In k (names r)) \/
     (forall k, In k (names g) -> ~ In k (names r))) /\
  (forall k it, In (k, it) r -> exists f, declared t k f /\ has_format f it).

(** [rs'] are the acceptable ones of [rs], [bad] is the number of others. *)
Inductive kept (t : sd_type) : list record -> list record -> nat -> Prop :=
| kept_nil : kept t [] [] 0
| kept_good r rs rs' n : acceptable t r -> kept t rs rs' n -> kept t (r :: rs) (r :: rs') n
| kept_bad r rs rs' n : ~ acceptable t r -> kept t rs rs' n -> kept t (r :: rs) rs' (S n).

(** The three SuperDARN field errors and their record number. *)
Definition field_error (e : exn) (n : Z) : Prop :=
  (exists l, e = SuperDARNFieldMissingError n l) \/
  (exists l, e = SuperDARNExtraFieldError n l) \/
  (exists l, e = SuperDARNDataFormatTypeError l n).

(** How a field of a record is shown to the caller (plain dictionaries). *)
Definition shown_item (it out : item) : Prop :=
  match it, out with
  | IScalar s, IPlain v => value_kept (sc_fmt s) (sc_value s) v
  | IArray a, IPlain (VArr v) => v = ar_value a
  | _, _ => False
  end.
Definition shown (r d : record) : Prop :=
  Forall2 (fun p q => fst q = fst p /\ shown_item (snd p) (snd q)) r d.

(** [ext] is a complete group [g], every field with its declared format. *)
Definition whole_group (g : group) (ext : record) : Prop :=
  (forall k, In k (names ext) <-> In k (names g)) /\
  forall k it, In (k, it) ext -> exists f, In (k, f) g /\ has_format f it.

(** The same outcome of two checks: success, or the same error with the same
    fields (missing fields in any order). *)
Definition same_outcome (x y : res unit) : Prop :=
  match x, y with
  | Raise (SuperDARNFieldMissingError n l), Raise (SuperDARNFieldMissingError n' l') =>
      n = n' /\ Permutation l l'
  | _, _ => x = y
  end.
