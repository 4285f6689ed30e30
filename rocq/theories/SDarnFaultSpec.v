(** Specification of what makes write_<type> fail, and how. *)
From Coq Require Import ZArith List Bool.
From Verif Require Import Base DmapTypes DmapSpec DmapFaultSpec SDarnFormats SDarn SDarnSpec.
Import ListNotations.
Open Scope Z_scope.

(** What the checks before writing say of record number [n]: unknown fields, then
    missing fields, then a value that is no DMAP structure, then other formats;
    each error lists exactly the fields concerned. *)
Inductive check_error (t : sd_type) (r : record) (n : Z) : exn -> Prop :=
| ce_unknown l : l <> [] -> (forall k, In k l <-> unknown t r k) ->
    check_error t r n (SuperDARNExtraFieldError n l)
| ce_missing l : (forall k, ~ unknown t r k) -> l <> [] -> (forall k, In k l <-> missing t r k) ->
    check_error t r n (SuperDARNFieldMissingError n l)
| ce_plain k v : (forall k, ~ unknown t r k) -> (forall k, ~ missing t r k) -> In (k, IPlain v) r ->
    check_error t r n AttributeError
| ce_format l : (forall k, ~ unknown t r k) -> (forall k, ~ missing t r k) ->
    (forall k v, ~ In (k, IPlain v) r) -> l <> [] -> (forall k, In k l <-> mistyped t r k) ->
    check_error t r n (SuperDARNDataFormatTypeError l n).

(** What the checks after reading say of record number [n]: missing fields first. *)
Inductive read_check_error (t : sd_type) (r : record) (n : Z) : exn -> Prop :=
| rce_missing l : l <> [] -> (forall k, In k l <-> missing t r k) ->
    read_check_error t r n (SuperDARNFieldMissingError n l)
| rce_unknown l : (forall k, ~ missing t r k) -> l <> [] -> (forall k, In k l <-> unknown t r k) ->
    read_check_error t r n (SuperDARNExtraFieldError n l)
| rce_format l : (forall k, ~ missing t r k) -> (forall k, ~ unknown t r k) -> l <> [] ->
    (forall k, In k l <-> mistyped t r k) ->
    read_check_error t r n (SuperDARNDataFormatTypeError l n).

(** [A] holds blocks with the records [rs], all of which obey the rules of [t]. *)
Definition good_start (t : sd_type) (A : bytes) (bl : list block) (rs : list record) : Prop :=
  wire_file bl A /\ Forall2 dict_of_block bl rs /\ Forall (acceptable t) rs.

(** What is wrong with a file for read_<type>: the first block that is no block
    (C73) or does not obey the rules. *)
Inductive darn_fault (t : sd_type) : bytes -> list record -> exn -> Prop :=
| df_block A B bl rs e : good_start t A bl rs -> block_fault B e -> darn_fault t (A ++ B) rs e
| df_check A W B bl rs ident b r e : good_start t A bl rs -> wire_block ident b W -> dict_of_block b r ->
    ~ acceptable t r -> read_check_error t r (zlen rs) e -> darn_fault t (A ++ W ++ B) rs e.
