(** Words for what the Borealis writers refuse. *)
From Coq Require Import ZArith List.
From Verif Require Import Base SDarnFormats BorealisTypes BorealisFormats BorealisSpec BorealisFileSpec.
Import ListNotations.

(** The record whose name comes first. *)
Definition first_record (rs : brecords) (n : pystr) (r : brecord) : Prop :=
  In (n, r) rs /\ forall n', In n' (keys rs) -> n' = n \/ str_lt n n'.

(** Numbers, arrays and empty values: they have no [split]. *)
Inductive not_text : bval -> Prop :=
| not_text_scalar : forall t c, t <> BNpStr -> t <> BBytes -> not_text (BScalar t c)
| not_text_array  : forall t s l, not_text (BArr t s l)
| not_text_empty  : forall t, not_text (BEmpty t).

(** What is raised for records of which some do not fit: a report of every bad record,
    or the verdict on the first record that ends the check. *)
Inductive refusal (F : format) (rs : brecords) : exn -> Prop :=
| refusal_report : forall m x i, m <> [] \/ x <> [] \/ i <> [] ->
    reports F rs m BorealisFieldMissingError -> reports F rs x BorealisExtraFieldError -> reports F rs i BorealisDataFormatTypeError ->
    refusal F rs (BorealisBadRecordsError m x i)
| refusal_first : forall e pre n r post, e = BorealisStructureError \/ e = AttributeError ->
    rs = pre ++ (n, r) :: post -> verdict F r (Raise e) ->
    (forall n' r', In (n', r') pre -> ~ verdict F r' (Raise BorealisStructureError) /\ ~ verdict F r' (Raise AttributeError)) ->
    refusal F rs e.
