(** C85: the field checks of SDarnUtilities, for any groups of fields. *)
From Coq Require Import ZArith List Bool Lia.
From Verif Require Import Base DmapTypes DmapFileProofs SDarnFormats SDarn SDarnUtilSpec SDarnUtilProofs.
Import ListNotations.
Open Scope Z_scope.

(** Missing fields: reported exactly when a group that is not optional is there in
    part, and then all the fields lacking in such groups. *)
Theorem C85_missing : forall gs opts r n,
  Forall dictionary gs -> Forall dictionary opts ->
  (missing_field_check gs r n opts = Ok tt <-> forall k, ~ missing gs opts r k) /\
  (forall e, missing_field_check gs r n opts = Raise e ->
     exists l, e = SuperDARNFieldMissingError n l /\ l <> [] /\ forall k, In k l <-> missing gs opts r k).
Proof. intros gs opts r n. exact (missing_check gs opts r n). Qed.
Print Assumptions C85_missing.

(** Extra fields: reported exactly when the record has fields that no group has.
    With no group at all the check itself fails. *)
Theorem C85_extra : forall gs r n,
  (gs = [] -> extra_field_check gs r n = Raise TypeError) /\
  (gs <> [] -> (extra_field_check gs r n = Ok tt <-> forall k, ~ extra gs r k) /\
     forall e, extra_field_check gs r n = Raise e ->
       exists l, e = SuperDARNExtraFieldError n l /\ l <> [] /\ forall k, In k l <-> extra gs r k).
Proof. exact extra_check. Qed.
Print Assumptions C85_extra.

(** Types: the fields are compared in the order of the record with the format the
    last group declares.  The first that is no DMAP structure, or of no group, ends
    the check with AttributeError or KeyError, whatever is wrong elsewhere;
    otherwise all differences are reported, in the order of the record. *)
Theorem C85_types : forall gs r n, Forall dictionary gs ->
  (incorrect_types_check gs r n = Ok tt <-> Forall (fun p => comparable gs p /\ ~ mistyped gs p) r) /\
  (incorrect_types_check gs r n = Raise AttributeError <->
     exists pre k v post, r = pre ++ (k, IPlain v) :: post /\ Forall (comparable gs) pre) /\
  (incorrect_types_check gs r n = Raise KeyError <->
     exists pre k it post, r = pre ++ (k, it) :: post /\ Forall (comparable gs) pre /\
       (exists f, format_of it f) /\ forall g, In g gs -> ~ In k (map fst g)) /\
  (forall e, incorrect_types_check gs r n = Raise e -> e <> AttributeError -> e <> KeyError ->
     Forall (comparable gs) r /\
     exists q, e = SuperDARNDataFormatTypeError (map fst (filter q r)) n /\ filter q r <> [] /\
       forall p, In p r -> (q p = true <-> mistyped gs p)).
Proof. exact types_check. Qed.
Print Assumptions C85_types.

(** Three fields a, b, c; b is in two groups, with different formats. *)
Definition two_groups : list group := [[([97], Fh); ([98], Fi)]; [([98], Ff); ([99], Fs)]].
Definition a_field (k : pystr) (f : fmt) : pystr * item := (k, IScalar (mk_dscalar k (VInt 1) 0 f)).

Lemma dictionaries : Forall dictionary two_groups.
Proof.
  repeat (apply Forall_cons || apply Forall_nil); unfold dictionary; cbn;
    repeat (apply NoDup_cons || apply NoDup_nil); cbn; intuition discriminate.
Qed.

Example C85_missing_case :
  let r := [a_field [97] Fh] in
  Forall dictionary two_groups /\
  missing_field_check two_groups r 7 [] = Raise (SuperDARNFieldMissingError 7 [[98]]) /\
  missing two_groups [] r [98] /\ ~ missing two_groups [] r [99] /\
  missing_field_check two_groups r 7 [[([98], Fi); ([97], Fh)]] = Ok tt /\
  missing_field_check two_groups r 7 [[([98], Fi); ([97], Fh); ([100], Fh)]] =
    Raise (SuperDARNFieldMissingError 7 [[98]]) /\
  missing_field_check two_groups [] 7 [] = Ok tt.
Proof.
  cbv zeta. splits; try reflexivity; [exact dictionaries| |].
  - exists [([97], Fh); ([98], Fi)]. splits; cbn; auto; [intros [|[]]; discriminate|].
    exists [97]. auto.
  - intros (g & H1 & _ & H3 & _ & k' & H5 & H6). cbn in H1, H6. destruct H6 as [<-|[]].
    destruct H1 as [<-|[<-|[]]]; cbn in H3, H5; intuition discriminate.
Qed.

Example C85_extra_case :
  extra_field_check two_groups [a_field [97] Fh; a_field [120] Fh] 7 = Raise (SuperDARNExtraFieldError 7 [[120]]) /\
  extra_field_check two_groups [a_field [97] Fh; a_field [99] Fh] 7 = Ok tt /\
  extra_field_check [] [] 7 = Raise TypeError.
Proof. splits; reflexivity. Qed.

Example C85_types_case :
  incorrect_types_check two_groups [a_field [97] Fh; a_field [98] Fi; a_field [99] Fd] 7 =
    Raise (SuperDARNDataFormatTypeError [[98]; [99]] 7) /\
  incorrect_types_check two_groups [a_field [98] Ff; a_field [97] Fh] 7 = Ok tt /\
  incorrect_types_check two_groups [a_field [98] Fi; a_field [120] Fh; ([97], IPlain (VInt 1))] 7 = Raise KeyError /\
  incorrect_types_check two_groups [a_field [98] Fi; ([120], IPlain (VInt 1)); a_field [121] Fh] 7 = Raise AttributeError /\
  declares two_groups [98] Ff /\ ~ declares two_groups [98] Fi.
Proof.
  assert (D : declares two_groups [98] Ff).
  { exists [[([97], Fh); ([98], Fi)]], [([98], Ff); ([99], Fs)], []. splits; cbn; auto; intros g' []. }
  splits; try reflexivity; auto.
  intros C. pose proof (declares_unique _ _ _ _ dictionaries D C). discriminate.
Qed.
