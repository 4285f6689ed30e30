(** C99: plain dictionaries through dict2dmap and dmap2dict
    (pydarnio/utils/conversions.py:64-128). *)
From Coq Require Import ZArith List Bool.
From Verif Require Import Base Bytes BytesSpec FloatBits FloatSpec DmapTypes DmapRead DmapWrite Conversions DmapSpec DmapWriteSpec DmapPlainSpec
  DmapPlainProofs.
Import ListNotations.
Open Scope Z_scope.

(** Whatever dict2dmap accepts, dmap2dict turns back into the same dictionaries, with the
    same keys in the same order and the same values, except that np.int32 and np.float32
    values are now ints and floats, of the same value, and lists are arrays. *)
Theorem C99_there_and_back rs ds : proper_dicts rs -> dict2dmap rs = Ok ds ->
  exists rs', dmap2dict ds = Ok rs' /\ Forall2 (Forall2 field_back) rs rs'.
Proof. intros P H. destruct (dicts_there rs ds P H) as (rs' & H1 & H2 & _). eauto. Qed.
Print Assumptions C99_there_and_back.

(** Converting once more changes nothing: the records get the same names and types, are
    written as the same bytes or refused with the same error, and give the same
    dictionaries. *)
Theorem C99_again rs ds rs' : proper_dicts rs -> dict2dmap rs = Ok ds -> dmap2dict ds = Ok rs' ->
  exists ds', dict2dmap rs' = Ok ds' /\ Forall2 (Forall2 same_layout) ds ds' /\
    dmap2dict ds' = Ok rs' /\ dmap_write ds' = dmap_write ds.
Proof. exact (dicts_again rs ds rs'). Qed.
Print Assumptions C99_again.

(** dict2dmap raises only KeyError, exactly when some value has no DMAP type. *)
Theorem C99_refused rs : Forall (Forall (fun p : pystr * item => ~ left_out (snd p))) rs ->
  (dict2dmap rs = Raise KeyError <-> Exists (Exists (fun p : pystr * item => ~ supported (snd p))) rs) /\
  (forall e, dict2dmap rs = Raise e -> e = KeyError).
Proof. exact (dicts_refused rs). Qed.
Print Assumptions C99_refused.

(** dmap2dict given a dictionary of plain values raises AttributeError at the first plain
    value, provided everything before it can be converted. *)
Theorem C99_plain_given rs1 r1 k v r2 rs2 ds : dmap2dict (rs1 ++ [r1]) = Ok ds ->
  dmap2dict (rs1 ++ (r1 ++ (k, IPlain v) :: r2) :: rs2) = Raise AttributeError.
Proof. exact (plain_given rs1 r1 k v r2 rs2 ds). Qed.
Print Assumptions C99_plain_given.

(** ** Cases *)

(** A dictionary with a value of every kind: np.int32(-5), np.float32(1.5), a list, the
    empty list, a text, np.uint8(200), an array of int16, an int and a float. *)
Definition plain_record : record :=
  [ ([97], IPlain (VNpInt NI32 (-5))); ([98], IPlain (VF32 1069547520)); ([99], IPlain (VIntList [7; -9; 11]));
    ([100], IPlain (VIntList [])); ([101], IPlain (VStr [104; 105])); ([102], IPlain (VNpInt NU8 200));
    ([103], IPlain (VArr (mk_ndarray DI16 false [2] [3; -4]))); ([104], IPlain (VInt 12)); ([105], IPlain (VFloat 4609434218613702656)) ].
Definition plain_back : record :=
  [ ([97], IPlain (VInt (-5))); ([98], IPlain (VFloat 4609434218613702656));
    ([99], IPlain (VArr (mk_ndarray DI64 false [3] [7; -9; 11])));
    ([100], IPlain (VArr (mk_ndarray DF64 false [0] []))); ([101], IPlain (VStr [104; 105])); ([102], IPlain (VNpInt NU8 200));
    ([103], IPlain (VArr (mk_ndarray DI16 false [2] [3; -4]))); ([104], IPlain (VInt 12)); ([105], IPlain (VFloat 4609434218613702656)) ].

Example C99_case_proper : proper_dicts [plain_record; [([97], IPlain (VF64 0))]].
Proof.
  unfold proper_dicts, plain_record.
  repeat (apply Forall_cons || apply Forall_nil); cbn [snd]; intros v E; injection E as <-; cbn; unfold fits; cbn; auto; split; reflexivity || discriminate.
Qed.
Example C99_case_there_and_back :
  exists ds, dict2dmap [plain_record; [([97], IPlain (VF64 0))]] = Ok ds /\
             dmap2dict ds = Ok [plain_back; [([97], IPlain (VF64 0))]].
Proof. eexists. split; reflexivity. Qed.
(** A bool, and an integer of more than 64 bits, have no type. *)
Example C99_case_refused :
  dict2dmap [plain_record; [([97], IPlain (VInt 1)); ([98], IPlain VOther)]] = Raise KeyError /\
  dict2dmap [[([97], IPlain (VIntList [1; 2 ^ 64]))]] = Raise KeyError /\
  ~ left_out (IPlain (VIntList [1; 2 ^ 64])).
Proof.
  split; [reflexivity|]. split; [reflexivity|]. intros (l & E & F & _). injection E as <-.
  inversion F as [|? ? _ G]; subst. inversion G as [|? ? [_ C] _]; subst. discriminate C.
Qed.
Example C99_case_plain_given :
  dmap2dict ([] ++ ([([97], IScalar (mk_dscalar [97] (VInt 1) 3 Fi))] ++ ([98], IPlain (VInt 1)) :: []) :: [[]]) = Raise AttributeError.
Proof. apply (C99_plain_given [] [([97], IScalar (mk_dscalar [97] (VInt 1) 3 Fi))] [98] (VInt 1) [] [[]] [[([97], IPlain (VInt 1))]]). reflexivity. Qed.
