(** C84: which error a DMAP writer raises, and what it leaves behind. *)
From Coq Require Import ZArith List Bool Lia.
From Verif Require Import Base FloatBits DmapTypes DmapSpec DmapWriteSpec DmapWrite Conversions DmapFileProofs
  DmapWriteFaultSpec DmapWriteFaultProofs.
Import ListNotations.
Open Scope Z_scope.

(** A scalar fails with the error of the first of its name, its type and its
    value that is at fault, and only then. *)
Theorem C84_scalar : forall s e,
  text (sc_name s) -> value_known (sc_fmt s) (sc_value s) ->
  (dmap_scalar_to_bytes s = Raise e <-> scalar_fault s e).
Proof. intros s e H1 H2. exact (scalar_fails s H1 H2 e). Qed.
Print Assumptions C84_scalar.

(** An integer one too large, below a name that cannot be encoded, and below a
    type code of two bytes: three faults, met in the other order. *)
Example C84_scalar_case :
  let ok := mk_dscalar [110] (VInt 5) 3 Fi in
  let s1 := mk_dscalar [110] (VInt (2 ^ 31)) 3 Fi in
  let s2 := mk_dscalar [110] (VInt (2 ^ 31)) 200 Fi in
  let s3 := mk_dscalar [55296] (VInt (2 ^ 31)) 70000 Fi in
  let s4 := mk_dscalar [110] (VArr (mk_ndarray DI32 false [1] [5])) 3 Fi in
  Forall (fun s => text (sc_name s) /\ value_known (sc_fmt s) (sc_value s)) [ok; s1; s2; s3; s4] /\
  dmap_scalar_to_bytes ok = Ok [110; 0; 3; 5; 0; 0; 0] /\
  dmap_scalar_to_bytes s1 = Raise StructError /\
  dmap_scalar_to_bytes s2 = Raise StructError /\
  dmap_scalar_to_bytes s3 = Raise UnicodeEncodeError /\
  dmap_scalar_to_bytes s4 = Raise TypeError.
Proof.
  cbv zeta. splits; try reflexivity. unfold text.
  repeat (apply Forall_cons || apply Forall_nil); cbn; splits; try exact I; try discriminate;
    repeat (apply Forall_cons || apply Forall_nil); lia.
Qed.

(** Characters: a text, a float, numbers out of the range of characters. *)
Example C84_char_case :
  map (fun v => scalar_data_bytes Fc v)
    [VStr [65]; VFloat 0; VInt (2 ^ 31); VInt (-1); VInt 1114112; VInt 56000; VInt 65; VInt 233] =
  [Raise DmapCharError; Raise TypeError; Raise OverflowError; Raise ValueError; Raise ValueError;
   Raise UnicodeEncodeError; Ok [65]; Ok [195; 169]] /\
  value_fault Fc (VInt 56000) UnicodeEncodeError /\ (forall e, ~ value_fault Fc (VInt 233) e).
Proof.
  splits; [reflexivity| |].
  - eapply vf_char_int; [reflexivity|]. constructor. unfold surrogate. lia.
  - intros e H. pose proof (proj2 (value_fails Fc (VInt 233) I e) H) as C. discriminate C.
Qed.

(** An array likewise: what the format forbids, the name, the type, the number of
    dimensions, the sizes. *)
Theorem C84_array : forall a e, text (ar_name a) ->
  (fst (dmap_array_to_bytes a) = Raise e <-> array_fault a e).
Proof. intros a e H. exact (proj1 (array_fails a H) e). Qed.
Print Assumptions C84_array.

Example C84_array_case :
  let mk f d shape dim sizes := mk_darray [109] (mk_ndarray d false shape [1]) 3 f dim sizes in
  map (fun a => fst (dmap_array_to_bytes a))
    [mk Fs DStr [1] 1 [1]; mk Fc DI8 [0] 1 [0]; mk Fc DStr [1] 1 [1]; mk Fi DI32 [1] (2 ^ 31) [1];
     mk Fi DI32 [1] 1 [2 ^ 31]] =
  [Raise DmapDataError; Raise IndexError; Raise DmapCharError; Raise StructError; Raise StructError] /\
  fst (dmap_array_to_bytes (mk Fi DI32 [1] 1 [1])) = Ok [109; 0; 3; 1; 0; 0; 0; 1; 0; 0; 0; 1; 0; 0; 0] /\
  text [109].
Proof. cbv zeta. splits; [reflexivity|reflexivity|]. constructor; [lia|constructor]. Qed.

(** A record fails with the error of its first faulty field, or, if no field is
    at fault, when it is too long for the block size of the header; the length is
    the sum of the lengths of its fields and the header. *)
Theorem C84_record : forall r, record_known r ->
  (forall e, fst (dmap_record_to_bytes r) = Raise e <-> record_fault r e) /\
  (forall bs, fst (dmap_record_to_bytes r) = Ok bs -> zlen bs = record_length r) /\
  ((exists bs, fst (dmap_record_to_bytes r) = Ok bs) <->
   Forall (fun p => no_fault (field_fault (snd p))) r /\ fits true 4 (record_length r)).
Proof.
  intros r K. destruct (record_fails r K) as (F & L & _). splits.
  - exact F.
  - intros bs H. exact (proj1 (L bs H)).
  - assert (N : no_fault (record_fault r) <->
       Forall (fun p => no_fault (field_fault (snd p))) r /\ fits true 4 (record_length r)).
    { unfold record_fault. rewrite first_none, Forall_app, Forall_map. split; intros [H1 H2]; split; auto.
      - inversion H2 as [|P l H3 _]; subst. assert (D : fits true 4 (record_length r) \/ ~ fits true 4 (record_length r)).
        { unfold fits. lia. }
        destruct D as [D|D]; auto. exfalso. apply (H3 StructError). split; auto.
      - constructor; [|constructor]. intros e [_ C]. contradiction. }
    rewrite <- N. split.
    + intros (bs & H). exact (fails_done _ _ _ F H).
    + intros H. destruct (fst (dmap_record_to_bytes r)) as [bs|e] eqn:E; [eauto|].
      exfalso. apply (H e). apply F. reflexivity.
Qed.
Print Assumptions C84_record.

(** After a failure the arrays before the failing field have their shape lists
    reversed in place, those after it do not.  A record that is too long leaves the
    first word of its header in the buffer, any other failure nothing. *)
Theorem C84_left : forall r e, record_known r ->
  fst (dmap_record_to_bytes r) = Raise e -> record_left r (snd (dmap_record_to_bytes r)) (record_rest r).
Proof. intros r e K H. exact (proj2 (proj2 (record_fails r K)) e H). Qed.
Print Assumptions C84_left.

Definition good_array : item := IArray (mk_darray [109] (mk_ndarray DI8 false [1; 2] [7; 8]) 1 Fc 2 [1; 2]).
Definition good_scalar : item := IScalar (mk_dscalar [110] (VInt 5) 3 Fi).
Definition bad_scalar : item := IScalar (mk_dscalar [111] (VInt (2 ^ 31)) 3 Fi).
Definition good_record : record := [([110], good_scalar); ([109], good_array)].
Definition bad_record : record :=
  [([110], good_scalar); ([109], good_array); ([111], bad_scalar); ([120], IPlain (VInt 1)); ([121], good_array)].

Lemma records_known : Forall record_known [good_record; bad_record].
Proof.
  repeat (apply Forall_cons || apply Forall_nil); cbn; splits; unfold text;
    repeat (apply Forall_cons || apply Forall_nil); try exact I; lia.
Qed.

(** A record with an array of two dimensions, a number too large and a plain
    value: the number decides, the array before it is turned. *)
Example C84_record_case :
  record_known bad_record /\ fst (dmap_record_to_bytes bad_record) = Raise StructError /\
  record_fault bad_record StructError /\
  (exists r', snd (dmap_record_to_bytes bad_record) = r' /\ record_left bad_record r' [] /\
     nth_error r' 1 = Some ([109], IArray (mk_darray [109] (mk_ndarray DI8 false [1; 2] [7; 8]) 1 Fc 2 [2; 1])) /\
     nth_error r' 4 = Some ([121], good_array)) /\
  record_length good_record = 40 /\
  (exists bs, fst (dmap_record_to_bytes good_record) = Ok bs /\ zlen bs = 40).
Proof.
  assert (K : record_known good_record /\ record_known bad_record).
  { pose proof records_known as H. inversion H as [|x l H1 H2]; subst. inversion H2; subst. auto. }
  destruct K as [K1 K2]. splits.
  - exact K2.
  - reflexivity.
  - apply (proj1 (C84_record _ K2)). reflexivity.
  - eexists. splits; [reflexivity| |reflexivity|reflexivity]. exact (C84_left _ StructError K2 eq_refl).
  - reflexivity.
  - eexists. split; reflexivity.
Qed.

(** A writer object fails with the error of its first record at fault.  The bytes
    of the records before it stay in its buffer, and what the failing record leaves;
    its records stay, the earlier ones turned. *)
Theorem C84_stream : forall w ds,
  wr_records w <> [] -> Forall record_known (wr_records w) ->
  let q := fst (write_dmap_stream w ds) in
  let w' := snd (write_dmap_stream w ds) in
  (forall e, q = Raise e <-> records_fault (wr_records w) e) /\
  (forall bs, q = Ok bs -> wr_bytearr w' = bs /\ wr_records w' = map turned_record (wr_records w) /\
     zlen bs = zlen (wr_bytearr w) + total (map record_length (wr_records w))) /\
  (forall e, q = Raise e -> exists pre r r' post bl rest,
     wr_records w = pre ++ r :: post /\ record_fault r e /\ record_left r r' rest /\
     Forall2 (fun r b => fst (dmap_record_to_bytes r) = Ok b /\ zlen b = record_length r) pre bl /\
     wr_bytearr w' = wr_bytearr w ++ concat bl ++ rest /\ wr_records w' = map turned_record pre ++ r' :: post).
Proof.
  intros w ds HN K. pose proof (stream_fails w ds HN K) as S.
  destruct (write_dmap_stream w ds) as [q w']. destruct S as (S1 & _ & S3 & S4).
  cbv zeta. cbn [fst snd]. splits; [exact S1|exact S3|exact S4].
Qed.
Print Assumptions C84_stream.

(** A file is written unless a record is at fault; then no file is touched. *)
Theorem C84_file : forall fs w fn,
  wr_records w <> [] -> Forall record_known (wr_records w) -> wr_filename w <> [] \/ fn <> [] ->
  let q := fst (fst (write_dmap fs w fn)) in
  let fs' := snd (write_dmap fs w fn) in
  (forall e, q = Raise e <-> records_fault (wr_records w) e) /\
  (forall e, q = Raise e -> fs' = fs) /\
  (q = Ok tt -> exists bs, fs' (if str_eqb fn [] then wr_filename w else fn) = Some bs /\
     zlen bs = zlen (wr_bytearr w) + total (map record_length (wr_records w))).
Proof. exact file_outcome. Qed.
Print Assumptions C84_file.

Example C84_stream_case :
  let w := mk_writer [102] [good_record; bad_record] [] in
  wr_records w <> [] /\ Forall record_known (wr_records w) /\ wr_filename w <> [] /\
  fst (write_dmap_stream w []) = Raise StructError /\
  zlen (wr_bytearr (snd (write_dmap_stream w []))) = 40 /\
  fst (fst (write_dmap (fun _ => None) w [])) = Raise StructError.
Proof. cbv zeta. splits; try discriminate; try reflexivity. exact records_known. Qed.

(** Without any name, or without any record, nothing is written. *)
Theorem C84_refused : forall fs w fn,
  (wr_filename w = [] -> fn = [] -> write_dmap fs w fn = (Raise FilenameRequiredError, w, fs)) /\
  (wr_records w = [] -> fst (write_dmap_stream w []) = Raise DmapDataError /\
   (wr_filename w <> [] \/ fn <> [] ->
    fst (fst (write_dmap fs w fn)) = Raise DmapDataError /\ snd (write_dmap fs w fn) = fs)).
Proof. exact refused_write. Qed.
Print Assumptions C84_refused.

Example C84_refused_case :
  fst (fst (write_dmap (fun _ => None) (mk_writer [] [good_record] []) [])) = Raise FilenameRequiredError /\
  fst (fst (write_dmap (fun _ => None) (mk_writer [] [] []) [102])) = Raise DmapDataError.
Proof. split; reflexivity. Qed.
