(** Properties of the DMAP reader: C03-C10, C13.  Every theorem is followed by
    a concrete case that meets its hypotheses. *)
From Coq Require Import ZArith List Bool Lia.
From Verif Require Import Base Bytes BytesSpec BytesProofs DmapTypes DmapRead Conversions
  DmapSpec DmapReadProofs DmapFileProofs DmapStreamProofs.
Import ListNotations.
Open Scope Z_scope.

(** ** A block used in the examples: scalars n = 7 (short) and t = "Hi"
    (string), array m of shape 2 x 3 (short). *)
Definition ex_block_bytes : bytes :=
  [1;0;1;0; 54;0;0;0; 2;0;0;0; 1;0;0;0;
   110;0;2;7;0;  116;0;9;72;105;0;
   109;0;2; 2;0;0;0; 3;0;0;0; 2;0;0;0; 1;0; 2;0; 3;0; 255;255; 5;0; 0;128].
Definition ex_block : block :=
  ([mk_dscalar [110] (VInt 7) 2 Fh; mk_dscalar [116] (VStr [72;105]) 9 Fs],
   [mk_darray [109] (mk_ndarray DI16 false [2;3] [1;2;3;-1;5;-32768]) 2 Fh 2 [2;3]]).
Definition ex_record : record :=
  [([110], IScalar (mk_dscalar [110] (VInt 7) 2 Fh));
   ([116], IScalar (mk_dscalar [116] (VStr [72;105]) 9 Fs));
   ([109], IArray (mk_darray [109] (mk_ndarray DI16 false [2;3] [1;2;3;-1;5;-32768]) 2 Fh 2 [2;3]))].

Ltac bytes_tac := repeat (apply Forall_cons; [unfold is_byte; lia|]); apply Forall_nil.

Example ex_block_bytearray : is_bytearray ex_block_bytes.
Proof. split; [bytes_tac|vm_compute; discriminate]. Qed.

Example ex_two_bytearray : is_bytearray (ex_block_bytes ++ ex_block_bytes).
Proof.
  split; [|vm_compute; discriminate].
  apply Forall_app. split; apply ex_block_bytearray.
Qed.

Ltac no_slist := apply no_s_no_slist; cbn; intuition lia.

Example ex_no_slist : ~ negative_slist ex_block_bytes.
Proof. no_slist. Qed.

Example ex_two_no_slist : ~ negative_slist (ex_block_bytes ++ ex_block_bytes).
Proof. no_slist. Qed.

(** The example block is in the grammar, by the rules of the grammar alone. *)
Ltac wint := split; [reflexivity|split; [bytes_tac|split; [cbv; split; congruence|reflexivity]]].

Example ex_wire_block : wire_block [1;0;1;0] ex_block ex_block_bytes.
Proof.
  change ex_block_bytes with
    ([1;0;1;0] ++ [54;0;0;0] ++ [2;0;0;0] ++ [1;0;0;0] ++
     (([110;0] ++ [2] ++ [7;0]) ++ ([116;0] ++ [9] ++ [72;105;0]) ++ []) ++
     (([109;0] ++ [2] ++ [2;0;0;0] ++ ([3;0;0;0] ++ [2;0;0;0] ++ []) ++
       ([1;0] ++ [2;0] ++ [3;0] ++ [255;255] ++ [5;0] ++ [0;128] ++ [])) ++ [])).
  constructor; try reflexivity; try discriminate; try bytes_tac; try wint.
  - constructor; [|constructor; [|constructor]].
    + apply (wire_scalar_intro [110] Fh (VInt 7)).
      * exists [110]. repeat split. cbn; lia.
      * constructor; [cbn; auto|wint].
    + apply (wire_scalar_intro [116] Fs (VStr [72;105])).
      * exists [116]. repeat split. cbn; lia.
      * constructor. exists [72;105]. repeat split. cbn; lia.
  - constructor; [|constructor].
    apply (wire_array_intro _ [109] Fh [2;3] [1;2;3;-1;5;-32768] [109;0] [2;0;0;0]).
    + exists [109]. repeat split. cbn; lia.
    + discriminate.
    + cbv; split; congruence.
    + repeat constructor; cbv; congruence.
    + wint.
    + repeat (constructor; [wint|]). constructor.
    + repeat (constructor; [wint|]). constructor.
    + reflexivity.
Qed.

Example ex_wire_file : wire_file [ex_block; ex_block] (ex_block_bytes ++ ex_block_bytes).
Proof.
  rewrite <- (app_nil_r ex_block_bytes) at 2.
  repeat (constructor; [exists [1;0;1;0]; apply ex_wire_block|]). constructor.
Qed.

(** ** C03 The reader is total with a known set of failures *)

Theorem C03_outcomes : forall buf, Forall is_byte buf ->
  (exists ds, dmap_read_dicts buf = Ok ds) \/
  (exists e, dmap_read_dicts buf = Raise e /\
     In e [EmptyFileError; CursorError; ZeroByteError; NegativeByteError; MismatchByteError;
           DmapDataTypeError; DmapDataError;
           IndexError; UnicodeDecodeError; ValueError; OverflowError; StructError]).
Proof.
  intros buf HB. pose proof (read_dicts_spec buf HB) as H.
  destruct (dmap_read buf) as [rs|e] eqn:E; [left; exact H|right].
  exists e. split; auto. rewrite dmap_read_trace in E.
  destruct (dmap_read_fields buf) eqn:EF; [discriminate|]. injection E as ->.
  exact (read_fields_raises _ _ EF).
Qed.
Print Assumptions C03_outcomes.

Theorem C03_struct_overflow : forall buf e,
  is_bytearray buf -> dmap_read_dicts buf = Raise e ->
  e = StructError \/ e = OverflowError -> negative_slist buf.
Proof.
  intros buf e [HB HM] H HE. pose proof (read_dicts_spec buf HB) as HS.
  destruct (dmap_read buf) as [rs|e'] eqn:E; [destruct HS as [ds HS]; congruence|].
  rewrite H in HS. injection HS as ->. rewrite dmap_read_trace in E.
  destruct (dmap_read_fields buf) eqn:EF; [discriminate|]. injection E as ->.
  apply (fields_calm buf HB HM) in EF. unfold calm in EF. tauto.
Qed.
Print Assumptions C03_struct_overflow.

(** Each built-in exception does occur. *)
Example C03_index_error :
  dmap_read_dicts [1;0;1;0; 17;0;0;0; 1;0;0;0; 1;0;0;0; 65] = Raise IndexError.
Proof. reflexivity. Qed.
Example C03_unicode_error :
  dmap_read_dicts [1;0;1;0; 18;0;0;0; 1;0;0;0; 1;0;0;0; 255;0] = Raise UnicodeDecodeError.
Proof. reflexivity. Qed.
(** The array claims 9 shorts in a block that ends after one. *)
Definition ex_value_error : bytes :=
  [1;0;1;0; 33;0;0;0; 1;0;0;0; 1;0;0;0; 97;0;1;5; 98;0;2; 1;0;0;0; 9;0;0;0; 1;0].
Example C03_value_error : dmap_read_dicts ex_value_error = Raise ValueError.
Proof. reflexivity. Qed.
(** slist with three negative sizes: the element count does not fit ssize_t. *)
Definition ex_overflow_error : bytes :=
  [1;0;1;0; 43;0;0;0; 1;0;0;0; 1;0;0;0; 97;0;1;5;
   115;108;105;115;116;0;1; 3;0;0;0; 0;0;0;128; 0;0;0;128; 0;0;0;128].
Example C03_overflow_error : dmap_read_dicts ex_overflow_error = Raise OverflowError.
Proof. reflexivity. Qed.
(** slist of size -36 moves the cursor to -1. *)
Definition ex_struct_error : bytes :=
  [66;0;1;0; 36;0;0;0; 1;0;0;0; 2;0;0;0; 97;0;1;5;
   115;108;105;115;116;0;1; 1;0;0;0; 220;255;255;255; 65].
Example C03_struct_error : dmap_read_dicts ex_struct_error = Raise StructError.
Proof. reflexivity. Qed.

(** ** C04 Accepted input is exactly a sequence of well-formed blocks *)

Theorem C04_sound : forall buf rs,
  is_bytearray buf -> ~ negative_slist buf -> dmap_read buf = Ok rs ->
  exists bl, wire_file bl buf /\ Forall2 dict_of_block bl rs.
Proof. exact read_sound. Qed.
Print Assumptions C04_sound.

Example C04_case : dmap_read (ex_block_bytes ++ ex_block_bytes) = Ok [ex_record; ex_record].
Proof. reflexivity. Qed.

(** The same when only the sizes that were actually read are known not to be
    negative ([dmap_read_fields] is the reader without the dictionaries). *)
Theorem C04_sound_trace : forall buf bl,
  is_bytearray buf -> dmap_read_fields buf = Ok bl -> nonneg_sizes bl -> wire_file bl buf.
Proof. intros buf bl [HB _]. exact (fields_sound buf bl HB). Qed.
Print Assumptions C04_sound_trace.

Theorem C04_trace : forall buf rs,
  dmap_read buf = Ok rs <->
  exists bl, dmap_read_fields buf = Ok bl /\ Forall2 dict_of_block bl rs.
Proof. exact dmap_read_iff_trace. Qed.
Print Assumptions C04_trace.

Example C04_trace_case :
  dmap_read_fields ex_block_bytes = Ok [ex_block] /\ nonneg_sizes [ex_block].
Proof. split; [reflexivity|]. repeat constructor; cbn; lia. Qed.

(** The hypothesis on slist is needed: this file is accepted although its second
    block starts inside the first one. *)
Definition ex_negative_slist : bytes :=
  [1;0;1;0; 34;0;0;0; 1;0;0;0; 1;0;0;0; 97;0;1;5;
   115;108;105;115;116;0;1; 1;0;0;0; 255;255;255] ++ 255 :: tl ex_block_bytes.
Example C04_needs_hypothesis :
  (exists rs, dmap_read ex_negative_slist = Ok rs) /\
  forall bl, bl <> [] -> ~ wire_file bl ex_negative_slist.
Proof.
  split; [eexists; vm_compute; reflexivity|]. intros bl HN HW.
  pose proof (wire_file_nonneg _ _ HW) as HS.
  apply fields_complete in HW; auto; [|vm_compute; discriminate].
  vm_compute in HW. injection HW as <-.
  inversion HS as [|? ? H1 _]; subst. cbn in H1. inversion H1 as [|? ? H2 _]; subst.
  cbn in H2. inversion H2. lia.
Qed.

(** ** C05 Every well-formed byte string is accepted *)

Theorem C05_complete : forall buf bl,
  zlen buf <= 2 ^ 63 - 1 -> bl <> [] -> wire_file bl buf ->
  exists rs, dmap_read buf = Ok rs /\ Forall2 dict_of_block bl rs.
Proof. exact read_complete. Qed.
Print Assumptions C05_complete.

Example C05_case :
  wire_file [ex_block; ex_block] (ex_block_bytes ++ ex_block_bytes) /\
  zlen (ex_block_bytes ++ ex_block_bytes) <= 2 ^ 63 - 1.
Proof. split; [exact ex_wire_file|vm_compute; discriminate]. Qed.

(** A grammar word has only one reading. *)
Theorem C05_unambiguous : forall buf bl1 bl2,
  wire_file bl1 buf -> wire_file bl2 buf -> bl1 = bl2.
Proof.
  intros buf bl1 bl2 H1 H2. rewrite <- (app_nil_r buf) in H2.
  apply (wire_file_prefix bl1 buf H1) in H2 as (bl3 & -> & H3).
  inversion H3 as [|x xs b bs [id HR] HW HX HE]; [now rewrite app_nil_r|].
  apply app_eq_nil in HE as [-> _]. apply wire_block_len in HR. cbv in HR. now destruct HR.
Qed.
Print Assumptions C05_unambiguous.

(** ** C06 The integrity check *)

Theorem C06_integrity : forall fs buf r,
  is_bytearray buf -> dmap_reader_init fs (FromStream buf) = Ok r ->
  (fst (reader_integrity r) = Ok tt <-> exists ns, walk buf 0 ns) /\
  (fst (reader_integrity r) = Ok tt -> snd (reader_integrity r) = r) /\
  (forall e, fst (reader_integrity r) = Raise e ->
     In e [CursorError; ZeroByteError; NegativeByteError; MismatchByteError]).
Proof.
  intros fs buf r [HB HM] Hr. unfold dmap_reader_init, reader_new in Hr.
  destruct (zlen buf =? 0); [discriminate|]. injection Hr as <-.
  unfold reader_integrity. cbn [rdr_buf rdr_cursor rdr_records rdr_rec_num].
  pose proof (integrity_spec buf HB HM) as HS.
  destruct (integrity_outcome buf HB HM) as [HO|(e & c & HO & HE)]; rewrite HO in *; cbn [fst snd].
  - repeat split; auto; try discriminate. intros _. now apply HS.
  - repeat split; try discriminate.
    + intros H. apply HS in H. discriminate.
    + intros e' [= <-]. exact HE.
Qed.
Print Assumptions C06_integrity.

(** A file the integrity check accepts and read_records rejects (no array). *)
Definition ex_no_array : bytes := [1;0;1;0; 20;0;0;0; 1;0;0;0; 0;0;0;0; 97;0;1;5].
Example C06_case : walk (ex_no_array ++ ex_block_bytes) 0 [20; 54].
Proof.
  apply (walk_step _ 0 20 [54] [20;0;0;0]); [exists [1;0;1;0]; eexists; split; reflexivity|wint|lia|].
  apply (walk_step _ 20 54 [] [54;0;0;0]); [|wint|lia|constructor].
  exists (ex_no_array ++ [1;0;1;0]); eexists; split; reflexivity.
Qed.
Example C06_case_run :
  fst (reader_integrity (mk_reader (ex_no_array ++ ex_block_bytes) 0 [] 0)) = Ok tt /\
  dmap_read (ex_no_array ++ ex_block_bytes) = Raise ZeroByteError.
Proof. split; reflexivity. Qed.

(** ** C07 A successful read implies a successful integrity check *)

Theorem C07_read_integrity : forall fs buf r rs,
  is_bytearray buf -> dmap_reader_init fs (FromStream buf) = Ok r -> dmap_read buf = Ok rs ->
  fst (reader_integrity r) = Ok tt /\ exists ns, walk buf 0 ns /\ length ns = length rs.
Proof.
  intros fs buf r rs HB Hr H.
  assert (HW : exists ns, walk buf 0 ns /\ length ns = length rs).
  { apply dmap_read_iff_trace in H as (bl & HF & HD). destruct HB as [HB HM].
    apply fields_walk in HF as (ns & HW & HL); auto.
    exists ns. split; auto. rewrite HL. eapply Forall2_len; eauto. }
  split; auto. apply (C06_integrity fs buf r HB Hr). destruct HW as (ns & HW & _). eauto.
Qed.
Print Assumptions C07_read_integrity.

Example C07_case :
  exists r, dmap_reader_init (fun _ => None) (FromStream ex_block_bytes) = Ok r /\
  is_bytearray ex_block_bytes /\ dmap_read ex_block_bytes = Ok [ex_record].
Proof. eexists. split; [reflexivity|split; [exact ex_block_bytearray|reflexivity]]. Qed.

(** ** C08 Truncation *)

Theorem C08_truncation : forall P Q rs,
  is_bytearray (P ++ Q) -> ~ negative_slist (P ++ Q) -> dmap_read (P ++ Q) = Ok rs ->
  forall rsP, dmap_read P = Ok rsP <->
  exists bl1 bl2, bl1 <> [] /\ wire_file bl1 P /\ wire_file bl2 Q /\
    Forall2 dict_of_block (bl1 ++ bl2) rs /\ rsP = firstn (length bl1) rs.
Proof. exact read_truncated. Qed.
Print Assumptions C08_truncation.

(** Any other truncation point makes the reader raise. *)
Theorem C08_detected : forall P Q rs,
  is_bytearray (P ++ Q) -> ~ negative_slist (P ++ Q) -> dmap_read (P ++ Q) = Ok rs ->
  (forall bl1 bl2, wire_file bl1 P -> wire_file bl2 Q -> bl1 = []) ->
  exists e, dmap_read P = Raise e.
Proof.
  intros P Q rs HA HN HR HX. destruct (dmap_read P) as [rsP|e] eqn:E; [|eauto]. exfalso.
  apply (read_truncated P Q rs HA HN HR) in E as (bl1 & bl2 & H1 & H2 & H3 & _). eauto.
Qed.
Print Assumptions C08_detected.

Example C08_case :
  let P := firstn 100 (ex_block_bytes ++ ex_block_bytes) in
  let Q := skipn 100 (ex_block_bytes ++ ex_block_bytes) in
  dmap_read (P ++ Q) = Ok [ex_record; ex_record] /\ dmap_read P = Raise MismatchByteError.
Proof. split; reflexivity. Qed.
Example C08_case_boundary :
  dmap_read (ex_block_bytes ++ ex_block_bytes) = Ok [ex_record; ex_record] /\
  dmap_read ex_block_bytes = Ok [ex_record].
Proof. split; reflexivity. Qed.

(** ** C09 Concatenation *)

Theorem C09_concat : forall A B rsA rsB,
  is_bytearray (A ++ B) -> ~ negative_slist A -> ~ negative_slist B ->
  dmap_read A = Ok rsA -> dmap_read B = Ok rsB -> dmap_read (A ++ B) = Ok (rsA ++ rsB).
Proof. exact read_concat. Qed.
Print Assumptions C09_concat.

Theorem C09_remainder : forall A B rsA rs,
  is_bytearray (A ++ B) -> ~ negative_slist (A ++ B) -> B <> [] ->
  dmap_read A = Ok rsA -> dmap_read (A ++ B) = Ok rs ->
  exists rsB, dmap_read B = Ok rsB /\ rs = rsA ++ rsB.
Proof. exact read_remainder. Qed.
Print Assumptions C09_remainder.

Example C09_case :
  is_bytearray (ex_block_bytes ++ ex_block_bytes) /\ ~ negative_slist ex_block_bytes /\
  dmap_read ex_block_bytes = Ok [ex_record] /\
  dmap_read (ex_block_bytes ++ ex_block_bytes) = Ok ([ex_record] ++ [ex_record]).
Proof. split; [exact ex_two_bytearray|split; [exact ex_no_slist|split; reflexivity]]. Qed.
Example C09_garbage : exists e, dmap_read (ex_block_bytes ++ [0]) = Raise e.
Proof. eexists. reflexivity. Qed.

(** ** C10 Reading twice *)

Theorem C10_repeat : forall fs src buf r rs n,
  is_bytearray buf ->
  src = FromStream buf \/ (exists name, src = FromFile name /\ fs name = Some buf) ->
  dmap_reader_init fs src = Ok r -> dmap_read buf = Ok rs ->
  fst (read_records (iterate n (fun x => snd (read_records x)) r)) = Ok rs.
Proof.
  intros fs src buf r rs n HB HS Hr HR.
  assert (Hr' : dmap_reader_init (fun _ => None) (FromStream buf) = Ok r).
  { destruct HS as [->|(name & -> & Hn)]; cbn [dmap_reader_init] in *; [auto|]. now rewrite Hn in Hr. }
  eapply read_repeated; eauto.
Qed.
Print Assumptions C10_repeat.

(** A failing read also fails the same way from a file and from a stream. *)
Theorem C10_file_stream : forall fs name buf,
  fs name = Some buf ->
  dmap_reader_init fs (FromFile name) = dmap_reader_init fs (FromStream buf).
Proof. intros fs name buf H. cbn [dmap_reader_init]. now rewrite H. Qed.
Print Assumptions C10_file_stream.

Example C10_case :
  fst (read_records (iterate 3 (fun x => snd (read_records x))
         (mk_reader (ex_block_bytes ++ ex_block_bytes) 0 [] 0))) = Ok [ex_record; ex_record].
Proof. reflexivity. Qed.

(** ** C13 Repeated field names *)

(** In every accepted file, the record of a block has each name once, at the
    position of its first occurrence, with the value of its last. *)
Theorem C13_duplicates : forall buf rs,
  dmap_read buf = Ok rs ->
  exists bl, dmap_read_fields buf = Ok bl /\ length bl = length rs /\
    forall i b r, nth_error bl i = Some b -> nth_error rs i = Some r ->
      NoDup (map fst r) /\
      map fst r = first_occurrences (map fst (block_fields b)) /\
      (forall pre k v post, block_fields b = pre ++ (k, v) :: post ->
         ~ In k (map fst post) -> dict_get r k = Some v) /\
      (forall k, ~ In k (map fst (block_fields b)) -> dict_get r k = None).
Proof.
  intros buf rs H. apply dmap_read_iff_trace in H as (bl & HF & HD).
  exists bl. split; auto. split; [eapply Forall2_len; eauto|].
  intros i b r Hb Hr.
  assert (HB : dict_of_block b r).
  { clear HF. revert i Hb Hr. induction HD as [|b0 r0 bl rs HD0 HD IH]; intros [|i] Hb Hr;
      cbn in *; try discriminate; [congruence|eauto]. }
  destruct HB as [HK HV]. split; [rewrite HK; apply first_occurrences_NoDup|]. split; auto. split.
  - intros pre k v post HE HN. rewrite HV, HE. unfold last_value.
    rewrite fold_left_app. cbn [fold_left fst snd]. rewrite str_eqb_refl. clear - HN.
    induction post as [|[k' v'] post IH]; cbn [fold_left fst snd map In] in *; auto.
    destruct (str_eqb k' k) eqn:E; [apply str_eqb_eq in E; tauto|]. apply IH. tauto.
  - intros k HN. rewrite HV. unfold last_value. clear - HN.
    induction (block_fields b) as [|[k' v'] l IH]; cbn [fold_left fst snd map In] in *; auto.
    destruct (str_eqb k' k) eqn:E; [apply str_eqb_eq in E; tauto|]. apply IH. tauto.
Qed.
Print Assumptions C13_duplicates.

(** Scalars a, b, a and array b: the record has a (second value) and b (the
    array). *)
Example C13_case :
  dmap_read [1;0;1;0; 41;0;0;0; 3;0;0;0; 1;0;0;0; 97;0;1;5; 98;0;1;6; 97;0;1;7;
             98;0;2; 1;0;0;0; 1;0;0;0; 9;0] =
  Ok [[([97], IScalar (mk_dscalar [97] (VInt 7) 1 Fc));
       ([98], IArray (mk_darray [98] (mk_ndarray DI16 false [1] [9]) 2 Fh 1 [1]))]].
Proof. reflexivity. Qed.
