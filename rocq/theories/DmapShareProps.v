(** C91: DMAP structures that share shape lists; the same record given again; the
    bytearray a writer hands out. *)
From Coq Require Import ZArith List Bool Lia.
From Verif Require Import Base Bytes BytesSpec BytesProofs Utf8 FloatBits DmapTypes DmapRead DmapWrite Conversions DmapSpec DmapWriteSpec
  DmapReadProofs DmapFileProofs DmapWriterProofs DmapWriteFacts DmapObjectProofs DmapReadProps DmapWriteProps
  SDarnFormats SDarn SDarnObjectProofs SDarnWriteProofs WriterBlockedProofs DmapShare DmapShareSpec DmapShareProofs.
Import ListNotations.
Open Scope Z_scope.

(** Writing records that share lists, in whatever way, is writing records that do
    not, in which every array has the list as it is after being reversed once for
    every array of more than one dimension with the same list before it.  There is
    one such list of records.  A write that succeeds leaves the lists reversed as
    often as they were used. *)
Theorem C91_apart : forall h rs, exists rs', all_apart h [] rs rs' /\
  fst (share_write h rs) = dmap_write rs' /\
  (forall bs, fst (share_write h rs) = Ok bs ->
   forall p, snd (share_write h rs) p = list_after h (flat_map arrays_in rs) p).
Proof.
  intros h rs. destruct (all_apart_ex h rs []) as (rs' & H). exists rs'.
  destruct (share_write_apart h rs rs' H) as [H1 H2]. splits; auto. intros bs HB. rewrite H1 in HB. exact (H2 bs HB).
Qed.
Print Assumptions C91_apart.

Theorem C91_one : forall h seen rs rs1 rs2, all_apart h seen rs rs1 -> all_apart h seen rs rs2 -> rs1 = rs2.
Proof.
  assert (A : forall h seen r r1, apart h seen r r1 -> forall r2, apart h seen r r2 -> r1 = r2).
  { induction 1 as [seen|seen k s r r1 H IH|seen k a r r1 H IH]; intros r2 H2; inversion H2; subst; auto; f_equal; auto. }
  intros h seen rs rs1 rs2 H. revert rs2. induction H as [seen|seen r r' rs rs1 H HR IH]; intros rs2 H2; inversion H2; subst; auto.
  f_equal; [eapply A; eauto|auto].
Qed.
Print Assumptions C91_one.

(** Records whose arrays all have lists of their own are written as they are. *)
Theorem C91_own : forall h rs, NoDup (map sa_shape (flat_map arrays_in rs)) ->
  fst (share_write h rs) = dmap_write (map (as_is h) rs).
Proof. intros h rs H. exact (proj1 (share_write_apart h rs _ (own_all h rs [] H))). Qed.
Print Assumptions C91_own.

(** The same record [n] times: every second time with its shapes reversed. *)
Theorem C91_again : forall h r n, NoDup (map sa_shape (arrays_in r)) ->
  fst (share_write h (repeat r n)) = dmap_write (alternating n (as_is h r) (flip_record (as_is h r))).
Proof. intros h r n H. exact (proj1 (share_write_apart h _ _ (repeat_all_apart h r n H 0))). Qed.
Print Assumptions C91_again.

(** So a record that would be read back exactly (C01) is, every second time, read
    back with the sizes of its arrays in the other order and the elements as they
    were in memory. *)
Theorem C91_read : forall h r b n, NoDup (map sa_shape (arrays_in r)) -> as_is h r = block_fields b -> block_back b b ->
  (0 < n)%nat -> Z.of_nat n * block_bytes b <= 2 ^ 63 - 1 ->
  exists bs, fst (share_write h (repeat r n)) = Ok bs /\
    dmap_read bs = Ok (alternating n (block_fields b) (block_fields (block_other_way b))).
Proof.
  intros h r b n HN HE HB Hn HL.
  destruct (C01_exact (alternating n b (block_other_way b))) as (bs & H1 & _ & H3).
  - destruct n; [lia|discriminate].
  - apply alternating_forall; [exact HB|now apply block_other_back].
  - rewrite alternating_bytes. exact HL.
  - rewrite alternating_map in *. exists bs. split; [|exact H3].
    rewrite (C91_again h r n HN), HE. apply dmap_write_inv in H1 as (rs' & bl & HC & HN2 & HF & ->).
    assert (HS : forall x y : record, forall k it it' l l', x = (k, it) :: l -> y = (k, it') :: l' ->
              (forall v, it <> IPlain v) -> (forall v, it' <> IPlain v) -> check_dmap_dict (alternating n x y) = Ok (alternating n x y)).
    { intros x y k it it' l l' -> -> X1 X2. destruct n; [reflexivity|]. cbn [alternating]. unfold check_dmap_dict. cbn.
      destruct it; try reflexivity. exfalso. eapply X1; reflexivity. }
    destruct HB as (B1 & B2 & BR). destruct b as [[|s ss] aa]; [contradiction|]. clear B1.
    assert (HC2 : check_dmap_dict (alternating n (block_fields (s :: ss, aa)) (block_fields (block_other_way (s :: ss, aa)))) =
                  Ok (alternating n (block_fields (s :: ss, aa)) (block_fields (block_other_way (s :: ss, aa))))).
    { eapply HS; [reflexivity|reflexivity|discriminate|discriminate]. }
    assert (rs' = alternating n (block_fields (s :: ss, aa)) (block_fields (block_other_way (s :: ss, aa)))) as -> by congruence.
    eapply dmap_write_ok.
    + eapply HS; [reflexivity|reflexivity|discriminate|discriminate].
    + destruct n; [lia|discriminate].
    + eapply alternating_forall2; [| |exact HF].
      * intros x HX. exact HX.
      * intros x HX. apply flip_other_record; [|exact HX]. split; [discriminate|]. split; [exact B2|exact BR].
Qed.
Print Assumptions C91_read.

(** A 2 x 3 array in a record given three times. *)
Definition ex_heap : heap := fun p => match p with O => [2; 3] | _ => [6] end.
Definition ex_shared : srecord :=
  [([110], SScalar (mk_dscalar [110] (VInt 7) 2 Fh));
   ([109], SArray (mk_sarray [109] (mk_ndarray DI16 false [2; 3] [1;2;3;4;5;6]) 2 Fh 2 0));
   ([112], SArray (mk_sarray [112] (mk_ndarray DI16 false [6] [1;2;3;4;5;6]) 2 Fh 1 1))].
Definition ex_shared_block : block :=
  ([mk_dscalar [110] (VInt 7) 2 Fh],
   [mk_darray [109] (mk_ndarray DI16 false [2; 3] [1;2;3;4;5;6]) 2 Fh 2 [2; 3];
    mk_darray [112] (mk_ndarray DI16 false [6] [1;2;3;4;5;6]) 2 Fh 1 [6]]).
Example C91_case :
  NoDup (map sa_shape (arrays_in ex_shared)) /\ as_is ex_heap ex_shared = block_fields ex_shared_block /\
  block_back ex_shared_block ex_shared_block /\
  (rlet bs := fst (share_write ex_heap (repeat ex_shared 3)) in
   rlet rs := dmap_read bs in
   Ok (map (fun r => match nth_error r 1 with Some (_, IArray a) => ar_shape a | _ => [] end) rs)) =
  Ok [[2; 3]; [3; 2]; [2; 3]] /\
  snd (share_write ex_heap (repeat ex_shared 3)) O = [3; 2].
Proof.
  splits.
  - repeat constructor; cbn; lia.
  - reflexivity.
  - unfold block_back. splits; try discriminate.
    + cbn. repeat constructor; cbn; intros C; decompose [or] C; try discriminate; contradiction.
    + reflexivity.
    + constructor; [|constructor]. apply (scalar_back_intro [110] Fh); [forall_tac|].
      apply rb_int; [cbn; auto|reflexivity|cbn; lia].
    + constructor; [|constructor; [|constructor]].
      * apply (array_back_intro _ [109] Fh DI16); try reflexivity; try (forall_tac; fail); [cbv; split; congruence|].
        left. forall_tac.
      * apply (array_back_intro _ [112] Fh DI16); try reflexivity; try (forall_tac; fail); [cbv; split; congruence|].
        left. forall_tac.
  - vm_compute. reflexivity.
  - vm_compute. reflexivity.
Qed.

(** The stronger claim, that representable records are read back as they are
    whether or not some of them are the same object, is false. *)
Theorem C91_refuted : ~ forall h rs bl bs, Forall (fun b => block_back b b) bl -> map (as_is h) rs = map block_fields bl ->
  fst (share_write h rs) = Ok bs -> dmap_read bs = Ok (map block_fields bl).
Proof.
  intros C. destruct C91_case as (_ & H1 & H2 & _ & _).
  specialize (C ex_heap [ex_shared; ex_shared] [ex_shared_block; ex_shared_block]).
  destruct (fst (share_write ex_heap [ex_shared; ex_shared])) as [bs|e] eqn:E; [|vm_compute in E; discriminate E].
  specialize (C bs ltac:(constructor; [exact H2|constructor; [exact H2|constructor]]) ltac:(cbn [map]; now rewrite H1) eq_refl).
  vm_compute in E. apply ok_inj in E. subst bs. vm_compute in C. discriminate C.
Qed.
Print Assumptions C91_refuted.

(** Two arrays of one record with the same list: only the second is written with
    the sizes reversed. *)
Example C91_apart_case :
  (rlet bs := fst (share_write (fun _ => [2; 3])
     [[([110], SScalar (mk_dscalar [110] (VInt 7) 2 Fh));
       ([109], SArray (mk_sarray [109] (mk_ndarray DI16 false [2; 3] [1;2;3;4;5;6]) 2 Fh 2 0));
       ([112], SArray (mk_sarray [112] (mk_ndarray DI16 false [2; 3] [1;2;3;4;5;6]) 2 Fh 2 0))]]) in
   rlet rs := dmap_read bs in
   Ok (map (fun r => map (fun p => match snd p with IArray a => ar_shape a | _ => [] end) r) rs)) =
  Ok [[[]; [2; 3]; [3; 2]]].
Proof. vm_compute. reflexivity. Qed.

(** [write_dmap_stream] returns the buffer of the object itself (dmap.py:983), and no
    call takes anything out of it: the bytes handed out stay at the front of what the
    same bytearray holds after any further calls. *)
Theorem C91_returned : forall w rs bs w1 fs cs l w2 fs2, write_dmap_stream w rs = (Ok bs, w1) ->
  do_calls fs w1 cs = (l, w2, fs2) -> wr_bytearr w1 = bs /\ exists more, wr_bytearr w2 = bs ++ more.
Proof.
  intros w rs bs w1 fs cs l w2 fs2 H HC. apply stream_more in H as [_ H]. rewrite <- (H bs eq_refl). split; [reflexivity|].
  exact (calls_more cs fs w1 l w2 fs2 HC).
Qed.
Print Assumptions C91_returned.

Example C91_returned_case :
  (rlet w := writer_new [block_fields ex_shared_block] [] in
   let (x, w1) := write_dmap_stream w [] in
   rlet bs := x in
   match do_calls (fun _ => None) w1 [CallStream []; CallFile []; CallFile [102]] with
   | (l, w2, _) => Ok (zlen bs, map (fun x : res unit => match x with Ok _ => true | Raise _ => false end) l,
                       zlen (wr_bytearr w2), str_eqb bs (firstn (length bs) (wr_bytearr w2)))
   end) = Ok (71, [true; false; true], 213, true).
Proof. vm_compute. reflexivity. Qed.
