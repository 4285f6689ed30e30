(** C86: which error write_<type> raises, and what it leaves behind.  Every
    theorem is followed by a concrete case that meets its hypotheses. *)
From Coq Require Import ZArith String List Bool Lia.
From Verif Require Import Base Bytes BytesProofs FloatBits DmapTypes DmapSpec DmapWriteSpec DmapWrite Conversions DmapFileProofs
  DmapObjectProofs SDarnFormats SDarn SDarnSpec SDarnChecks SDarnProofs SDarnProps
  DmapWriteFaultSpec DmapWriteFaultProofs SDarnFaultSpec SDarnFaultProofs.
Import ListNotations.
Open Scope string_scope.
Open Scope list_scope.
Open Scope Z_scope.

(** The checks before writing fail exactly on records that break the rules, with
    exactly this error; also when values are no DMAP structures. *)
Theorem C86_checks : forall t r n,
  (write_checks (write_struct_list t) (write_optional_list t) r n = Ok tt <-> acceptable t r) /\
  (forall e, write_checks (write_struct_list t) (write_optional_list t) r n = Raise e -> check_error t r n e).
Proof. intros t r n. split; [apply write_accepts|]. exact (write_check_error t r n). Qed.
Print Assumptions C86_checks.

(** A grid record one value of which is a number instead of a DMAP structure; one
    of its arrays with a size beyond 32 bits. *)
Definition plain_grid : record := (str "vector.mlat", IPlain (VInt 7)) :: tl (block_fields ex_grid).
Definition large_grid : record :=
  firstn 7 (block_fields ex_grid) ++
  [(str "vector.mlon", IArray (mk_darray (str "vector.mlon") (mk_ndarray DF32 false [2] [1;2]) 4 Ff 1 [2 ^ 31]))].

Example C86_checks_case :
  map (fun r => write_checks (write_struct_list Grid) (write_optional_list Grid) r 3)
    [block_fields ex_grid; plain_grid; block_fields ex_typed; block_fields ex_half; block_fields ex_extra] =
  [Ok tt; Raise AttributeError; Raise (SuperDARNDataFormatTypeError [str "vector.mlat"] 3);
   Raise (SuperDARNFieldMissingError 3 [str "vector.vel.sd"; str "vector.index"; str "vector.kvect"; str "vector.mlon"]);
   Raise (SuperDARNExtraFieldError 3 [str "foo"])].
Proof. vm_compute. reflexivity. Qed.

(** write_<type> succeeds exactly when every record obeys the rules and has no
    fault of its own, and the file is as long as the records.  Otherwise the first
    record that does not decides: an unacceptable record with the error of the
    checks, an acceptable one with the error of its first fault (C84).  No file is
    touched; the bytes of the records before it stay in the buffer of the object, and
    what the failing record leaves. *)
Theorem C86_write : forall t fs w fn,
  wr_records w <> [] -> Forall record_known (wr_records w) -> wr_filename w <> [] \/ fn <> [] ->
  let name := match fn with [] => wr_filename w | _ => fn end in
  match sd_write t fs w fn with
  | (Ok tt, w', fs') =>
      Forall (fun r => acceptable t r /\ no_fault (record_fault r)) (wr_records w) /\
      wr_records w' = map turned_record (wr_records w) /\
      exists bs, fs' name = Some bs /\ zlen bs = zlen (wr_bytearr w) + total (map record_length (wr_records w))
  | (Raise e, w', fs') =>
      fs' = fs /\ exists pre r post bs rest, wr_records w = pre ++ r :: post /\
        Forall (fun r => acceptable t r /\ no_fault (record_fault r)) pre /\
        wr_bytearr w' = wr_bytearr w ++ bs ++ rest /\ zlen bs = total (map record_length pre) /\
        ((~ acceptable t r /\ rest = [] /\ check_error t r (zlen pre) e /\
          wr_records w' = map turned_record pre ++ r :: post) \/
         (acceptable t r /\ record_fault r e /\
          exists r', record_left r r' rest /\ wr_records w' = map turned_record pre ++ r' :: post))
  end.
Proof. exact sd_write_outcome. Qed.
Print Assumptions C86_write.

(** Hence success is decided by the records alone. *)
Theorem C86_success : forall t fs w fn,
  wr_records w <> [] -> Forall record_known (wr_records w) -> wr_filename w <> [] \/ fn <> [] ->
  (fst (fst (sd_write t fs w fn)) = Ok tt <->
   Forall (fun r => acceptable t r /\ no_fault (record_fault r)) (wr_records w)).
Proof.
  intros t fs w fn HN K HF. pose proof (sd_write_outcome t fs w fn HN K HF) as O. cbv zeta in O.
  destruct (sd_write t fs w fn) as [[[[]|e] w'] fs']; cbn [fst].
  - split; [intros _; exact (proj1 O)|reflexivity].
  - split; [discriminate|]. intros H. exfalso.
    destruct O as (_ & pre & r & post & bs & rest & HR & _ & _ & _ & X). rewrite HR in H.
    apply Forall_app in H as [_ H]. inversion H as [|x l [H1 H2] _]; subst x l.
    destruct X as [(N & _)|(_ & F & _)]; [exact (N H1)|exact (H2 e F)].
Qed.
Print Assumptions C86_success.

Example C86_case :
  let run rs := let q := sd_write Grid (fun _ => None) (mk_writer [102] rs []) [] in
                (fst (fst q), zlen (wr_bytearr (snd (fst q)))) in
  Forall record_known [block_fields ex_grid; large_grid; plain_grid; block_fields ex_half] /\
  acceptable Grid large_grid /\
  run [block_fields ex_grid] = (Ok tt, record_length (block_fields ex_grid)) /\
  run [block_fields ex_grid; large_grid; plain_grid] = (Raise StructError, 229) /\
  run [block_fields ex_grid; plain_grid; large_grid] = (Raise AttributeError, 229) /\
  run [block_fields ex_half] = (Raise (SuperDARNFieldMissingError 0
    [str "vector.vel.sd"; str "vector.index"; str "vector.kvect"; str "vector.mlon"]), 0).
Proof.
  assert (T : forall p, In p grid_fitted_fields -> text (fst p)).
  { assert (X : forallb (fun p => forallb (fun z => (0 <=? z) && (z <? 128)) (fst p)) grid_fitted_fields = true) by reflexivity.
    intros p Hp. rewrite forallb_forall in X. specialize (X p Hp). rewrite forallb_forall in X.
    apply Forall_forall. intros z Hz. specialize (X z Hz). lia. }
  cbv zeta. splits.
  - assert (K : forall l l', (forall p, In p l -> In p grid_fitted_fields) -> (forall p, In p l' -> In p grid_fitted_fields) ->
              forallb (fun p => match snd p with Ff => true | _ => false end) l = true ->
              record_known (block_fields (map ex_scalar l, map ex_array l'))).
    { intros l l' H1 H2 H3. unfold record_known, block_fields. cbn [fst snd]. rewrite Forall_app, !Forall_map. split; apply Forall_forall.
      - intros [k f] Hp. rewrite forallb_forall in H3. specialize (H3 _ Hp). cbn [snd] in H3.
        destruct f; try discriminate. split; [exact (T _ (H1 _ Hp))|exact I].
      - intros p Hp. exact (T _ (H2 _ Hp)). }
    assert (F : forall n p, In p (firstn n grid_fitted_fields) -> In p grid_fitted_fields).
    { intros n p Hp. rewrite <- (firstn_skipn n). apply in_app_iff. now left. }
    assert (S : forall n p, In p (skipn n grid_fitted_fields) -> In p grid_fitted_fields).
    { intros n p Hp. rewrite <- (firstn_skipn n). apply in_app_iff. now right. }
    assert (G : record_known (block_fields ex_grid)) by (apply K; [apply F|apply S|reflexivity]).
    constructor; [exact G|]. constructor; [|constructor; [|constructor; [|constructor]]].
    + unfold large_grid. apply Forall_app. split.
      * rewrite <- (firstn_skipn 7 (block_fields ex_grid)) in G. apply Forall_app in G. exact (proj1 G).
      * constructor; [|constructor]. apply (T (str "vector.mlon", Ff)). vm_compute. tauto.
    + constructor; [exact I|]. inversion G; assumption.
    + apply K; [apply F| |reflexivity]. intros p Hp. apply (S 2%nat). rewrite <- (firstn_skipn 2 (skipn 2 _)).
      apply in_app_iff. now left.
  - accepted.
  - vm_compute. reflexivity.
  - vm_compute. reflexivity.
  - vm_compute. reflexivity.
  - vm_compute. reflexivity.
Qed.
