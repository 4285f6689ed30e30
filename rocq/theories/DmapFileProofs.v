(** Whole files: totality, integrity check, truncation, concatenation,
    dictionaries. *)
From Coq Require Import ZArith List Bool Lia ZifyBool ZifyNat.
From Verif Require Import Base Bytes BytesSpec BytesProofs Utf8 Utf8Proofs FloatBits DmapTypes
  DmapRead DmapSpec DmapReadProofs.
Import ListNotations.
Open Scope Z_scope.
Ltac Zify.zify_post_hook ::= Z.div_mod_to_equations.

Ltac splits := repeat match goal with |- _ /\ _ => split end.

(** ** The exceptions a read can raise *)

Definition read_exceptions : list exn :=
  [CursorError; ZeroByteError; NegativeByteError; MismatchByteError;
   DmapDataTypeError; DmapDataError;
   IndexError; UnicodeDecodeError; ValueError; OverflowError; StructError].

Definition raises_in {A} (m : rd A) : Prop :=
  forall c e c', m c = (Raise e, c') -> In e read_exceptions.

Ltac in_exns := cbn [read_exceptions In]; tauto.

Lemma raises_ret {A} (a : A) : raises_in (ret a).
Proof. intros c e c' H. discriminate. Qed.

Lemma raises_fail {A} e : In e read_exceptions -> raises_in (@fail A e).
Proof. intros HI c e' c' H. injection H as <- <-. exact HI. Qed.

Lemma raises_bind {A B} (m : rd A) (f : A -> rd B) :
  raises_in m -> (forall a, raises_in (f a)) -> raises_in (bind m f).
Proof.
  intros Hm Hf c e c' H. unfold bind in H. destruct (m c) as [[a|e'] c1] eqn:E.
  - eapply Hf; eauto.
  - injection H as <- <-. eapply Hm; eauto.
Qed.

Lemma raises_get : raises_in get_cursor.
Proof. intros c e c' H. discriminate. Qed.

Lemma raises_advance n : raises_in (advance n).
Proof. intros c e c' H. discriminate. Qed.

Lemma raises_lift {A} (r : res A) :
  (forall e, r = Raise e -> In e read_exceptions) -> raises_in (lift r).
Proof. intros HR c e c' H. unfold lift in H. injection H as -> <-. auto. Qed.

Lemma py_index_raises b i e : py_index b i = Raise e -> e = IndexError.
Proof. unfold py_index. destruct (_ && _); [discriminate|]. now intros [= <-]. Qed.

Lemma unpack_from_raises b o n e :
  unpack_from b o n = Raise e -> In e read_exceptions.
Proof.
  unfold unpack_from.
  repeat match goal with |- context [if ?x then _ else _] => destruct x end;
    intros [= <-]; in_exns.
Qed.

Lemma frombuffer_raises b k n o e :
  frombuffer b k n o = Raise e -> In e read_exceptions.
Proof.
  unfold frombuffer. cbv zeta.
  repeat match goal with |- context [if ?x then _ else _] => destruct x end;
    intros [= <-]; in_exns.
Qed.

Lemma np_reshape_value n s e : np_reshape n s = Raise e -> e = ValueError.
Proof.
  unfold np_reshape. cbv zeta. destruct (filter _ s) as [|x [|y l]];
    repeat match goal with |- context [if ?x then _ else _] => destruct x end; congruence.
Qed.

Lemma np_reshape_raises n s e : np_reshape n s = Raise e -> In e read_exceptions.
Proof. intros H. apply np_reshape_value in H as ->. in_exns. Qed.

Section Total.
Variable buf : bytes.

Lemma scan_nul_raises : forall fuel c k e,
  (c + k < - zlen buf \/ zlen buf - (c + k) < Z.of_nat fuel) -> (0 < fuel)%nat ->
  scan_nul buf fuel c k = Raise e -> e = IndexError.
Proof.
  induction fuel as [|fuel IH]; intros c k e HF H0 H; [lia|]. cbn [scan_nul] in H.
  destruct (py_index buf (c + k)) as [b|e'] eqn:EB.
  - assert (HR : - zlen buf <= c + k < zlen buf).
    { unfold py_index in EB. destruct (c + k <? 0) eqn:E0;
      destruct ((0 <=? _) && _) eqn:E1; try discriminate; lia. }
    destruct (negb (b =? 0) || (end_bytes buf <=? c + k)); [|discriminate].
    apply IH in H; auto; lia.
  - injection H as <-. eapply py_index_raises; eauto.
Qed.

Lemma raises_bytes_check a b : raises_in (bytes_check a b).
Proof. unfold bytes_check. destruct (_ <? _); [apply raises_fail; in_exns|apply raises_ret]. Qed.

Lemma raises_zn a : raises_in (zero_negative_check a).
Proof.
  unfold zero_negative_check. destruct (_ =? _); [apply raises_fail; in_exns|].
  destruct (_ <? _); [apply raises_fail; in_exns|apply raises_ret].
Qed.

Lemma raises_cdt t : raises_in (check_data_type t).
Proof.
  unfold check_data_type. destruct (dmap_data_types t); [apply raises_ret|].
  apply raises_fail; in_exns.
Qed.

Lemma raises_checks n : raises_in (read_data_checks buf n).
Proof.
  unfold read_data_checks. apply raises_bind; [apply raises_get|]. intros c.
  destruct (_ <=? _); [apply raises_fail; in_exns|]. cbv zeta.
  destruct (_ <? _); [apply raises_fail; in_exns|apply raises_ret].
Qed.

Lemma raises_c : raises_in (read_data_c buf).
Proof.
  unfold read_data_c. apply raises_bind; [apply raises_checks|intros _].
  apply raises_bind; [apply raises_get|intros c].
  apply raises_bind.
  - apply raises_lift. intros e H. apply py_index_raises in H as ->. in_exns.
  - intros b. apply raises_bind; [apply raises_advance|intros _; apply raises_ret].
Qed.

Lemma raises_s : raises_in (read_data_s buf).
Proof.
  unfold read_data_s. apply raises_bind; [apply raises_checks|intros _].
  apply raises_bind; [apply raises_get|intros c].
  apply raises_bind.
  - apply raises_lift. intros e H. apply scan_nul_raises in H as ->; [in_exns| |lia].
    unfold zlen. lia.
  - intros n. apply raises_bind; [apply raises_bytes_check|intros _].
    apply raises_bind; [apply raises_lift; apply unpack_from_raises|intros d].
    apply raises_bind; [apply raises_advance|intros _].
    destruct (utf8_dec d); [apply raises_ret|apply raises_fail; in_exns].
Qed.

Lemma raises_raw n : raises_in (read_data_raw buf n).
Proof.
  unfold read_data_raw. apply raises_bind; [apply raises_checks|intros _].
  apply raises_bind; [apply raises_get|intros c].
  apply raises_bind; [apply raises_lift; apply unpack_from_raises|intros d].
  apply raises_bind; [apply raises_advance|intros _; apply raises_ret].
Qed.

Lemma raises_i : raises_in (read_data_i buf).
Proof. apply raises_bind; [apply raises_raw|intros; apply raises_ret]. Qed.

Lemma raises_data f : raises_in (read_data buf f).
Proof.
  destruct f; (apply raises_bind; [|intros; apply raises_ret]);
    first [apply raises_raw|apply raises_c|apply raises_s].
Qed.

Lemma raises_scalar : raises_in (read_scalar buf).
Proof.
  unfold read_scalar. apply raises_bind; [apply raises_s|intros name].
  apply raises_bind; [apply raises_c|intros ty].
  apply raises_bind; [apply raises_cdt|intros [f|]].
  - apply raises_bind; [apply raises_data|intros; apply raises_ret].
  - apply raises_fail; in_exns.
Qed.

Lemma raises_shape n : raises_in (read_shape buf n).
Proof.
  induction n; cbn [read_shape]; [apply raises_ret|].
  apply raises_bind; [apply raises_i|intros x].
  apply raises_bind; [apply IHn|intros xs; apply raises_ret].
Qed.

Lemma raises_num shape f n : f <> Fs -> raises_in (read_numerical_array buf shape f n).
Proof.
  intros Hf. unfold read_numerical_array. rewrite fmt_dtype_eq by auto.
  apply raises_bind; [apply raises_get|intros c].
  apply raises_bind; [apply raises_lift; apply frombuffer_raises|intros raw].
  apply raises_bind; [apply raises_advance|intros _].
  apply raises_bind; [apply raises_lift; apply np_reshape_raises|intros s; apply raises_ret].
Qed.

Lemma raises_array blk : raises_in (read_array buf blk).
Proof.
  unfold read_array. apply raises_bind; [apply raises_s|intros name].
  apply raises_bind; [apply raises_c|intros ty].
  apply raises_bind; [apply raises_cdt|intros of].
  apply raises_bind; [apply raises_i|intros dim].
  apply raises_bind; [apply raises_bytes_check|intros _].
  apply raises_bind; [apply raises_zn|intros _].
  apply raises_bind; [apply raises_shape|intros shp0]. cbv zeta.
  destruct (_ && _); [apply raises_fail; in_exns|].
  destruct (existsb _ _); [apply raises_fail; in_exns|].
  apply raises_bind; [apply raises_bytes_check|intros _].
  apply raises_bind; [apply raises_bytes_check|intros _].
  destruct of as [f|]; [|apply raises_fail; in_exns].
  destruct f; try (apply raises_fail; in_exns);
    (apply raises_bind; [apply raises_num; discriminate|intros; apply raises_ret]).
Qed.

Lemma raises_scalars n : raises_in (read_scalars buf n).
Proof.
  induction n; cbn [read_scalars]; [apply raises_ret|].
  apply raises_bind; [apply raises_scalar|intros x].
  apply raises_bind; [apply IHn|intros xs; apply raises_ret].
Qed.

Lemma raises_arrays blk n : raises_in (read_arrays buf blk n).
Proof.
  induction n; cbn [read_arrays]; [apply raises_ret|].
  apply raises_bind; [apply raises_array|intros x].
  apply raises_bind; [apply IHn|intros xs; apply raises_ret].
Qed.

Lemma raises_block : raises_in (read_record_fields buf).
Proof.
  unfold read_record_fields. apply raises_bind; [apply raises_get|intros c].
  apply raises_bind; [apply raises_advance|intros _].
  apply raises_bind; [apply raises_i|intros size].
  apply raises_bind; [apply raises_get|intros c']. cbv zeta.
  apply raises_bind; [apply raises_bytes_check|intros _].
  apply raises_bind; [apply raises_zn|intros _].
  apply raises_bind; [apply raises_i|intros ns].
  apply raises_bind; [apply raises_i|intros na].
  apply raises_bind; [apply raises_zn|intros _].
  apply raises_bind; [apply raises_zn|intros _].
  apply raises_bind; [apply raises_bytes_check|intros _].
  apply raises_bind; [apply raises_scalars|intros ss].
  apply raises_bind; [apply raises_arrays|intros aa].
  apply raises_bind; [apply raises_get|intros c''].
  destruct (negb _); [apply raises_fail; in_exns|apply raises_ret].
Qed.

(** A block that is read moves the cursor forward by its stated size. *)
Lemma block_size_step c fs c' :
  0 <= c -> Forall is_byte buf -> read_record_fields buf c = (Ok fs, c') ->
  exists n szb, occurs buf (c + 4) szb /\ wire_int32 n szb /\ 0 < n /\ c' = c + n.
Proof.
  intros H0 HB H. unfold read_record_fields in H.
  inv_bind H. injection H1 as <- <-.
  inv_bind H. injection H1 as <- <-.
  inv_bindn H as size. apply read_i_ok in H1 as (szb & HO1 & HW1 & ->); auto; [|lia].
  inv_bind H. injection H1 as <- <-. cbv zeta in H.
  inv_bind H. apply bytes_check_ok in H1 as [HC1 ->].
  inv_bind H. apply zn_check_ok in H1 as [HC2 ->].
  inv_bind H. inv_bind H. inv_bind H. inv_bind H. inv_bind H. inv_bind H. inv_bind H. inv_bind H.
  match goal with HG : get_cursor _ = (Ok ?a, ?b) |- _ => injection HG as -> -> end.
  match type of H with context [if negb (?x =? ?y) then _ else _] => destruct (x =? y) eqn:ES end;
    cbn [negb] in H; [|discriminate].
  injection H as <- <-. exists size, szb. splits; auto; lia.
Qed.

Lemma block_progress c fs c' : read_record_fields buf c = (Ok fs, c') -> c < c'.
Proof.
  intros H. unfold read_record_fields in H.
  inv_bind H. injection H0 as <- <-.
  inv_bind H. injection H0 as <- <-.
  inv_bindn H as size.
  inv_bind H. injection H1 as <- <-. cbv zeta in H.
  inv_bind H. apply bytes_check_ok in H1 as [HC1 ->].
  inv_bind H. apply zn_check_ok in H1 as [HC2 ->].
  inv_bind H. inv_bind H. inv_bind H. inv_bind H. inv_bind H. inv_bind H. inv_bind H. inv_bind H.
  match goal with HG : get_cursor _ = (Ok ?a, ?b) |- _ => injection HG as -> -> end.
  match type of H with context [if negb (?x =? ?y) then _ else _] => destruct (x =? y) eqn:ES end;
    cbn [negb] in H; [|discriminate].
  injection H as <- <-. lia.
Qed.

Lemma blocks_raises : forall fuel c e c',
  zlen buf - c < Z.of_nat fuel -> read_blocks buf fuel c = (Raise e, c') ->
  In e read_exceptions.
Proof.
  induction fuel as [|fuel IH]; intros c e c' HF H; cbn [read_blocks] in H;
    unfold bind at 1, get_cursor, end_bytes in H; destruct (c <? zlen buf) eqn:EC; try discriminate.
  - lia.
  - unfold bind at 1 in H. destruct (read_record_fields buf c) as [[fs|e1] c1] eqn:EB.
    + pose proof (block_progress _ _ _ EB). unfold bind in H.
      destruct (read_blocks buf fuel c1) as [[rs|e2] c2] eqn:ER; [discriminate|].
      injection H as <- <-. eapply IH; [|exact ER]. lia.
    + injection H as <- <-. eapply raises_block; eauto.
Qed.

End Total.

(** ** The loop over the reader object *)

Lemma loop_blocks : forall fuel r,
  match read_blocks (rdr_buf r) fuel (rdr_cursor r) with
  | (Ok bl, c') =>
      read_records_loop fuel r =
      (Ok tt, mk_reader (rdr_buf r) c' (rdr_records r ++ map record_of_fields bl)
                        (rdr_rec_num r + zlen bl))
  | (Raise e, c') =>
      exists recs n, read_records_loop fuel r = (Raise e, mk_reader (rdr_buf r) c' recs n)
  end.
Proof.
  induction fuel as [|fuel IH]; intros r; cbn [read_blocks read_records_loop];
    unfold bind at 1, get_cursor; destruct (rdr_cursor r <? end_bytes (rdr_buf r)) eqn:EC.
  - unfold fail. exists (rdr_records r), (rdr_rec_num r). destruct r; reflexivity.
  - unfold ret. cbn [map]. rewrite app_nil_r. unfold zlen; cbn [length]. rewrite Z.add_0_r.
    destruct r; reflexivity.
  - destruct (read_record_fields (rdr_buf r) (rdr_cursor r)) as [[fs|e] c1] eqn:EB.
    + assert (HR : read_record (rdr_buf r) (rdr_cursor r) = (Ok (record_of_fields fs), c1))
        by (unfold read_record, bind; now rewrite EB).
      rewrite HR. erewrite bind_eq by exact EB.
      specialize (IH (mk_reader (rdr_buf r) c1 (rdr_records r ++ [record_of_fields fs])
                        (rdr_rec_num r + 1))).
      cbn [rdr_buf rdr_cursor rdr_records rdr_rec_num] in IH.
      unfold bind.
      destruct (read_blocks (rdr_buf r) fuel c1) as [[rs|e] c2].
      * unfold ret. rewrite IH. f_equal. f_equal.
        -- cbn [map]. now rewrite <- app_assoc.
        -- rewrite zlen_cons. lia.
      * exact IH.
    + assert (HR : read_record (rdr_buf r) (rdr_cursor r) = (Raise e, c1))
        by (unfold read_record, bind; now rewrite EB).
      rewrite HR. unfold bind. rewrite EB. eexists _, _. reflexivity.
  - unfold ret. cbn [map]. rewrite app_nil_r. unfold zlen; cbn [length]. rewrite Z.add_0_r.
    destruct r; reflexivity.
Qed.

Lemma dmap_read_trace content :
  dmap_read content =
  match dmap_read_fields content with
  | Ok bl => Ok (map record_of_fields bl)
  | Raise e => Raise e
  end.
Proof.
  unfold dmap_read, dmap_read_fields, reader_new.
  destruct (zlen content =? 0); [reflexivity|]. cbn [rbind].
  unfold read_records. cbn [rdr_buf].
  pose proof (loop_blocks (S (length content)) (mk_reader content 0 [] 0)) as HL.
  cbn [rdr_buf rdr_cursor rdr_records rdr_rec_num] in HL.
  destruct (read_blocks content (S (length content)) 0) as [[bl|e] c].
  - rewrite HL. cbn [rdr_buf rdr_cursor rdr_records].
    destruct (end_bytes content <? c); reflexivity.
  - destruct HL as (recs & n & ->). reflexivity.
Qed.

Lemma read_fields_raises content e :
  dmap_read_fields content = Raise e -> In e (EmptyFileError :: read_exceptions).
Proof.
  unfold dmap_read_fields. destruct (zlen content =? 0); [intros [= <-]; left; reflexivity|].
  destruct (read_blocks content (S (length content)) 0) as [[bl|e'] c] eqn:EB.
  - destruct (_ <? _); [|discriminate]. intros [= <-]. in_exns.
  - intros [= <-]. right. eapply blocks_raises; [|exact EB]. unfold zlen. lia.
Qed.

(** ** Soundness and completeness for files *)

Lemma fields_sound buf bl :
  Forall is_byte buf -> dmap_read_fields buf = Ok bl -> nonneg_sizes bl -> wire_file bl buf.
Proof.
  intros HB H HN. unfold dmap_read_fields in H.
  destruct (zlen buf =? 0) eqn:E0; [discriminate|].
  destruct (read_blocks buf (S (length buf)) 0) as [[bl'|e'] c] eqn:EB; [|discriminate].
  destruct (_ <? _) eqn:EE; [discriminate|]. injection H as ->.
  pose proof (zlen_nonneg buf).
  apply read_blocks_ok in EB as (bs & HO & HW & HC & HE); auto; [|lia].
  assert (bs = buf) as ->; auto. apply occurs_full; auto. lia.
Qed.

Lemma wire_file_len bl bs : wire_file bl bs -> 16 * zlen bl <= zlen bs.
Proof.
  intros H. refine (wire_list_len_ge _ 16 _ _ _ H).
  intros b x [id HW]. apply wire_block_len in HW. lia.
Qed.

Lemma fields_complete buf bl :
  zlen buf <= 2 ^ 63 - 1 -> bl <> [] -> wire_file bl buf -> dmap_read_fields buf = Ok bl.
Proof.
  intros HM HN HW. unfold dmap_read_fields.
  pose proof (wire_file_len _ _ HW) as HL.
  assert (zlen bl <> 0) by (rewrite zlen_0; auto). pose proof (zlen_nonneg bl).
  replace (zlen buf =? 0) with false by lia.
  rewrite (read_blocks_occ buf bl buf); auto.
  - unfold end_bytes. now replace (zlen buf <? zlen buf) with false by lia.
  - apply occurs_all.
  - unfold zlen in *. lia.
Qed.

Lemma wire_array_nonneg blk a bs : wire_array blk a bs -> Forall (fun n => 0 <= n) (ar_shape a).
Proof.
  intros [name f dims data nb db sb eb HT Hf HD HS]. cbn [ar_shape].
  eapply Forall_impl; [|exact HS]. cbn. lia.
Qed.

Lemma wire_list_Forall {A} (R : A -> bytes -> Prop) (P : A -> Prop) xs bs :
  (forall x b, R x b -> P x) -> wire_list R xs bs -> Forall P xs.
Proof. intros HR HW. induction HW; constructor; eauto. Qed.

Lemma wire_file_nonneg bl bs : wire_file bl bs -> nonneg_sizes bl.
Proof.
  apply wire_list_Forall. intros b x [id HW]. destruct HW. cbn [snd].
  eapply wire_list_Forall; [|eassumption]. intros a y. apply wire_array_nonneg.
Qed.

Lemma wire_int_bytes s n z bs : wire_int s n z bs -> Forall is_byte bs.
Proof. now intros (_ & H & _). Qed.

Lemma wire_list_bytes {A} (R : A -> bytes -> Prop) xs bs :
  (forall x b, R x b -> Forall is_byte b) -> wire_list R xs bs -> Forall is_byte bs.
Proof. intros HR HW. induction HW; [constructor|]. apply Forall_app. split; eauto. Qed.

Lemma wire_text_bytes s bs : wire_text s bs -> Forall is_byte bs.
Proof.
  intros (e & HE & _ & ->). apply Forall_app. split.
  - eapply utf8_enc_bytes; eauto.
  - repeat constructor; unfold is_byte; lia.
Qed.

Lemma wire_code_byte f : is_byte (wire_code f).
Proof. destruct f; cbn; unfold is_byte; lia. Qed.

Lemma wire_scalar_bytes s bs : wire_scalar s bs -> Forall is_byte bs.
Proof.
  intros [name f v nb vb HT HV]. apply Forall_app. split; [eapply wire_text_bytes; eauto|].
  apply Forall_app. split; [repeat constructor; apply wire_code_byte|].
  destruct HV as [b Hb|s' bs' HW|bs' HL HB|bs' HL HB|f' z bs' HIn HW]; auto.
  - eapply wire_text_bytes; eauto.
  - eapply wire_int_bytes; eauto.
Qed.

Lemma wire_array_bytes blk a bs : wire_array blk a bs -> Forall is_byte bs.
Proof.
  intros [name f dims data nb db sb eb HT Hf HD HS HDB HSB HE HP].
  apply Forall_app. split; [eapply wire_text_bytes; eauto|].
  apply Forall_app. split; [repeat constructor; apply wire_code_byte|].
  apply Forall_app. split; [eapply wire_int_bytes; eauto|].
  apply Forall_app. split; (eapply wire_list_bytes; [|eassumption]; apply wire_int_bytes).
Qed.

Lemma wire_block_bytes id b bs : wire_block id b bs -> Forall is_byte bs.
Proof.
  intros [ss aa szb nsb nab sb ab HI HIB HSS HAA HSZ HNS HNA HS HA].
  repeat (apply Forall_app; split); auto;
    try (eapply wire_int_bytes; eassumption).
  - eapply wire_list_bytes; [|eassumption]. apply wire_scalar_bytes.
  - eapply wire_list_bytes; [|eassumption]. apply wire_array_bytes.
Qed.

Lemma wire_file_bytes bl bs : wire_file bl bs -> Forall is_byte bs.
Proof. apply wire_list_bytes. intros b x [id HW]. eapply wire_block_bytes; eauto. Qed.

(** The grammar is unambiguous. *)
Lemma wire_block_fun id1 id2 b1 b2 bs :
  wire_block id1 b1 bs -> wire_block id2 b2 bs -> b1 = b2.
Proof.
  intros H1 H2. pose proof (wire_block_len _ _ _ H1).
  assert (HM : zlen bs <= ssize_max) by (unfold ssize_max; lia).
  pose proof (read_block_occ bs 0 _ _ _ HM (occurs_all bs) H1) as R1.
  pose proof (read_block_occ bs 0 _ _ _ HM (occurs_all bs) H2) as R2.
  congruence.
Qed.

(** A block is not a proper prefix of another one: its length is written in it. *)
Lemma wire_block_prefix id1 id2 b1 b2 bs1 bs2 t1 t2 :
  wire_block id1 b1 bs1 -> wire_block id2 b2 bs2 -> bs1 ++ t1 = bs2 ++ t2 -> bs1 = bs2.
Proof.
  intros H1 H2 E.
  assert (HL : zlen bs1 = zlen bs2).
  { destruct H1 as [ss aa szb nsb nab sb ab HI HIB HSS HAA HSZ HNS HNA HS HA].
    destruct H2 as [ss2 aa2 szb2 nsb2 nab2 sb2 ab2 HI2 HIB2 HSS2 HAA2 HSZ2 HNS2 HNA2 HS2 HA2].
    set (L1 := zlen (id1 ++ szb ++ _)) in *. set (L2 := zlen (id2 ++ szb2 ++ _)) in *.
    rewrite <- !app_assoc in E. apply app_eq_len in E as [-> E]; [|lia].
    apply app_eq_len in E as [-> E].
    - apply wire_int_iff in HSZ as (_ & _ & ->); [|lia].
      apply wire_int_iff in HSZ2 as (_ & _ & ->); [|lia]. reflexivity.
    - destruct HSZ as (-> & _). destruct HSZ2 as (-> & _). reflexivity. }
  apply app_eq_len in E as [-> _]; auto. unfold zlen in HL. lia.
Qed.

Lemma wire_file_prefix bl1 A : wire_file bl1 A -> forall bl B,
  wire_file bl (A ++ B) -> exists bl2, bl = bl1 ++ bl2 /\ wire_file bl2 B.
Proof.
  intros HW. induction HW as [|x xs b bs [id HR] HW IH]; intros bl B HF.
  - exists bl. auto.
  - rewrite <- app_assoc in HF. inversion HF as [HN HE|y ys b2 bs2 [id2 HR2] HF2 HN HE].
    + symmetry in HE. apply app_eq_nil in HE as [-> _]. apply wire_block_len in HR.
      unfold zlen in HR; cbn [length] in HR; lia.
    + assert (b2 = b) as -> by (eapply wire_block_prefix; eauto).
      apply app_inv_head in HE. subst bs2.
      assert (y = x) as -> by (eapply wire_block_fun; eauto).
      apply IH in HF2 as (bl2 & -> & H2). exists bl2. auto.
Qed.

Lemma wire_list_app {A} (R : A -> bytes -> Prop) xs ys a b :
  wire_list R xs a -> wire_list R ys b -> wire_list R (xs ++ ys) (a ++ b).
Proof.
  intros H1 H2. induction H1 as [|x xs c cs HR H1 IH]; cbn [app]; auto.
  rewrite <- app_assoc. now constructor.
Qed.

Lemma wire_list_app_inv {A} (R : A -> bytes -> Prop) xs ys bs :
  wire_list R (xs ++ ys) bs ->
  exists a b, bs = a ++ b /\ wire_list R xs a /\ wire_list R ys b.
Proof.
  revert bs; induction xs as [|x xs IH]; cbn [app]; intros bs H.
  - exists [], bs. splits; auto. constructor.
  - inversion H as [|? ? b bs' HR HW]; subst.
    apply IH in HW as (a & b' & -> & H1 & H2).
    exists (b ++ a), b'. rewrite <- app_assoc. splits; auto. now constructor.
Qed.

(** ** Integrity check *)

Section Integrity.
Variable buf : bytes.
Hypothesis Hbytes : Forall is_byte buf.
Hypothesis Hsize : zlen buf <= ssize_max.

Lemma walk_fun p ns1 ns2 : walk buf p ns1 -> walk buf p ns2 -> ns1 = ns2.
Proof.
  intros H1. revert ns2. induction H1 as [|p n ns szb HO HW HP H1 IH]; intros ns2 H2.
  - inversion H2 as [|p n ns szb HO HW HP H]; auto.
    apply occurs_bounds in HO. pose proof (wire_int_len _ _ _ _ HW). lia.
  - inversion H2 as [|p' n' ns' szb' HO' HW' HP' H]; subst.
    + apply occurs_bounds in HO. pose proof (wire_int_len _ _ _ _ HW). lia.
    + pose proof (wire_int_len _ _ _ _ HW). pose proof (wire_int_len _ _ _ _ HW').
      assert (szb' = szb) as -> by (eapply occurs_eq; eauto; congruence).
      apply wire_int_iff in HW as (_ & _ & ->); [|lia].
      apply wire_int_iff in HW' as (_ & _ & ->); [|lia].
      f_equal. auto.
Qed.

Lemma walk_le p ns : walk buf p ns -> 0 <= p -> p <= zlen buf /\ zlen ns <= zlen buf - p.
Proof.
  intros H. induction H as [|p n ns szb HO HW HP H IH]; intros H0.
  - unfold zlen at 3. cbn [length]. lia.
  - rewrite zlen_cons. lia.
Qed.

Lemma integrity_loop_walk p ns :
  walk buf p ns -> forall fuel, 0 <= p -> (length ns <= fuel)%nat ->
  integrity_loop buf fuel p p = (Ok (zlen buf), zlen buf).
Proof.
  intros H. induction H as [|p n ns szb HO HW HP H IH]; intros fuel H0 HF.
  - destruct fuel; cbn [integrity_loop]; unfold bind at 1, get_cursor, end_bytes;
      replace (zlen buf <? zlen buf) with false by lia; reflexivity.
  - destruct fuel as [|fuel]; cbn [length] in HF; [lia|].
    pose proof (walk_le _ _ H ltac:(lia)) as [HL _].
    pose proof (occurs_bounds _ _ _ HO) as HB. pose proof (wire_int_len _ _ _ _ HW).
    cbn [integrity_loop]. unfold bind at 1, get_cursor, end_bytes.
    replace (p <? zlen buf) with true by lia.
    unfold bind at 1, advance.
    erewrite bind_eq by (eapply read_i_occ; eauto).
    erewrite bind_eq by (apply zn_check_pass; lia). cbv zeta.
    erewrite bind_eq by (apply bytes_check_pass; lia).
    unfold bind at 1.
    replace (p + 4 + 4 + (n - 2 * 4)) with (p + n) by lia.
    apply IH; lia.
Qed.

Lemma integrity_loop_ok : forall fuel p t c',
  0 <= p <= zlen buf -> integrity_loop buf fuel p p = (Ok t, c') ->
  t = zlen buf /\ exists ns, walk buf p ns.
Proof.
  induction fuel as [|fuel IH]; intros p t c' H0 H; cbn [integrity_loop] in H;
    unfold bind at 1, get_cursor, end_bytes in H; destruct (p <? zlen buf) eqn:EC; try discriminate.
  - injection H as <- <-. assert (p = zlen buf) as -> by lia. split; auto.
    exists []. constructor.
  - unfold bind at 1, advance in H.
    inv_bindn H as n. apply read_i_ok in H1 as (szb & HO & HW & ->); auto; [|lia].
    inv_bind H. apply zn_check_ok in H1 as [HP ->]. cbv zeta in H.
    inv_bind H. apply bytes_check_ok in H1 as [HC ->].
    unfold bind at 1 in H. replace (p + 4 + 4 + (n - 2 * 4)) with (p + n) in H by lia.
    apply IH in H as (-> & ns & Hns); [|lia].
    split; auto. exists (n :: ns). econstructor; eauto.
  - injection H as <- <-. assert (p = zlen buf) as -> by lia. split; auto.
    exists []. constructor.
Qed.

Definition integrity_exceptions : list exn :=
  [CursorError; ZeroByteError; NegativeByteError; MismatchByteError].

Lemma integrity_loop_raises : forall fuel p e c',
  0 <= p <= zlen buf -> zlen buf - p < Z.of_nat fuel ->
  integrity_loop buf fuel p p = (Raise e, c') -> In e integrity_exceptions.
Proof.
  induction fuel as [|fuel IH]; intros p e c' H0 HF H; cbn [integrity_loop] in H;
    unfold bind at 1, get_cursor, end_bytes in H; destruct (p <? zlen buf) eqn:EC; try discriminate.
  - lia.
  - unfold bind at 1, advance in H.
    destruct (read_data_i buf (p + 4)) as [[n|e1] c1] eqn:EI.
    + apply read_i_ok in EI as EI'; auto; [|lia].
      destruct EI' as (szb & HO & HW & ->).
      erewrite bind_eq in H by exact EI.
      unfold bind at 1 in H.
      destruct (zero_negative_check n (p + 4 + 4)) as [[u|e1] c1] eqn:EZ.
      * apply zn_check_ok in EZ as [HP ->]. cbv zeta in H.
        unfold bind at 1 in H.
        destruct (bytes_check (p + n) (zlen buf) (p + 4 + 4)) as [[u'|e1] c1] eqn:EB.
        -- apply bytes_check_ok in EB as [HC ->].
           unfold bind at 1 in H. replace (p + 4 + 4 + (n - 2 * 4)) with (p + n) in H by lia.
           apply IH in H; auto; lia.
        -- injection H as <- <-. unfold bytes_check, fail, ret in EB.
           destruct (zlen buf <? p + n); [|discriminate]. injection EB as <- <-. cbn; tauto.
      * injection H as <- <-. unfold zero_negative_check, fail, ret in EZ.
        destruct (n =? 0); [injection EZ as <- <-; cbn; tauto|].
        destruct (n <? 0); [injection EZ as <- <-; cbn; tauto|discriminate].
    + unfold bind at 1 in H. rewrite EI in H. injection H as <- <-.
      unfold read_data_i, bind at 1 in EI.
      destruct (read_data_raw buf 4 (p + 4)) as [[bs|e2] c2] eqn:ER; [discriminate|].
      injection EI as <- <-. unfold read_data_raw, bind at 1 in ER.
      destruct (read_data_checks buf (Z.of_nat 4) (p + 4)) as [[u|e3] c3] eqn:EK.
      * apply checks_ok in EK as (K1 & K2 & ->).
        unfold bind at 1, get_cursor in ER. unfold bind at 1, lift in ER.
        unfold unpack_from, ssize_min, ssize_max in *.
        replace ((p + 4 <? - 2 ^ 63) || (2 ^ 63 - 1 <? p + 4)) with false in ER by lia.
        replace (p + 4 <? 0) with false in ER by lia.
        replace (zlen buf - (p + 4) <? Z.of_nat 4) with false in ER by lia. discriminate.
      * injection ER as <- <-. unfold read_data_checks, bind, get_cursor, fail, ret in EK.
        destruct (end_bytes buf <=? p + 4); [injection EK as <- <-; cbn; tauto|].
        destruct (end_bytes buf - (p + 4) <? Z.of_nat 4); [injection EK as <- <-; cbn; tauto|discriminate].
Qed.

Lemma integrity_spec :
  (exists ns, walk buf 0 ns) <-> test_initial_data_integrity buf 0 = (Ok tt, 0).
Proof.
  unfold test_initial_data_integrity. unfold bind at 1, get_cursor.
  change (negb (0 =? 0)) with false. cbv iota. pose proof (zlen_nonneg buf).
  split.
  - intros [ns HW]. pose proof (walk_le _ _ HW ltac:(lia)) as [_ HL].
    erewrite bind_eq by (eapply integrity_loop_walk; eauto; [lia|unfold zlen in *; lia]).
    unfold end_bytes. rewrite Z.eqb_refl. reflexivity.
  - intros HI. inv_bindn HI as t.
    apply integrity_loop_ok in H0 as (_ & HW); auto. lia.
Qed.

Lemma integrity_outcome :
  test_initial_data_integrity buf 0 = (Ok tt, 0) \/
  exists e c, test_initial_data_integrity buf 0 = (Raise e, c) /\ In e integrity_exceptions.
Proof.
  assert (HE : test_initial_data_integrity buf 0 =
    match integrity_loop buf (S (length buf)) 0 0 with
    | (Ok t, c) => (if negb (t =? end_bytes buf) then @fail unit AttributeError
                    else fun _ => (Ok tt, 0)) c
    | (Raise e, c) => (Raise e, c)
    end) by reflexivity.
  rewrite HE. pose proof (zlen_nonneg buf).
  destruct (integrity_loop buf (S (length buf)) 0 0) as [[t|e] c] eqn:EL.
  - apply integrity_loop_ok in EL as (-> & _); [|lia].
    unfold end_bytes. rewrite Z.eqb_refl. left. reflexivity.
  - right. exists e, c. split; auto. eapply integrity_loop_raises; [| |exact EL]; [lia|].
    unfold zlen. lia.
Qed.

Lemma blocks_walk : forall fuel c bl c',
  0 <= c -> read_blocks buf fuel c = (Ok bl, c') -> c' <= zlen buf ->
  exists ns, walk buf c ns /\ length ns = length bl /\ c' = zlen buf.
Proof.
  induction fuel as [|fuel IH]; intros c bl c' H0 H HE; cbn [read_blocks] in H;
    unfold bind at 1, get_cursor, end_bytes in H; destruct (c <? zlen buf) eqn:EC; try discriminate.
  - injection H as <- <-. exists []. assert (c = zlen buf) as -> by lia. splits; auto; constructor.
  - inv_bind H. inv_bind H. injection H as <- <-.
    apply block_size_step in H1 as (n & szb & HO & HW & HP & ->); auto.
    apply IH in H2 as (ns & Hns & HL & HE'); auto; [|lia].
    exists (n :: ns). splits; auto; [econstructor; eauto|cbn [length]; lia].
  - injection H as <- <-. exists []. assert (c = zlen buf) as -> by lia. splits; auto; constructor.
Qed.

Lemma fields_walk bl :
  dmap_read_fields buf = Ok bl -> exists ns, walk buf 0 ns /\ length ns = length bl.
Proof.
  unfold dmap_read_fields. destruct (zlen buf =? 0) eqn:E0; [discriminate|].
  destruct (read_blocks buf (S (length buf)) 0) as [[bl'|e'] c] eqn:EB; [|discriminate].
  destruct (_ <? _) eqn:EE; [discriminate|]. intros [= ->].
  unfold end_bytes in EE.
  apply blocks_walk in EB as (ns & HW & HL & _); [|lia|lia]. eauto.
Qed.

End Integrity.

(** ** Repeated reads *)

Lemma read_records_fresh content bl :
  dmap_read_fields content = Ok bl ->
  Forall is_byte content ->
  read_records (mk_reader content 0 [] 0) =
  (Ok (map record_of_fields bl),
   mk_reader content (zlen content) (map record_of_fields bl) (zlen bl)).
Proof.
  intros H HB. unfold dmap_read_fields in H. destruct (zlen content =? 0) eqn:E0; [discriminate|].
  unfold read_records. cbn [rdr_buf].
  pose proof (loop_blocks (S (length content)) (mk_reader content 0 [] 0)) as HL.
  cbn [rdr_buf rdr_cursor rdr_records rdr_rec_num] in HL.
  destruct (read_blocks content (S (length content)) 0) as [[bl'|e] c] eqn:EB; [|discriminate].
  destruct (_ <? _) eqn:EE; [discriminate|]. injection H as ->.
  unfold end_bytes in EE.
  apply blocks_walk in EB as (_ & _ & _ & ->); auto; try lia.
  rewrite HL. cbn [rdr_buf rdr_cursor rdr_records]. unfold end_bytes.
  replace (zlen content <? zlen content) with false by lia. reflexivity.
Qed.

Lemma read_records_again r :
  rdr_cursor r = zlen (rdr_buf r) -> read_records r = (Ok (rdr_records r), r).
Proof.
  intros H. unfold read_records. cbn [read_records_loop]. unfold end_bytes. rewrite H.
  replace (zlen (rdr_buf r) <? zlen (rdr_buf r)) with false by lia.
  rewrite H. now replace (zlen (rdr_buf r) <? zlen (rdr_buf r)) with false by lia.
Qed.

(** ** Dictionaries *)

Lemma dict_get_set {A} (d : dict A) k v k' :
  dict_get (dict_set d k v) k' = if str_eqb k k' then Some v else dict_get d k'.
Proof.
  induction d as [|[k0 v0] d IH]; cbn [dict_set dict_get]; auto.
  destruct (str_eqb k0 k) eqn:E.
  - apply str_eqb_eq in E. subst k0. cbn [dict_get]. destruct (str_eqb k k'); auto.
  - cbn [dict_get]. rewrite IH. destruct (str_eqb k0 k') eqn:E2; auto.
    apply str_eqb_eq in E2. subst k0. rewrite str_eqb_sym, E. reflexivity.
Qed.

Lemma dict_set_keys {A} (d : dict A) k v :
  map fst (dict_set d k v) = if str_mem k (map fst d) then map fst d else map fst d ++ [k].
Proof.
  induction d as [|[k0 v0] d IH]; cbn [dict_set map fst str_mem]; auto.
  destruct (str_eqb k0 k) eqn:E; cbn [map fst orb]; auto.
  rewrite IH. destruct (str_mem k (map fst d)); reflexivity.
Qed.

Definition dict_build {A} (l : list (pystr * A)) (d : dict A) : dict A :=
  fold_left (fun d p => dict_set d (fst p) (snd p)) l d.

Lemma record_of_fields_build fs : record_of_fields fs = dict_build (block_fields fs) [].
Proof.
  unfold record_of_fields, dict_build, block_fields. rewrite fold_left_app.
  assert (H : forall (aa : list darray) d,
    fold_left (fun d a => dict_set d (ar_name a) (IArray a)) aa d =
    fold_left (fun d p => dict_set d (fst p) (snd p)) (map (fun a => (ar_name a, IArray a)) aa) d).
  { induction aa as [|a aa IH]; intros d; cbn [fold_left map fst snd]; auto. }
  assert (H2 : forall (ss : list dscalar) d,
    fold_left (fun d s => dict_set d (sc_name s) (IScalar s)) ss d =
    fold_left (fun d p => dict_set d (fst p) (snd p)) (map (fun s => (sc_name s, IScalar s)) ss) d).
  { induction ss as [|s ss IH]; intros d; cbn [fold_left map fst snd]; auto. }
  rewrite H, H2. reflexivity.
Qed.

Lemma dict_build_get {A} (l : list (pystr * A)) k : forall d,
  dict_get (dict_build l d) k =
  fold_left (fun acc p => if str_eqb (fst p) k then Some (snd p) else acc) l (dict_get d k).
Proof.
  unfold dict_build. induction l as [|[k0 v0] l IH]; intros d; cbn [fold_left fst snd]; auto.
  rewrite IH, dict_get_set. reflexivity.
Qed.

Lemma filter_filter {A} (f g : A -> bool) l :
  filter f (filter g l) = filter (fun x => g x && f x) l.
Proof.
  induction l as [|x l IH]; cbn [filter]; auto.
  destruct (g x); cbn [filter andb]; rewrite IH; auto. 
Qed.

Lemma dict_build_keys {A} (l : list (pystr * A)) : forall d,
  map fst (dict_build l d) =
  map fst d ++ filter (fun k => negb (str_mem k (map fst d))) (first_occurrences (map fst l)).
Proof.
  unfold dict_build. induction l as [|[k0 v0] l IH]; intros d; cbn [fold_left fst snd map first_occurrences].
  - cbn. now rewrite app_nil_r.
  - rewrite IH, dict_set_keys. cbn [filter].
    destruct (str_mem k0 (map fst d)) eqn:EM; cbn [negb].
    + f_equal. rewrite filter_filter. apply filter_ext. intros k.
      destruct (str_eqb k k0) eqn:EK; cbn [negb andb]; auto.
      apply str_eqb_eq in EK. subst. now rewrite EM.
    + rewrite <- app_assoc. f_equal. cbn [app]. f_equal. rewrite filter_filter.
      apply filter_ext. intros k.
      assert (HM : str_mem k (map fst d ++ [k0]) = str_mem k (map fst d) || str_eqb k0 k).
      { clear. induction (map fst d) as [|x m IH]; cbn [app str_mem]; [now rewrite orb_false_r|].
        rewrite IH. now rewrite orb_assoc. }
      rewrite HM, negb_orb, str_eqb_sym, andb_comm. reflexivity.
Qed.

Lemma record_keys fs : map fst (record_of_fields fs) = first_occurrences (map fst (block_fields fs)).
Proof.
  rewrite record_of_fields_build, dict_build_keys. cbn [map app].
  generalize (first_occurrences (map fst (block_fields fs))). intros m.
  induction m as [|x m IH]; auto. cbn. f_equal. exact IH.
Qed.

Lemma record_get fs k : dict_get (record_of_fields fs) k = last_value k (block_fields fs).
Proof. rewrite record_of_fields_build, dict_build_get. reflexivity. Qed.

Lemma first_occurrences_In k l : In k (first_occurrences l) <-> In k l.
Proof.
  induction l as [|x l IH]; cbn [first_occurrences In]; [tauto|].
  rewrite filter_In, IH. split; [tauto|].
  intros [->|H]; [auto|]. destruct (str_eqb k x) eqn:E; [|right; auto].
  apply str_eqb_eq in E. auto.
Qed.

Lemma first_occurrences_nodup_id l : NoDup l -> first_occurrences l = l.
Proof.
  induction 1 as [|x l HN HD IH]; cbn [first_occurrences]; auto. rewrite IH. f_equal.
  clear - HN. induction l as [|y l IH]; cbn [filter In] in *; auto.
  destruct (str_eqb y x) eqn:E.
  - apply str_eqb_eq in E. tauto.
  - cbn [negb]. f_equal. apply IH. tauto.
Qed.

Lemma first_occurrences_NoDup l : NoDup (first_occurrences l).
Proof.
  induction l as [|x l IH]; cbn [first_occurrences]; constructor.
  - rewrite filter_In, str_eqb_refl. intros [_ H]. discriminate.
  - now apply NoDup_filter.
Qed.

(** Without repeated names the dictionary is the list of fields. *)
Lemma dict_build_nodup {A} (l : list (pystr * A)) : forall d,
  NoDup (map fst d ++ map fst l) -> dict_build l d = d ++ l.
Proof.
  unfold dict_build. induction l as [|[k0 v0] l IH]; intros d H; cbn [fold_left fst snd].
  - now rewrite app_nil_r.
  - cbn [map fst] in H.
    assert (HS : dict_set d k0 v0 = d ++ [(k0, v0)]).
    { apply NoDup_remove_2 in H. rewrite in_app_iff in H.
      clear - H. induction d as [|[k1 v1] d IH]; cbn [dict_set app map fst In] in *; auto.
      destruct (str_eqb k1 k0) eqn:E.
      - apply str_eqb_eq in E. tauto.
      - f_equal. apply IH. tauto. }
    rewrite HS, IH; [now rewrite <- app_assoc|].
    rewrite map_app, <- app_assoc. exact H.
Qed.

Lemma record_of_fields_nodup fs :
  NoDup (map fst (block_fields fs)) -> record_of_fields fs = block_fields fs.
Proof. intros H. rewrite record_of_fields_build. now apply dict_build_nodup. Qed.

(** ** struct.error and OverflowError need a negative slist size *)

Section Safe.
Variable buf : bytes.
Hypothesis Hbytes : Forall is_byte buf.
Hypothesis Hsize : zlen buf <= ssize_max.

Definition calm (e : exn) : Prop := e <> StructError /\ e <> OverflowError.

Definition outcome {A} (x : res A * Z) : Prop :=
  match x with
  | (Ok _, c) => 0 <= c
  | (Raise e, _) => calm e
  end.

Lemma out_bind {A B} (m : rd A) (f : A -> rd B) c :
  outcome (m c) -> (forall a c1, m c = (Ok a, c1) -> 0 <= c1 -> outcome (f a c1)) ->
  outcome (bind m f c).
Proof.
  intros Hm Hf. unfold bind. destruct (m c) as [[a|e] c1]; cbn [outcome] in *; auto.
Qed.

Ltac calmt := split; discriminate.

Lemma out_bc a b c : 0 <= c -> outcome (bytes_check a b c).
Proof. unfold bytes_check. destruct (_ <? _); cbn; [calmt|auto]. Qed.

Lemma out_zn a c : 0 <= c -> outcome (zero_negative_check a c).
Proof.
  unfold zero_negative_check. destruct (_ =? _); cbn; [calmt|].
  destruct (_ <? _); cbn; [calmt|auto].
Qed.

Lemma out_cdt a c : 0 <= c -> outcome (check_data_type a c).
Proof. unfold check_data_type. destruct (dmap_data_types a); cbn; [auto|calmt]. Qed.

Lemma out_checks n c : 0 <= c -> outcome (read_data_checks buf n c).
Proof.
  intros H. unfold read_data_checks, bind, get_cursor.
  destruct (_ <=? _); cbn; [calmt|]. destruct (_ <? _); cbn; [calmt|auto].
Qed.

Lemma unpack_from_calm c n :
  0 <= c -> c < zlen buf -> n <= zlen buf - c -> exists x, unpack_from buf c n = Ok x.
Proof.
  intros H1 H2 H3. unfold unpack_from, ssize_min, ssize_max in *.
  replace ((c <? - 2 ^ 63) || (2 ^ 63 - 1 <? c)) with false by lia.
  replace (c <? 0) with false by lia. replace (zlen buf - c <? n) with false by lia. eauto.
Qed.

Lemma out_c c : 0 <= c -> outcome (read_data_c buf c).
Proof.
  intros H. unfold read_data_c. apply out_bind; [now apply out_checks|]. intros u c1 H1 H1'.
  unfold bind, get_cursor, lift, advance, ret.
  destruct (py_index buf c1) as [b|e] eqn:E; cbn; [lia|].
  apply py_index_raises in E as ->. calmt.
Qed.

Lemma out_raw n c : 0 <= c -> outcome (read_data_raw buf n c).
Proof.
  intros H. unfold read_data_raw. apply out_bind; [now apply out_checks|]. intros u c1 H1 H1'.
  apply checks_ok in H1 as (K1 & K2 & ->).
  unfold bind, get_cursor, lift, advance, ret.
  destruct (unpack_from_calm c (Z.of_nat n)) as [x ->]; auto. cbn. lia.
Qed.

Lemma out_i c : 0 <= c -> outcome (read_data_i buf c).
Proof. intros H. apply out_bind; [now apply out_raw|]. intros; cbn; auto. Qed.

Lemma out_s c : 0 <= c -> outcome (read_data_s buf c).
Proof.
  intros H. unfold read_data_s. apply out_bind; [now apply out_checks|]. intros u c1 H1 H1'.
  apply checks_ok in H1 as (K1 & K2 & ->).
  unfold bind at 1, get_cursor. unfold bind at 1, lift.
  destruct (scan_nul buf (S (2 * length buf)) c 0) as [n|e] eqn:ES.
  - apply scan_nul_ok in ES as (s & HO & HN & ->); [|lia].
    apply occurs_bounds in HO as [_ HO]. rewrite zlen_app in HO. change (zlen [0]) with 1 in HO.
    pose proof (zlen_nonneg s).
    apply out_bind; [now apply out_bc|]. intros u2 c2 H2 _. apply bytes_check_ok in H2 as [_ ->].
    unfold bind at 1, lift.
    destruct (unpack_from_calm c (0 + zlen s)) as [x ->]; auto; [lia|].
    unfold bind, advance. destruct (utf8_dec x); cbn; [lia|calmt].
  - apply scan_nul_raises in ES as ->; [cbn; calmt| |lia]. unfold zlen; lia.
Qed.

Lemma out_data f c : 0 <= c -> outcome (read_data buf f c).
Proof.
  intros H. destruct f; (apply out_bind; [first [now apply out_raw|now apply out_c|now apply out_s]|]);
    intros; cbn; auto.
Qed.

Lemma out_scalar c : 0 <= c -> outcome (read_scalar buf c).
Proof.
  intros H. unfold read_scalar.
  apply out_bind; [now apply out_s|]. intros name c1 _ H1.
  apply out_bind; [now apply out_c|]. intros ty c2 _ H2.
  apply out_bind; [now apply out_cdt|]. intros [f|] c3 _ H3; [|cbn; calmt].
  apply out_bind; [now apply out_data|]. intros; cbn; auto.
Qed.

Lemma out_shape n : forall c, 0 <= c -> outcome (read_shape buf n c).
Proof.
  induction n; intros c H; cbn [read_shape]; [exact H|].
  apply out_bind; [now apply out_i|]. intros x c1 _ H1.
  apply out_bind; [now apply IHn|]. intros; cbn; auto.
Qed.

Lemma out_scalars n : forall c, 0 <= c -> outcome (read_scalars buf n c).
Proof.
  induction n; intros c H; cbn [read_scalars]; [exact H|].
  apply out_bind; [now apply out_scalar|]. intros x c1 _ H1.
  apply out_bind; [now apply IHn|]. intros; cbn; auto.
Qed.

(** The same up to a negative slist size. *)
Definition outcome_ns {A} (x : res A * Z) : Prop := negative_slist buf \/ outcome x.

Lemma out_bind_ns {A B} (m : rd A) (f : A -> rd B) c :
  outcome_ns (m c) -> (forall a c1, m c = (Ok a, c1) -> 0 <= c1 -> outcome_ns (f a c1)) ->
  outcome_ns (bind m f c).
Proof.
  intros [HS|Hm] Hf; [now left|].
  unfold bind. destruct (m c) as [[a|e] c1]; cbn [outcome] in Hm; [auto|right; auto].
Qed.

Lemma out_array blk c : 0 <= c -> blk <= ssize_max -> outcome_ns (read_array buf blk c).
Proof.
  intros H Hblk. unfold read_array.
  apply out_bind_ns; [right; now apply out_s|]. intros name c1 Es H1.
  apply read_s_ok in Es as (nb & HO1 & HW1 & ->); auto.
  apply out_bind_ns; [right; now apply out_c|]. intros ty c2 Ec H2.
  apply read_c_ok in Ec as (HO2 & ->); auto.
  apply out_bind_ns; [right; now apply out_cdt|]. intros of c3 Et H3.
  apply check_data_type_ok in Et as (HD & ->).
  apply out_bind_ns; [right; now apply out_i|]. intros dim c4 Ei H4.
  apply read_i_ok in Ei as (db & HO3 & HW3 & ->); auto.
  pose proof (wire_int_len _ _ _ _ HW3) as HL3.
  apply out_bind_ns; [right; now apply out_bc|]. intros u5 c5 E5 _. apply bytes_check_ok in E5 as [HC1 ->].
  apply out_bind_ns; [right; now apply out_zn|]. intros u6 c6 E6 _. apply zn_check_ok in E6 as [HC2 ->].
  apply out_bind_ns; [right; now apply out_shape|]. intros shp0 c7 E7 H7.
  pose proof (occurs_bounds _ _ _ HO3) as HB3.
  apply read_shape_ok in E7 as (HLs & sb & HO4 & HW4 & ->); auto; [|lia].
  cbv zeta. set (shp := if 1 <? dim then rev shp0 else shp0).
  destruct (existsb (fun x => x <=? 0) shp && negb (str_eqb name s_slist)) eqn:EX1; [right; cbn; calmt|].
  destruct (existsb (fun x => blk <=? x) shp) eqn:EX2; [right; cbn; calmt|].
  apply out_bind_ns; [right; now apply out_bc|]. intros u8 c8 E8 _. apply bytes_check_ok in E8 as [HC3 ->].
  apply out_bind_ns; [right; now apply out_bc|]. intros u9 c9 E9 _. apply bytes_check_ok in E9 as [HC4 ->].
  destruct (Forall_Exists_dec (fun n => 0 <= n) (fun n => Z_le_dec 0 n) shp) as [HNN|HNN].
  2:{ left. apply Exists_exists in HNN as (n & Hn & Hneg).
    assert (HE : existsb (fun x => x <=? 0) shp = true).
    { apply existsb_exists. exists n. split; auto. lia. }
    rewrite HE in EX1. cbn [andb] in EX1. destruct (str_eqb name s_slist) eqn:EN; [|discriminate].
    apply str_eqb_eq in EN. subst name.
    destruct HW1 as (e & HE1 & HE2 & ->).
    assert (e = s_slist) as -> by (vm_compute in HE1; injection HE1 as <-; reflexivity).
    exists c, ty, shp0, db, sb. splits.
    - change (s_slist ++ [0] ++ [ty] ++ db ++ sb) with ((s_slist ++ [0]) ++ [ty] ++ db ++ sb).
      rewrite occurs_app. split; auto. rewrite !occurs_app. change (zlen [ty]) with 1.
      rewrite HL3. auto.
    - replace (zlen shp0) with dim by (unfold zlen; lia). exact HW3.
    - exact HW4.
    - rewrite Exists_exists. exists n. split; [|lia]. unfold shp in Hn.
      destruct (1 <? dim); auto. now apply in_rev. }
  pose proof (product_nonneg _ HNN) as HPN. rewrite <- prod_product in HPN.
  destruct of as [f|]; [|right; cbn; calmt].
  assert (HF : f = Fs \/ f <> Fs) by (destruct f; auto; right; discriminate).
  destruct HF as [->|HF]; [right; cbn; calmt|].
  replace (match f with Fs => fail DmapDataError | _ => _ end)
    with (do array_value <- read_numerical_array buf shp f (prod shp);
          ret (mk_darray name array_value ty f dim shp))
    by (destruct f; auto; congruence).
  apply out_bind_ns; [|intros; right; cbn; auto].
  right. unfold read_numerical_array. rewrite fmt_dtype_eq by auto.
  unfold bind at 1, get_cursor. unfold bind at 1, lift.
  assert (HFB : forall e, frombuffer buf (fmt_size f) (prod shp) (c + zlen nb + 1 + 4 + zlen sb)
                = Raise e -> e = ValueError).
  { intros e. unfold frombuffer. pose proof (occurs_bounds _ _ _ HO4) as HB4.
    pose proof (zlen_nonneg sb). unfold ssize_min, ssize_max in *.
    replace ((prod shp <? - 2 ^ 63) || (2 ^ 63 - 1 <? prod shp)) with false by lia.
    replace ((_ <? - 2 ^ 63) || (2 ^ 63 - 1 <? _)) with false by lia.
    replace (prod shp <? 0) with false by lia.
    repeat match goal with |- context [if ?x then _ else _] => destruct x end; congruence. }
  destruct (frombuffer _ _ _ _) as [raw|e] eqn:EF; [|cbn; rewrite (HFB _ eq_refl); calmt].
  unfold bind at 1, advance. unfold bind, lift, ret.
  destruct (np_reshape (zlen raw) shp) as [shp'|e] eqn:ER; cbn [outcome].
  - pose proof (zlen_nonneg sb). nia.
  - apply np_reshape_value in ER as ->. calmt.
Qed.

Lemma out_arrays blk n : blk <= ssize_max -> forall c, 0 <= c -> outcome_ns (read_arrays buf blk n c).
Proof.
  intros Hblk. induction n; intros c H; cbn [read_arrays]; [right; exact H|].
  apply out_bind_ns; [now apply out_array|]. intros x c1 _ H1.
  apply out_bind_ns; [now apply IHn|]. intros; right; cbn; auto.
Qed.

Lemma out_block c : 0 <= c -> outcome_ns (read_record_fields buf c).
Proof.
  intros H. unfold read_record_fields. unfold bind at 1, get_cursor. unfold bind at 1, advance.
  apply out_bind_ns; [right; apply out_i; lia|]. intros size c1 Es H1.
  apply read_i_ok in Es as (szb & HO & HW & ->); auto; [|lia].
  destruct HW as (_ & _ & HF & _). apply fits_iff in HF; [|lia]. apply int32_range in HF.
  unfold bind at 1, get_cursor. cbv zeta.
  apply out_bind_ns; [right; now apply out_bc|]. intros u2 c2 _ H2.
  apply out_bind_ns; [right; now apply out_zn|]. intros u3 c3 _ H3.
  apply out_bind_ns; [right; now apply out_i|]. intros ns c4 _ H4.
  apply out_bind_ns; [right; now apply out_i|]. intros na c5 _ H5.
  apply out_bind_ns; [right; now apply out_zn|]. intros u6 c6 _ H6.
  apply out_bind_ns; [right; now apply out_zn|]. intros u7 c7 _ H7.
  apply out_bind_ns; [right; now apply out_bc|]. intros u8 c8 _ H8.
  apply out_bind_ns; [right; now apply out_scalars|]. intros ss c9 _ H9.
  apply out_bind_ns; [apply out_arrays; auto; unfold ssize_max; lia|]. intros aa c10 _ H10.
  unfold bind, get_cursor. right. destruct (negb _); cbn; [calmt|auto].
Qed.

Lemma out_blocks fuel : forall c, 0 <= c -> outcome_ns (read_blocks buf fuel c).
Proof.
  induction fuel as [|fuel IH]; intros c H; cbn [read_blocks];
    unfold bind at 1, get_cursor; destruct (_ <? _); try (right; exact H); [right; cbn; calmt|].
  apply out_bind_ns; [now apply out_block|]. intros fs c1 _ H1.
  apply out_bind_ns; [now apply IH|]. intros; right; cbn; auto.
Qed.

Lemma fields_calm e : dmap_read_fields buf = Raise e -> calm e \/ negative_slist buf.
Proof.
  unfold dmap_read_fields. destruct (zlen buf =? 0); [intros [= <-]; left; calmt|].
  destruct (out_blocks (S (length buf)) 0 ltac:(lia)) as [HS|HO]; [auto|].
  destruct (read_blocks buf (S (length buf)) 0) as [[bl|e'] c]; cbn [outcome] in HO.
  - destruct (_ <? _); [|discriminate]. intros [= <-]. left. calmt.
  - intros [= <-]. auto.
Qed.

End Safe.
