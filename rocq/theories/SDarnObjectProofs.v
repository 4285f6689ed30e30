(** Lemmas about the reader and writer objects of superdarn.py. *)
From Coq Require Import ZArith List Bool Lia Permutation.
From Verif Require Import Base Bytes BytesSpec BytesProofs DmapTypes DmapRead DmapWrite Conversions
  DmapSpec DmapReadProofs DmapFileProofs DmapStreamProofs DmapWriteSpec DmapObjectProofs
  SDarnFormats SDarn SDarnSpec SDarnChecks SDarnProofs.
Import ListNotations.
Open Scope Z_scope.

(** ** Sequences of successful reads *)

Inductive reads (buf : bytes) : Z -> list block -> Z -> Prop :=
| reads_nil c : reads buf c [] c
| reads_cons c b c1 bl c' :
    c < zlen buf -> read_record_fields buf c = (Ok b, c1) -> reads buf c1 bl c' ->
    reads buf c (b :: bl) c'.

Definition recs (bl : list block) : list record := map record_of_fields bl.

Lemma reads_blocks buf fuel : forall c bl c',
  read_blocks buf fuel c = (Ok bl, c') -> reads buf c bl c' /\ zlen buf <= c'.
Proof.
  induction fuel as [|fuel IH]; intros c bl c' H; cbn [read_blocks] in H;
    unfold bind at 1, get_cursor, end_bytes in H; destruct (c <? zlen buf) eqn:EC; try discriminate.
  - injection H as <- <-. split; [constructor|lia].
  - inv_bind H. inv_bind H. injection H as <- <-. apply IH in H1 as [HR HE]. split; auto.
    econstructor; eauto. lia.
  - injection H as <- <-. split; [constructor|lia].
Qed.

Lemma reads_fun buf c bl1 c1 : reads buf c bl1 c1 -> forall bl2 c2,
  reads buf c bl2 c2 -> zlen buf <= c2 -> exists rest, bl2 = bl1 ++ rest /\ reads buf c1 rest c2.
Proof.
  induction 1 as [c|c b c1 bl c' HC HR HRs IH]; intros bl2 c2 H2 HE; [exists bl2; auto|].
  inversion H2 as [c0|c0 b2 c12 bl3 c3 HC2 HR2 HRs2]; subst; [lia|].
  rewrite HR in HR2. injection HR2 as <- <-. destruct (IH _ _ HRs2 HE) as (rest & -> & Hr). exists rest. auto.
Qed.

Lemma fields_reads buf bl : dmap_read_fields buf = Ok bl ->
  exists c, reads buf 0 bl c /\ c = zlen buf.
Proof.
  unfold dmap_read_fields. destruct (zlen buf =? 0); [discriminate|].
  destruct (read_blocks buf (S (length buf)) 0) as [[bl0|e] c] eqn:E; [|discriminate].
  unfold end_bytes. destruct (zlen buf <? c) eqn:EC; [discriminate|]. intros [= <-].
  apply reads_blocks in E as [HR HE]. exists c. split; auto. lia.
Qed.

Lemma reads_app buf c bl1 c1 : reads buf c bl1 c1 -> forall bl2 c2,
  reads buf c1 bl2 c2 -> reads buf c (bl1 ++ bl2) c2.
Proof. induction 1; intros; cbn [app]; eauto using reads. Qed.

(** Names and items of a record as read. *)
Lemma recs_dmap_items b : Forall (fun p => dmap_item (snd p)) (record_of_fields b).
Proof.
  rewrite record_of_fields_build. apply dict_build_Forall; [constructor|].
  unfold block_fields. apply Forall_app. split; apply Forall_forall; intros p Hp;
    apply in_map_iff in Hp as (x & <- & _); cbn [snd]; eexists; constructor; reflexivity.
Qed.

(** ** The loop of _read_darn_records *)

Section Loop.
Variables gs os : list group.
Notation ok r := (forall n, read_checks gs os r n = Ok tt).

Lemma loop_trace fuel : forall r,
  zlen (rdr_buf r) - rdr_cursor r < Z.of_nat fuel ->
  (forall r0 n e, read_checks gs os r0 n = Raise e -> forall m, read_checks gs os r0 m <> Ok tt) ->
  exists bl c1,
    reads (rdr_buf r) (rdr_cursor r) bl c1 /\ Forall (fun r0 => ok r0) (recs bl) /\
    match read_darn_loop fuel gs os r with
    | (Ok _, r') => zlen (rdr_buf r) <= c1 /\
        r' = mk_reader (rdr_buf r) c1 (rdr_records r ++ recs bl) (rdr_rec_num r + zlen bl)
    | (Raise e, r') => c1 < zlen (rdr_buf r) /\ exists c2,
        r' = mk_reader (rdr_buf r) c2 (rdr_records r ++ recs bl) (rdr_rec_num r + zlen bl) /\
        (read_record_fields (rdr_buf r) c1 = (Raise e, c2) \/
         exists b, read_record_fields (rdr_buf r) c1 = (Ok b, c2) /\
                   read_checks gs os (record_of_fields b) (rdr_rec_num r + zlen bl) = Raise e)
    end.
Proof.
  induction fuel as [|fuel IH]; intros [buf c rs n] HF HU; cbn [rdr_buf rdr_cursor rdr_records rdr_rec_num] in *.
  - exists [], c. split; [constructor|]. split; [constructor|].
    unfold recs, zlen at 2. cbn [map length Z.of_nat]. rewrite app_nil_r, Z.add_0_r.
    cbn [read_darn_loop rdr_cursor rdr_buf]. unfold end_bytes.
    destruct (c <? zlen buf) eqn:EC; [lia|]. split; [lia|auto].
  - cbn [read_darn_loop rdr_cursor rdr_buf]. unfold end_bytes.
    destruct (c <? zlen buf) eqn:EC.
    2:{ exists [], c. split; [constructor|]. split; [constructor|]. unfold recs, zlen at 2.
        cbn [map length Z.of_nat]. rewrite app_nil_r, Z.add_0_r. split; [lia|auto]. }
    apply Z.ltb_lt in EC.
    unfold read_darn_record. cbn [rdr_cursor rdr_buf rdr_records rdr_rec_num].
    unfold read_record, bind at 1.
    destruct (read_record_fields buf c) as [[b|e] c1] eqn:ER.
    + unfold ret.
      destruct (read_checks gs os (record_of_fields b) n) as [[]|e] eqn:EK.
      * cbn [rdr_buf rdr_cursor rdr_records rdr_rec_num].
        pose proof (block_progress _ _ _ _ ER) as HP.
        destruct (IH (mk_reader buf c1 (rs ++ [record_of_fields b]) (n + 1))) as (bl & c2 & H1 & H2 & H3);
          cbn [rdr_buf rdr_cursor rdr_records rdr_rec_num] in *; [lia|auto|].
        exists (b :: bl), c2. split; [econstructor; eauto|].
        split.
        { cbn [recs map]. constructor; auto. intros m. destruct (read_checks gs os (record_of_fields b) m) as [[]|e] eqn:EM; auto.
          exfalso. exact (HU _ _ _ EM n EK). }
        rewrite <- app_assoc in H3. cbn [app] in H3. cbn [recs map]. rewrite zlen_cons.
        replace (n + (1 + zlen bl)) with (n + 1 + zlen bl) by lia. exact H3.
      * exists [], c. split; [constructor|]. split; [constructor|]. unfold recs, zlen at 2.
        cbn [map length Z.of_nat]. rewrite app_nil_r, Z.add_0_r. split; [lia|]. exists c1. split; auto.
        right. exists b. unfold zlen. cbn [length Z.of_nat]. rewrite Z.add_0_r. auto.
    + exists [], c. split; [constructor|]. split; [constructor|]. unfold recs, zlen at 2.
      cbn [map length Z.of_nat]. rewrite app_nil_r, Z.add_0_r. split; [lia|]. exists c1. split; auto.
Qed.
End Loop.

Lemma checks_uniform t r0 n e :
  read_checks (read_struct_list t) (read_optional_list t) r0 n = Raise e ->
  forall m, read_checks (read_struct_list t) (read_optional_list t) r0 m <> Ok tt.
Proof.
  intros H m H2. apply read_accepts in H2. apply (read_accepts t r0 n) in H2. congruence.
Qed.

Lemma reads_nonneg buf c bl c' : reads buf c bl c' -> c <= c'.
Proof. induction 1; [lia|]. apply block_progress in H0. lia. Qed.

(** On any object: the records read before the end or the error. *)
Lemma darn_records_cases t r :
  0 <= rdr_cursor r ->
  exists bl c1,
    reads (rdr_buf r) (rdr_cursor r) bl c1 /\ Forall (acceptable t) (recs bl) /\
    match read_darn_records (read_struct_list t) (read_optional_list t) r with
    | (Ok _, r') => zlen (rdr_buf r) <= c1 /\
        r' = mk_reader (rdr_buf r) c1 (rdr_records r ++ recs bl) (zlen bl)
    | (Raise e, r') => c1 < zlen (rdr_buf r) /\ exists c2,
        r' = mk_reader (rdr_buf r) c2 (rdr_records r ++ recs bl) (zlen bl) /\
        (read_record_fields (rdr_buf r) c1 = (Raise e, c2) \/
         exists b, read_record_fields (rdr_buf r) c1 = (Ok b, c2) /\
                   ~ acceptable t (record_of_fields b) /\
                   read_checks (read_struct_list t) (read_optional_list t)
                     (record_of_fields b) (zlen bl) = Raise e)
    end.
Proof.
  intros HC. unfold read_darn_records.
  destruct (loop_trace (read_struct_list t) (read_optional_list t) (S (length (rdr_buf r)))
              (mk_reader (rdr_buf r) (rdr_cursor r) (rdr_records r) 0)) as (bl & c1 & H1 & H2 & H3).
  - cbn [rdr_buf rdr_cursor]. unfold zlen in *. lia.
  - apply checks_uniform.
  - cbn [rdr_buf rdr_cursor rdr_records rdr_rec_num] in *. exists bl, c1. split; auto. split.
    + eapply Forall_impl; [|exact H2]. intros r0 H. apply (read_accepts t r0 0). apply H.
    + destruct (read_darn_loop _ _ _ _) as [[u|e] r']; auto.
      destruct H3 as (H3 & c2 & H4 & H5). split; auto. exists c2. split; auto.
      destruct H5 as [H5|(b & H5 & H6)]; auto. right. exists b. split; auto. split; auto.
      intros HA. apply (read_accepts t _ (0 + zlen bl)) in HA. congruence.
Qed.

(** On an object whose remaining bytes are a sequence of blocks. *)
Lemma darn_records_full t r BL cend :
  0 <= rdr_cursor r -> reads (rdr_buf r) (rdr_cursor r) BL cend -> zlen (rdr_buf r) <= cend ->
  (Forall (acceptable t) (recs BL) /\
   read_darn_records (read_struct_list t) (read_optional_list t) r =
     (Ok tt, mk_reader (rdr_buf r) cend (rdr_records r ++ recs BL) (zlen BL))) \/
  (exists pre b post e c1, BL = pre ++ b :: post /\ Forall (acceptable t) (recs pre) /\
     ~ acceptable t (record_of_fields b) /\
     read_checks (read_struct_list t) (read_optional_list t) (record_of_fields b) (zlen pre) = Raise e /\
     read_darn_records (read_struct_list t) (read_optional_list t) r =
       (Raise e, mk_reader (rdr_buf r) c1 (rdr_records r ++ recs pre) (zlen pre)) /\
     0 <= c1 /\ reads (rdr_buf r) c1 post cend).
Proof.
  intros H0 HR HE. destruct (darn_records_cases t r H0) as (bl & c1 & H1 & H2 & H3).
  destruct (reads_fun _ _ _ _ H1 _ _ HR HE) as (rest & -> & Hrest).
  pose proof (reads_nonneg _ _ _ _ H1) as Hc1.
  destruct (read_darn_records _ _ r) as [[[]|e] r'].
  - left. destruct H3 as [H3 ->]. inversion Hrest as [c|c b c2 bl2 c' HC ? ?]; subst; [|lia].
    rewrite app_nil_r. auto.
  - right. destruct H3 as (H3 & c2 & -> & H4). inversion Hrest as [c|c b c3 bl2 c' HC HRb HRs]; subst; [lia|].
    destruct H4 as [H4|(b' & H4 & H5 & H6)]; rewrite H4 in HRb; [discriminate|].
    injection HRb as -> ->. exists bl, b, bl2, e, c3. splits; auto.
    pose proof (block_progress _ _ _ _ H4). lia.
Qed.

(** ** SDarnWrite *)

Lemma write_uniform t r0 n e :
  write_checks (write_struct_list t) (write_optional_list t) r0 n = Raise e ->
  forall m, write_checks (write_struct_list t) (write_optional_list t) r0 m <> Ok tt.
Proof.
  intros H m H2. apply write_accepts in H2. apply (write_accepts t r0 n) in H2. congruence.
Qed.

Lemma structure_cases t rs : forall n acc,
  match structure_to_bytes (write_struct_list t) (write_optional_list t) n acc rs with
  | (Ok _, acc', rs') => Forall (acceptable t) rs /\ dmap_records_to_bytes acc rs = (Ok tt, acc', rs')
  | (Raise e, acc', rs') =>
      exists pre r post pre' acc2, rs = pre ++ r :: post /\ Forall (acceptable t) pre /\
        dmap_records_to_bytes acc pre = (Ok tt, acc2, pre') /\
        ((~ acceptable t r /\ acc' = acc2 /\ rs' = pre' ++ r :: post /\
          write_checks (write_struct_list t) (write_optional_list t) r (n + zlen pre) = Raise e) \/
         (acceptable t r /\ acc' = acc2 ++ record_rest r /\ exists r', dmap_record_to_bytes r = (Raise e, r') /\ rs' = pre' ++ r' :: post))
  end.
Proof.
  induction rs as [|r rs IH]; intros n acc; cbn [structure_to_bytes].
  - split; [constructor|reflexivity].
  - destruct (write_checks _ _ r n) as [[]|e] eqn:EK.
    + apply write_accepts in EK as HA.
      destruct (dmap_record_to_bytes r) as [[b|e] r'] eqn:EB.
      * specialize (IH (n + 1) (acc ++ b)).
        destruct (structure_to_bytes _ _ (n + 1) (acc ++ b) rs) as [[[[]|e] acc'] rs'].
        -- destruct IH as [H1 H2]. split; [constructor; auto|]. cbn [dmap_records_to_bytes]. now rewrite EB, H2.
        -- destruct IH as (pre & r0 & post & pre' & acc2 & -> & H1 & H2 & H3).
           exists (r :: pre), r0, post, (r' :: pre'), acc2. splits; auto.
           ++ cbn [dmap_records_to_bytes]. now rewrite EB, H2.
           ++ destruct H3 as [(H3 & HB3 & -> & H4)|(H3 & HB3 & r1 & H4 & ->)]; [left|right].
              ** rewrite zlen_cons. replace (n + (1 + zlen pre)) with (n + 1 + zlen pre) by lia. auto.
              ** splits; auto. exists r1. auto.
      * exists [], r, rs, [], acc. splits; auto. right. splits; auto. exists r'. auto.
    + exists [], r, rs, [], acc. splits; auto. left. splits; auto.
      * intros HA. apply (write_accepts t r n) in HA. congruence.
      * unfold zlen. cbn [length Z.of_nat]. now rewrite Z.add_0_r.
Qed.

(** With acceptable records write_<type> is write_dmap. *)
Lemma structure_accepted t rs : Forall (acceptable t) rs -> forall n acc,
  structure_to_bytes (write_struct_list t) (write_optional_list t) n acc rs =
  dmap_records_to_bytes acc rs.
Proof.
  induction 1 as [|r rs HA HF IH]; intros n acc; cbn [structure_to_bytes dmap_records_to_bytes]; auto.
  rewrite (proj2 (write_accepts t r n) HA). destruct (dmap_record_to_bytes r) as [[b|e] r']; auto.
  now rewrite IH.
Qed.

Lemma sd_write_dmap t fs w fn :
  wr_records w <> [] -> Forall (acceptable t) (wr_records w) -> sd_write t fs w fn = write_dmap fs w fn.
Proof.
  intros HN HA. rewrite write_dmap_cases. unfold sd_write. rewrite filename_check_cases.
  destruct (match fn with [] => wr_filename w | _ => fn end) as [|c n]; [reflexivity|].
  destruct w as [m rs acc]. cbn [wr_records wr_bytearr wr_filename] in *.
  destruct rs as [|r rs]; [congruence|].
  cbv beta iota zeta delta [superDARN_file_structure_to_bytes write_dmap_stream empty_record_check
    wr_records wr_filename wr_bytearr].
  rewrite (structure_accepted t (r :: rs) HA).
  destruct (dmap_records_to_bytes acc (r :: rs)) as [[[[]|e] acc'] rs']; reflexivity.
Qed.

Lemma sd_write_cases t fs w fn :
  sd_write t fs w fn =
  match (match fn with [] => wr_filename w | _ => fn end) with
  | [] => (Raise FilenameRequiredError, w, fs)
  | n => match wr_records w with
         | [] => (Raise DmapDataError, mk_writer n [] (wr_bytearr w), fs)
         | _ => match structure_to_bytes (write_struct_list t) (write_optional_list t) 0
                        (wr_bytearr w) (wr_records w) with
                | (Raise e, acc, rs) => (Raise e, mk_writer n rs acc, fs)
                | (Ok _, acc, rs) => (Ok tt, mk_writer n rs acc, fs_write fs n acc)
                end
         end
  end.
Proof.
  unfold sd_write. rewrite filename_check_cases.
  destruct (match fn with [] => wr_filename w | _ => fn end) as [|c n]; [reflexivity|].
  destruct w as [m rs acc]. cbn [wr_records wr_bytearr wr_filename].
  destruct rs as [|r rs]; [reflexivity|].
  cbv beta iota zeta delta [superDARN_file_structure_to_bytes empty_record_check wr_records wr_filename wr_bytearr].
  destruct (structure_to_bytes _ _ 0 acc (r :: rs)) as [[[[]|e] acc'] rs']; reflexivity.
Qed.
