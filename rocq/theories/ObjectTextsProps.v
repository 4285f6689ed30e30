(** The property C75: the texts of the objects. *)
From Coq Require Import String ZArith List Bool Lia.
From Verif Require Import Base Bytes BytesProofs DmapTypes DmapSpec DmapRead DmapReadProofs DmapReadProps DmapWrite DmapWriteFacts DmapFaultSpec DmapFaultProps Conversions SDarnFormats SDarn SDarnSpec
  SDarnFileProofs SDarnObjectProofs SDarnProps SDarnObjectProps BorealisTypes BorealisFormats BorealisTime BorealisFile BorealisConvertFieldSpec BorealisConvertTailProofs ObjectTexts ObjectTextSpec.
Import ListNotations.
Open Scope list_scope.
Open Scope Z_scope.

(** ** C75 Texts *)

(** The texts of a DMAP reader: the class, the source, how far it has come, the number of
    the record and the number of bytes. *)
Definition shows (src : source) (r : DmapRead.reader) (cursor number total : Z) : Prop :=
  exists c n b, numeral cursor c /\ numeral number n /\ numeral total b /\
    forall name, src = FromFile name \/ (exists content, src = FromStream content) /\ name = str "stream" ->
    (forall cls, reader_repr cls src r = cls ++ str "(" ++ name ++ str ", " ++ c ++ str ", " ++ n ++ str ", " ++ b ++ str ")") /\
    reader_str src r = str "Reading from " ++ name ++ str " at cursor: " ++ c ++ str " record number: " ++ n ++
                       str " with a total number of bytes: " ++ b.
Lemma shown_as src r : shows src r (rdr_cursor r) (rdr_rec_num r) (zlen (rdr_buf r)).
Proof.
  exists (dec (rdr_cursor r)), (dec (rdr_rec_num r)), (dec (zlen (rdr_buf r))). do 3 (split; [apply dec_numeral|]).
  intros name H. assert (E : source_name src = name) by (destruct H as [-> | [(c & ->) ->]]; reflexivity).
  unfold reader_repr, reader_str. rewrite E. split; reflexivity.
Qed.

Lemma loop_state fuel : forall r x r', read_records_loop fuel r = (x, r') ->
  rdr_buf r' = rdr_buf r /\ (exists l, rdr_records r' = rdr_records r ++ l /\ rdr_rec_num r' = rdr_rec_num r + zlen l) /\
  (x = Ok tt -> zlen (rdr_buf r) <= rdr_cursor r').
Proof.
  induction fuel as [|fuel IH]; intros r x r' H; cbn [read_records_loop] in H; unfold end_bytes in H;
    destruct (rdr_cursor r <? zlen (rdr_buf r)) eqn:E.
  - injection H as <- <-. split; [reflexivity|]. split; [exists []; rewrite app_nil_r; cbn; split; [reflexivity|lia]|discriminate].
  - injection H as <- <-. split; [reflexivity|]. split; [exists []; rewrite app_nil_r; cbn; split; [reflexivity|lia]|lia].
  - destruct (DmapRead.read_record (rdr_buf r) (rdr_cursor r)) as [[rec|e] c].
    + apply IH in H as (H1 & (l & H2 & H3) & H4). cbn [rdr_buf rdr_cursor rdr_records rdr_rec_num] in *. split; [exact H1|].
      split; [|exact H4]. exists (rec :: l). rewrite H2, H3, <- app_assoc, zlen_cons. split; [reflexivity|lia].
    + injection H as <- <-. cbn [rdr_buf rdr_cursor rdr_records rdr_rec_num]. split; [reflexivity|].
      split; [exists []; rewrite app_nil_r; cbn; split; [reflexivity|lia]|discriminate].
  - injection H as <- <-. split; [reflexivity|]. split; [exists []; rewrite app_nil_r; cbn; split; [reflexivity|lia]|lia].
Qed.

(** A new reader is at 0 of all bytes and at record 0; after reading it is at the end and
    at the number of records that were read; after a failure it shows the number of
    records before the failure. *)
Theorem C75_reader : forall fs src r, dmap_reader_init fs src = Ok r ->
  shows src r 0 0 (zlen (rdr_buf r)) /\
  forall x r', DmapRead.read_records r = (x, r') ->
    match x with
    | Ok rs => shows src r' (zlen (rdr_buf r)) (zlen rs) (zlen (rdr_buf r))
    | Raise _ => exists c, shows src r' c (zlen (rdr_records r')) (zlen (rdr_buf r))
    end.
Proof.
  intros fs src r HI. destruct (init_fresh fs src r HI) as [HF _]. split.
  - pose proof (shown_as src r) as H. rewrite HF in H at 2 3. exact H.
  - intros x r' H. unfold DmapRead.read_records in H. destruct (read_records_loop _ r) as [y r1] eqn:E.
    apply loop_state in E as (E1 & (l & E2 & E3) & E4). rewrite HF in E2, E3. cbn [rdr_records rdr_rec_num app] in E2, E3.
    pose proof (shown_as src r1) as S. rewrite E1, E3 in S.
    destruct y as [[]|e].
    + specialize (E4 eq_refl). unfold end_bytes in H. rewrite E1 in H. destruct (zlen (rdr_buf r) <? rdr_cursor r1) eqn:L; injection H as <- <-.
      * exists (rdr_cursor r1). rewrite E2. exact S.
      * rewrite E2. assert (EC : rdr_cursor r1 = zlen (rdr_buf r)) by lia. rewrite EC in S. exact S.
    + injection H as <- <-. exists (rdr_cursor r1). rewrite E2. exact S.
Qed.
Print Assumptions C75_reader.

(** The same for SDarnRead; the number after a field error is that of the bad record. *)
Theorem C75_sdarn_reader : forall t fs src r rs, Forall is_byte (rdr_buf r) -> sd_reader_init fs src = Ok r -> dmap_read (rdr_buf r) = Ok rs ->
  match sd_read t r with
  | (Ok ds, r') => shows src r' (zlen (rdr_buf r)) (zlen rs) (zlen (rdr_buf r))
  | (Raise e, r') => exists c pre bad post, rs = pre ++ bad :: post /\ Forall (acceptable t) pre /\ ~ acceptable t bad /\
                       shows src r' c (zlen pre) (zlen (rdr_buf r))
  end.
Proof.
  intros t fs src r rs HBY HI HR. destruct (init_fresh _ _ _ HI) as [HF _].
  destruct (read_reads _ _ HBY HR) as (bl & H1 & -> & H2). remember (rdr_buf r) as buf eqn:EB. clear EB HI. subst r.
  destruct (sd_read_step t buf 0 [] 0 bl ltac:(lia) H1 H2)
    as [(HA & ds & HD & HS)|(pre & b & post & e & c1 & -> & HA & HN & HE & _ & HS & _)]; rewrite HS.
  - rewrite recs_len. exact (shown_as src (mk_reader buf (zlen buf) ([] ++ recs bl) (zlen bl))).
  - exists c1, (recs pre), (record_of_fields b), (recs post). split; [apply recs_app|]. split; [exact HA|]. split; [exact HN|].
    rewrite recs_len. exact (shown_as src (mk_reader buf c1 ([] ++ recs pre) (zlen pre))).
Qed.
Print Assumptions C75_sdarn_reader.

(** After writing, the number a DmapWrite object shows is that of the last record, and
    after a failure that of the record that failed. *)
Theorem C75_dmap_writer : forall acc old rs, rs <> [] ->
  match dmap_records_to_bytes acc rs with
  | (Ok _, _, _) => dmap_number old rs = zlen rs - 1
  | (Raise e, _, _) => exists pre r post, rs = pre ++ r :: post /\ fst (fst (dmap_records_to_bytes acc pre)) = Ok tt /\
                         fst (dmap_record_to_bytes r) = Raise e /\ dmap_number old rs = zlen pre
  end.
Proof.
  intros acc old rs N. unfold dmap_number.
  assert (G : forall rs acc n last, match dmap_records_to_bytes acc rs with
    | (Ok _, _, _) => loop_number (fun _ r => fine (fst (dmap_record_to_bytes r))) n last rs = if rs then last else n + zlen rs - 1
    | (Raise e, _, _) => exists pre r post, rs = pre ++ r :: post /\ fst (fst (dmap_records_to_bytes acc pre)) = Ok tt /\
         fst (dmap_record_to_bytes r) = Raise e /\ loop_number (fun _ r => fine (fst (dmap_record_to_bytes r))) n last rs = n + zlen pre
    end).
  { clear. induction rs as [|r rs IH]; intros acc n last; cbn [dmap_records_to_bytes loop_number]; [reflexivity|].
    destruct (dmap_record_to_bytes r) as [[b|e] r'] eqn:E; cbn [fst fine].
    - specialize (IH (acc ++ b) (n + 1) n). destruct (dmap_records_to_bytes (acc ++ b) rs) as [[[[]|e] a'] rs''].
      + rewrite IH, zlen_cons. destruct rs; [cbn; lia|lia].
      + destruct IH as (pre & r0 & post & -> & H1 & H2 & H3). exists (r :: pre), r0, post. split; [reflexivity|].
        split; [|split; [exact H2|rewrite zlen_cons; lia]]. cbn [dmap_records_to_bytes]. rewrite E.
        destruct (dmap_records_to_bytes (acc ++ b) pre) as [[x y] z]. exact H1.
    - exists [], r, rs. rewrite E. cbn. split; [reflexivity|]. split; [reflexivity|]. split; [reflexivity|lia]. }
  specialize (G rs acc 0 old). destruct (dmap_records_to_bytes acc rs) as [[[[]|e] a'] rs'']; [destruct rs; [contradiction|lia]|].
  destruct G as (pre & r & post & H). exists pre, r, post. exact H.
Qed.
Print Assumptions C75_dmap_writer.

(** The same for SDarnWrite, where the checks of the fields can fail, too. *)
Theorem C75_sdarn_writer : forall t acc rs, rs <> [] ->
  match structure_to_bytes (write_struct_list t) (write_optional_list t) 0 acc rs with
  | (Ok _, _, _) => sdarn_number t rs = zlen rs - 1
  | (Raise e, _, _) => exists pre r post, rs = pre ++ r :: post /\
      fst (fst (structure_to_bytes (write_struct_list t) (write_optional_list t) 0 acc pre)) = Ok tt /\
      (fst (dmap_record_to_bytes r) = Raise e \/ write_checks (write_struct_list t) (write_optional_list t) r (zlen pre) = Raise e) /\
      sdarn_number t rs = zlen pre
  end.
Proof.
  intros t acc rs N. unfold sdarn_number. generalize (write_struct_list t) (write_optional_list t). intros sl ol.
  set (cv := fun n r => fine (write_checks sl ol r n) && fine (fst (dmap_record_to_bytes r))).
  assert (G : forall rs acc n last, match structure_to_bytes sl ol n acc rs with
    | (Ok _, _, _) => loop_number cv n last rs = if rs then last else n + zlen rs - 1
    | (Raise e, _, _) => exists pre r post, rs = pre ++ r :: post /\ fst (fst (structure_to_bytes sl ol n acc pre)) = Ok tt /\
         (fst (dmap_record_to_bytes r) = Raise e \/ write_checks sl ol r (n + zlen pre) = Raise e) /\ loop_number cv n last rs = n + zlen pre
    end).
  { clear. induction rs as [|r rs IH]; intros acc n last; cbn [structure_to_bytes loop_number]; [reflexivity|].
    assert (CV : cv n r = fine (write_checks sl ol r n) && fine (fst (dmap_record_to_bytes r))) by reflexivity. rewrite CV. clear CV. destruct (write_checks sl ol r n) as [[]|e] eqn:EW; cbn [fine andb];
      [|exists [], r, rs; split; [reflexivity|]; split; [reflexivity|]; change (zlen (@nil record)) with 0; rewrite Z.add_0_r; auto].
    destruct (dmap_record_to_bytes r) as [[b|e] r'] eqn:E; cbn [fst fine].
    - specialize (IH (acc ++ b) (n + 1) n). destruct (structure_to_bytes sl ol (n + 1) (acc ++ b) rs) as [[[[]|e] a'] rs''].
      + rewrite IH, zlen_cons. destruct rs; [cbn; lia|lia].
      + destruct IH as (pre & r0 & post & -> & H1 & H2 & H3). exists (r :: pre), r0, post. split; [reflexivity|].
        rewrite zlen_cons. replace (n + (1 + zlen pre)) with (n + 1 + zlen pre) by lia.
        split; [|split; [exact H2|exact H3]]. cbn [structure_to_bytes]. rewrite EW, E.
        destruct (structure_to_bytes sl ol (n + 1) (acc ++ b) pre) as [[x y] z]. exact H1.
    - exists [], r, rs. rewrite E. cbn. split; [reflexivity|]. split; [reflexivity|]. split; [auto|lia]. }
  specialize (G rs acc 0 0). destruct (structure_to_bytes sl ol 0 acc rs) as [[[[]|e] a'] rs'']; [destruct rs; [contradiction|lia]|].
  destruct G as (pre & r & post & H). exists pre, r, post. exact H.
Qed.
Print Assumptions C75_sdarn_writer.

(** The text of a BorealisSiteRead object counts the records. *)
Theorem C75_site_reader : forall filename sr, exists n, numeral (zlen (sr_records sr)) n /\
  site_reader_str filename sr = str "Reading from " ++ filename ++ str " a total number of records: " ++ n.
Proof.
  intros filename sr. exists (dec (zlen (map fst (sr_records sr)))). split; [|reflexivity].
  replace (zlen (sr_records sr)) with (zlen (map fst (sr_records sr))); [apply dec_numeral|]. unfold zlen. now rewrite map_length.
Qed.
Print Assumptions C75_site_reader.

(** BorealisWrite and BorealisArrayWrite objects have no text: the attribute for the record
    name does not exist. *)
Theorem C75_borealis_write_refuted :
  ~ (forall names cls filename current, names = write_names \/ names = array_write_names ->
       (exists s, record_repr names cls filename current = Ok s) \/ exists s, record_str names filename current = Ok s).
Proof.
  intros H. destruct (H write_names [] [] [] (or_introl eq_refl)) as [(s & E)|(s & E)]; vm_compute in E; discriminate E.
Qed.
Print Assumptions C75_borealis_write_refuted.
Theorem C75_borealis_write : forall names cls filename current, names = write_names \/ names = array_write_names ->
  record_repr names cls filename current = Raise AttributeError /\ record_str names filename current = Raise AttributeError.
Proof. intros names cls filename current [-> | ->]; split; reflexivity. Qed.
Print Assumptions C75_borealis_write.

(** That attribute is all that is missing. *)
Theorem C75_borealis_write_cause : forall names cls filename current, names = write_names \/ names = array_write_names ->
  record_repr (str "current_record_name" :: names) cls filename current = Ok (filled "{class_name}({filename}, {current_record_name})"
    [("class_name", cls); ("filename", filename); ("current_record_name", current)]%string) /\
  record_str (str "current_record_name" :: names) filename current = Ok (filled "Writing to filename: {filename} at record name: {current_record_name}"
    [("filename", filename); ("current_record_name", current)]%string).
Proof.
  intros names cls filename current H. rewrite <- (app_nil_r current) at 3.
  assert (E : forall v, attribute (str "current_record_name" :: names) (str "filename") v = Ok v) by (destruct H as [-> | ->]; reflexivity).
  assert (E' : forall v, attribute (str "current_record_name" :: names) (str "current_record_name") v = Ok v) by reflexivity.
  unfold record_repr, record_str. rewrite !E, !E'. split; reflexivity.
Qed.
Print Assumptions C75_borealis_write_cause.

(** The other texts, as the fields of a pattern. *)
Theorem C75_patterns : forall cls filename filetype outfile structure,
  file_repr cls filename = filled "{class_name}({filename})" [("class_name", cls); ("filename", filename)]%string /\
  typed_repr cls filename filetype = filled "{class_name}({filename}, {borealis_filetype})"
    [("class_name", cls); ("filename", filename); ("borealis_filetype", filetype)]%string /\
  reading_str filename = filled "Reading from {filename}" [("filename", filename)]%string /\
  site_writer_str filename = filled "Writing to filename: {filename} at record name: " [("filename", filename)]%string /\
  restructure_repr cls filename filetype outfile = filled "{class_name}({infile}, {borealis_filetype}, {outfile})"
    [("class_name", cls); ("infile", filename); ("borealis_filetype", filetype); ("outfile", outfile)]%string /\
  restructure_str filename structure outfile = filled "Restructuring {infile} to {borealis_structure} and writing to file {outfile}."
    [("infile", filename); ("borealis_structure", structure); ("outfile", outfile)]%string.
Proof.
  intros. do 2 (split; [reflexivity|]). split; [|repeat split; reflexivity].
  unfold reading_str. rewrite <- (app_nil_r filename) at 1. reflexivity.
Qed.
Print Assumptions C75_patterns.

(** Those with numbers. *)
Theorem C75_numbered : forall records_text cls filename filetype rs n, exists number total,
  numeral n number /\ numeral (zlen rs) total /\
  writer_repr cls filename n = filled "{class_name}({filename}, {rec_num})"
    [("class_name", cls); ("filename", filename); ("rec_num", number)]%string /\
  writer_str filename n = filled "Writing to filename: {filename} at record number: {rec_num}"
    [("filename", filename); ("rec_num", number)]%string /\
  convert_repr records_text cls rs filetype filename = filled "{class_name}({records}{borealis_filetype}{sdarn_filename})"
    [("class_name", cls); ("records", records_text rs); ("borealis_filetype", filetype); ("sdarn_filename", filename)]%string /\
  convert_str rs filetype filename =
    filled "Converting {total_records} {borealis_filetype} records into DMap SDARN records and writing to file {sdarn_filename}."
    [("total_records", total); ("borealis_filetype", filetype); ("sdarn_filename", filename)]%string.
Proof.
  intros records_text cls filename filetype rs n. exists (dec n), (dec (zlen rs)). do 2 (split; [apply dec_numeral|]).
  unfold writer_repr, writer_str, convert_str. replace (zlen (map fst rs)) with (zlen rs) by (unfold zlen; now rewrite map_length).
  generalize (dec n) (dec (zlen rs)). intros a b. repeat split; try reflexivity.
  rewrite <- (app_nil_r a) at 1. reflexivity.
Qed.
Print Assumptions C75_numbered.
Example C75_pattern_case :
  restructure_str (str "a.h5") (str "array") (str "b.h5") = str "Restructuring a.h5 to array and writing to file b.h5." /\
  convert_repr (fun _ => str "{}") (str "BorealisConvert") [] (str "rawacf") (str "x") = str "BorealisConvert({}rawacfx)".
Proof. split; reflexivity. Qed.

(** Two blocks; one block and three bytes; records of which the second cannot be written. *)
Definition text_after (src : source) (no : fsys) : res pystr :=
  rlet r := dmap_reader_init no src in Ok (reader_repr (str "DmapRead") src (snd (DmapRead.read_records r))).
Definition two_blocks : DmapRead.reader := mk_reader (ex_block_bytes ++ ex_block_bytes) 0 [] 0.
Example C75_case :
  dmap_reader_init (fun _ => None) (FromStream (ex_block_bytes ++ ex_block_bytes)) = Ok two_blocks /\
  fst (DmapRead.read_records two_blocks) = Ok [ex_record; ex_record] /\
  text_after (FromStream (ex_block_bytes ++ ex_block_bytes)) (fun _ => None) = Ok (str "DmapRead(stream, 108, 2, 108)") /\
  text_after (FromFile (str "f")) (fun _ => Some (ex_block_bytes ++ [1; 2; 3])) = Ok (str "DmapRead(f, 58, 1, 57)").
Proof. split; [reflexivity|]. split; [reflexivity|]. split; vm_compute; reflexivity. Qed.
Definition plain_record : record := [(str "a", IPlain (VInt 1))].
Example C75_writer_case :
  fst (fst (dmap_records_to_bytes [] [ex_record; plain_record; ex_record])) = Raise DmapTypeError /\
  writer_repr (str "DmapWrite") (str "f") (dmap_number 0 [ex_record; plain_record; ex_record]) = str "DmapWrite(f, 1)" /\
  fst (fst (dmap_records_to_bytes [] [ex_record; ex_record])) = Ok tt /\
  writer_str (str "f") (dmap_number 0 [ex_record; ex_record]) = str "Writing to filename: f at record number: 1" /\
  sdarn_number Grid [block_fields ex_grid; block_fields ex_extra; block_fields ex_half] = 1 /\
  sdarn_number Grid [block_fields ex_grid; block_fields ex_grid; block_fields ex_grid] = 2.
Proof. repeat (split; [vm_compute; reflexivity|]). vm_compute. reflexivity. Qed.
