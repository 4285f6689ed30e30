(** The property C70: converting a Borealis file succeeds, and the file it writes can be read. *)
From Coq Require Import String ZArith List Bool Lia Permutation Sorted.
From Verif Require Import Base BytesProofs FloatBits FloatSpec DmapTypes DmapSpec DmapRead DmapReadProps DmapWriteSpec SDarnFormats SDarn SDarnSpec SDarnObjectProps
  BorealisTypes BorealisFormats BorealisArrays BorealisCases BorealisFile BorealisTime BorealisConvert BorealisConvertSpec BorealisConvertFieldSpec BorealisConvertProps
  BorealisConvertTotalSpec BorealisConvertTotalProofs BorealisConvertTotalFileProofs BorealisConvertSizeProofs BorealisScale.
Import ListNotations.
Open Scope list_scope.
Open Scope Z_scope.

(** ** C70 Conversions that succeed *)

(** If the source can be read and all its records are convertible, the conversion writes a
    file, provided its blocks fit in an int32 and the whole in an int64; SDarnRead reads the
    file without an error and shows the records converted. *)
Theorem C70_reads : forall square ctime hf fs fn ft t sd sfn sid i st k rd rs,
  borealis_read hf fn ft st = Ok rd -> reader_records rd = Ok rs -> find_slice_id rs sid = Ok i ->
  filetype_of ft = Some t -> sdarn_type t = Some sd -> fn <> sfn -> sfn <> [] ->
  Forall (fun p => plain_text (fst p) /\ able t (snd p)) rs -> plain_text fn -> (forall m, plain_text (ctime m)) ->
  exists bl, converted_records scaled_sample (scaled_acf square) magnitude ctime t i rs fn k = Ok (map block_fields bl) /\
    (Forall (fun b => block_bytes b < 2 ^ 31) bl -> file_bytes bl <= 2 ^ 63 - 1 ->
     exists fs' bl' rdr ds rdr',
       borealis_convert scaled_sample (scaled_acf square) magnitude ctime hf fs fn ft sfn sid st k = (fs', Ok tt) /\
       Forall2 block_back bl bl' /\
       sd_reader_init fs' (FromFile sfn) = Ok rdr /\ sd_read sd rdr = (Ok ds, rdr') /\
       rdr_records rdr' = map block_fields bl' /\ Forall2 shown (map block_fields bl') ds).
Proof.
  intros square ctime hf fs fn ft t sd sfn sid i st k rd rs E1 E2 E3 E4 E5 N1 N2 F PF HC.
  exact (convert_reads _ _ _ _ hf fs fn ft t sd sfn sid i st k rd rs E1 E2 E3 E4 E5 N1 N2 F PF HC
    (fun _ => conj (fun norm z => acf_in square norm k z) (fun z _ => magnitude_in z))).
Qed.
Print Assumptions C70_reads.

(** Texts and arrays of up to 2^25 characters or elements, 2^12 beams and 2^20 records and a
    scaling factor of up to 64 bits always fit. *)
Theorem C70_moderate : forall square ctime hf fs fn ft t sd sfn sid i st k rd rs,
  borealis_read hf fn ft st = Ok rd -> reader_records rd = Ok rs -> find_slice_id rs sid = Ok i ->
  filetype_of ft = Some t -> sdarn_type t = Some sd -> fn <> sfn -> sfn <> [] ->
  Forall (fun p => plain_text (fst p) /\ able t (snd p)) rs -> plain_text fn -> (forall m, plain_text (ctime m)) ->
  Forall (fun p => zlen (fst p) <= 2 ^ 25 /\ moderate (snd p)) rs -> zlen rs <= 2 ^ 20 ->
  zlen fn <= 2 ^ 25 -> Z.abs k <= 2 ^ 64 -> (forall m, zlen (ctime m) <= 2 ^ 25) ->
  exists fs' bl' rdr ds rdr',
    borealis_convert scaled_sample (scaled_acf square) magnitude ctime hf fs fn ft sfn sid st k = (fs', Ok tt) /\
    sd_reader_init fs' (FromFile sfn) = Ok rdr /\ sd_read sd rdr = (Ok ds, rdr') /\
    rdr_records rdr' = map block_fields bl' /\ Forall2 shown (map block_fields bl') ds.
Proof.
  intros square ctime hf fs fn ft t sd sfn sid i st k rd rs E1 E2 E3 E4 E5 N1 N2 F PF HC FM LR LO HK LC.
  destruct (C70_reads square ctime hf fs fn ft t sd sfn sid i st k rd rs E1 E2 E3 E4 E5 N1 N2 F PF HC) as (bl & EC & G).
  assert (FA : Forall (fun p => zlen (fst p) <= 2 ^ 25 /\ able t (snd p) /\ moderate (snd p)) rs).
  { rewrite Forall_forall in *. intros p I. destruct (F p I), (FM p I). auto. }
  destruct (converted_sizes _ _ _ _ _ _ _ _ _ _ EC FA LR LO HK LC) as [S1 S2].
  destruct (G S1 S2) as (fs' & bl' & rdr & ds & rdr' & H1 & _ & H2). exists fs', bl', rdr, ds, rdr'. auto.
Qed.
Print Assumptions C70_moderate.

Lemma hash06_small : small_version hash06.
Proof.
  exists (str "0"), (str "6"), (str "-61-gc13ad17"). split; [reflexivity|].
  split; [|split]; [..|right; exists 45; eexists; split; [reflexivity|left; reflexivity]];
    (split; [discriminate|]; split; [|vm_compute; discriminate]; apply Forall_cons; [split; vm_compute; discriminate|apply Forall_nil]).
Qed.
Lemma plain_b s : forallb (fun c => (0 <? c) && (c <? 128)) s = true -> plain_text s.
Proof. rewrite forallb_forall. intros H. apply Forall_forall. intros c I. specialize (H c I). lia. Qed.
Lemma below64_b l : forallb (fun b => (0 <=? b) && (b <? 2 ^ 64)) l = true -> Forall (fun b => 0 <= b < 2 ^ 64) l.
Proof. rewrite forallb_forall. intros H. apply Forall_forall. intros c I. specialize (H c I). lia. Qed.
Ltac plain := apply plain_b; vm_compute; reflexivity.
Ltac each H := repeat (destruct H as [<- | H]; [|]); [..|destruct H].
(** The numbers of an array. *)
Definition cell_numbers (r : brecord) (k : pystr) : list Z :=
  match dict_get r k with Some (BArr _ _ l) => map (fun c => match c with CZ z => z | _ => 0 end) l | _ => [] end.
Ltac nums r k := exists (hd 0 (cell_numbers r (str k))), (tl (cell_numbers r (str k))).
Ltac common r :=
  constructor;
  [ exists hash06; split; [left; field|]; split; [plain|exact hash06_small]
  | intros f H; each H; eexists; (split; [left; field|plain])
  | exists (str "sas"), 5; split; [left; field|field]
  | intros f H; each H; eexists _, _; (split; [|field]); auto 10 with datatypes
  | intros f H; right; each H; eexists _, _; (split; [|field]); auto 10 with datatypes
  | nums r "sqn_timestamps"%string; split; [field|split; [|split]; vm_compute; congruence]
  | nums r "noise_at_freq"%string; split; [field|apply below64_b; vm_compute; reflexivity]
  | exists (cell_numbers r (str "beam_azms")); split; [field|split; [apply below64_b; vm_compute; reflexivity|vm_compute; lia]]
  | intros f H; each H; eexists; field
  | eexists; field
  | intros f H; each H; eexists; (split; [field|split; vm_compute; congruence])
  | nums r "pulses"%string; field
  | exists 3%nat, [2%nat], (cell_numbers r (str "lags")); split; [field|split; [repeat constructor|split; [vm_compute; lia|field]]] ].


(** The records of the files [r] and [b], as they are read. *)
Definition records_read (fn ft : pystr) : brecords :=
  match borealis_read conv_fs fn ft None with
  | Ok rd => match reader_records rd with Ok rs => rs | Raise _ => [] end
  | Raise _ => []
  end.
Definition read_raw : brecord := Eval vm_compute in snd (hd ([], []) (records_read (str "r") (str "rawacf"))).
Definition read_bfiq : brecord := Eval vm_compute in snd (hd ([], []) (records_read (str "b") (str "bfiq"))).
Lemma read_raw_common : common_source read_raw 2.
Proof. common read_raw. Qed.
Lemma read_bfiq_common : common_source read_bfiq 2.
Proof. common read_bfiq. Qed.
Lemma blanked_example : blanked_rule 2400 300 [0; 9] [0; 1; 72; 73].
Proof.
  right. split; [|repeat constructor; lia]. change (Permutation [0; 1; 72; 73] [0; 72; 1; 73]).
  apply perm_skip, perm_swap.
Qed.
Lemma read_raw_timed : timed read_raw hash06 2400 300 [0; 9] [0; 1; 72; 73].
Proof. constructor; [left|..]; field. Qed.
Lemma read_bfiq_timed : timed read_bfiq hash06 2400 300 [0; 9] [0; 1; 72; 73].
Proof. constructor; [left|..]; field. Qed.
Lemma timed_able r : timed r hash06 2400 300 [0; 9] [0; 1; 72; 73] -> checkable r /\ well_blanked r.
Proof.
  intros T. split; exists hash06, 2400, 300, [0; 9], [0; 1; 72; 73]; (split; [exact T|]); [|exact blanked_example].
  split; [reflexivity|left; exact hash06_tagged].
Qed.
Lemma read_raw_able : rawacf_able read_raw.
Proof.
  exists [3; 4], 0, 2%nat, 2%nat, 3%nat, (powers 12), (rev (powers 12)). split.
  { constructor; [field|field|]. exists (str "correlation_dimensions"). split; [left; reflexivity|].
    split; (split; [field|split; [eexists; field|field]]). }
  split; [exact read_raw_common|]. split; [cbn; lia|]. split; [lia|]. split; [lia|].
  split; [right; exists [12%nat], (powers 12); split; field|]. split; [left; field|]. exact (timed_able _ read_raw_timed).
Qed.
Lemma read_bfiq_able : iqdat_able read_bfiq.
Proof.
  exists [3; 4], 2%nat, 2%nat, 3%nat, 0, 2%nat, 2%nat, 2%nat, 3%nat, (powers 24). split.
  { constructor; try field; [eexists _, _; field|]. split; [field|]. split; [eexists; field|field]. }
  split; [exact read_bfiq_common|]. do 4 (split; [cbn; lia|]).
  split; [eexists _, _; split; [|field]; auto 10 with datatypes|].
  split; [eexists _, _, _; split; [field|left; reflexivity]|].
  destruct (timed_able _ read_bfiq_timed) as [C W]. split; [exact C|]. split; [exact W|].
  exists [0; 2 ^ 31]. split; [split; [field|]|]; repeat constructor; vm_compute; congruence.
Qed.

Lemma moderate_b r : forallb (fun p => value_length (snd p) <=? 2 ^ 12) r = true -> moderate r.
Proof.
  rewrite forallb_forall. intros H. assert (G : forall k v, dict_get r k = Some v -> value_length v <= 2 ^ 12).
  { intros k v D. apply SDarnChecks.dict_get_In, H in D. apply Z.leb_le in D. exact D. }
  split; [intros k v D; specialize (G k v D); lia|]. intros beams D. specialize (G _ _ D). cbn [value_length] in G.
  unfold zlen in *. rewrite map_length in G. exact G.
Qed.

(** Two files have such records; the file converted from the first has two records. *)
Definition number_read (t : sd_type) (fs : fsys) (fn : pystr) : res nat :=
  rlet rd := sd_reader_init fs (FromFile fn) in
  rlet ds := fst (sd_read t rd) in Ok (length ds).
Example C70_case :
  records_read (str "r") (str "rawacf") = [(str "1558583991060", read_raw)] /\
  records_read (str "b") (str "bfiq") = [(str "1558583991060", read_bfiq)] /\
  able BRawacf read_raw /\ able Bfiq read_bfiq /\ plain_text (str "1558583991060") /\ moderate read_raw /\ moderate read_bfiq /\
  find_slice_id [(str "1558583991060", read_raw)] None = Ok 0 /\
  number_read Rawacf (fst (convert_file (str "r") (str "rawacf") (str "o"))) (str "o") = Ok 2%nat.
Proof.
  split; [vm_compute; reflexivity|]. split; [vm_compute; reflexivity|].
  split; [exact read_raw_able|]. split; [exact read_bfiq_able|]. split; [plain|].
  do 2 (split; [apply moderate_b; vm_compute; reflexivity|]). split; vm_compute; reflexivity.
Qed.

(** ** More on C48: the stations *)

Theorem C48_codes : forall s i, dict_get code_to_stid s = Some i <->
  In (s, i) (combine (map str ["tst"; "gbr"; "sch"; "kap"; "hal"; "sas"; "pgr"; "kod"; "sto"; "pyk"; "han"; "san"; "sys"; "sye"; "tig"; "ker"; "ksr";
                               "unw"; "zho"; "mcm"; "fir"; "sps"; "bpk"; "wal"; "bks"; "hok"; "hkw"; "inv"; "rkn"; "cly"; "dce"; "svb";
                               "fhw"; "fhe"; "cvw"; "cve"; "adw"; "ade"; "ekb"]%string)
                     (map Z.of_nat (seq 0 17 ++ seq 18 5) ++ [24; 32; 33; 40; 41; 64; 65; 66; 96; 128] ++ map Z.of_nat (seq 204 6) ++ [512])).
Proof.
  intros s i. assert (C : code_to_stid = combine (map fst code_to_stid) (map snd code_to_stid)) by (vm_compute; reflexivity).
  match goal with |- _ <-> In _ ?l => assert (E : code_to_stid = l) by (vm_compute; reflexivity); rewrite <- E end. clear C E. split.
  - apply SDarnChecks.dict_get_In.
  - intros H. apply SDarnChecks.dict_get_nodup; [|exact H]. apply BorealisCheckProofs.nodupb_ok. vm_compute. reflexivity.
Qed.
Print Assumptions C48_codes.

(** ** More on C64: versions and texts that are missing *)

(** The revision is the version "v<major>.<minor>" before a dot or dash. *)
Theorem C64_revisions : forall scale_iq scale_acf power ctime t sid rs origin k recs,
  converted_records scale_iq scale_acf power ctime t sid rs origin k = Ok recs ->
  each_beam rs recs (fun key r b beam o => forall major minor tail,
    text_field r (str "borealis_git_hash") (str "v" ++ major ++ str "." ++ minor ++ tail) ->
    small_number major -> small_number minor -> (tail = [] \/ exists c s, tail = c :: s /\ In [c] [str "-"; str "."]) ->
    out_scalar o (str "radar.revision.major") (VNpInt NI8 (digits_value major)) /\
    out_scalar o (str "radar.revision.minor") (VNpInt NI8 (digits_value minor))).
Proof.
  intros scale_iq scale_acf power ctime t sid rs origin k recs. apply BorealisConvertFieldProofs.each_common.
  intros key r b beam tx nr x c rest o E R major minor tail H S1 S2 T.
  refine (version_field _ _ _ _ _ _ _ _ _ _ _ _ _ _ E R H S1 S2 _).
  destruct T as [->|(c0 & s & -> & I)]; [now left|right]. exists c0, s. split; [reflexivity|].
  destruct I as [I|[I|[]]]; injection I as <-; auto.
Qed.
Print Assumptions C64_revisions.

(** A record with beams that lacks a text, for example an h5py.Empty, is not converted. *)
Theorem C64_needed : forall scale_iq scale_acf power ctime t sid rs origin k recs,
  converted_records scale_iq scale_acf power ctime t sid rs origin k = Ok recs ->
  each_beam rs recs (fun key r b beam o => forall f,
    In f [str "borealis_git_hash"; str "experiment_name"; str "station"; str "experiment_comment"; str "slice_comment"] ->
    exists s, text_field r f s).
Proof. exact needs_texts. Qed.
Print Assumptions C64_needed.

Definition v12_raw : brecord := dict_set conv_raw (str "borealis_git_hash") (BText (str "v12.07-rc1")).
Example C64_version_case :
  text_field v12_raw (str "borealis_git_hash") (str "v" ++ str "12" ++ str "." ++ str "07" ++ str "-rc1") /\
  small_number (str "12") /\ small_number (str "07") /\
  scalars_of (str "radar.revision.major") (convert_case BRawacf [(str "1", v12_raw)]) = [Some (VNpInt NI8 12); Some (VNpInt NI8 12)] /\
  scalars_of (str "radar.revision.minor") (convert_case BRawacf [(str "1", v12_raw)]) = [Some (VNpInt NI8 7); Some (VNpInt NI8 7)] /\
  convert_case BRawacf [(str "1", dict_set conv_raw (str "slice_comment") (BEmpty BNpStr))] = Raise BorealisConvert2RawacfError.
Proof.
  split; [left; field|].
  do 2 (split; [split; [discriminate|]; split; [|vm_compute; discriminate]; apply Forall_cons; [|apply Forall_cons; [|apply Forall_nil]]; split; vm_compute; discriminate|]).
  split; [field|]. split; field.
Qed.
