(** The property C93: which error the conversion of a Borealis file raises. *)
From Coq Require Import String ZArith List Bool Lia Permutation Sorted.
From Verif Require Import Base BytesProofs FloatBits FloatSpec DmapTypes SDarnFormats SDarn
  BorealisTypes BorealisFormats BorealisArrays BorealisCases BorealisFile BorealisTime BorealisConvert BorealisConvertSpec BorealisConvertFieldSpec BorealisConvertProps
  BorealisConvertTotalSpec BorealisConvertTotalProps BorealisConvertFaultSpec BorealisConvertFaultProofs.
From Verif Require Conversions BorealisFileProps BorealisFileProps.
Import ListNotations.
Open Scope list_scope.
Open Scope Z_scope.

(** ** C93 The errors of a conversion *)

(** The checks: all records pass or there is a first one that does not, for which one
    error is raised. *)
Theorem C93_checks : forall t (rs : brecords), t = Bfiq \/ t = BRawacf -> Forall (fun p => checked_kind t (snd p)) rs ->
  Forall (fun p => passes t (snd p)) rs \/
  exists pre key r post e, rs = pre ++ (key, r) :: post /\ Forall (fun p => passes t (snd p)) pre /\ check_fault t r e.
Proof. exact dichotomy. Qed.
Print Assumptions C93_checks.
Theorem C93_fault : forall t r e, t = Bfiq \/ t = BRawacf -> check_fault t r e ->
  ~ passes t r /\ (forall e', check_fault t r e' -> e' = e) /\
  forall scale_iq scale_acf power ctime sid pre key post origin k, Forall (fun p => passes t (snd p)) pre ->
    converted_records scale_iq scale_acf power ctime t sid (pre ++ (key, r) :: post) origin k = Raise e.
Proof.
  intros t r e HT F. split; [exact (fault_not_passes _ _ _ F)|]. split; [intros e' F'; exact (fault_unique _ _ _ _ HT F' F)|].
  intros. now apply converted_fault.
Qed.
Print Assumptions C93_fault.

(** The records: if all pass, each of them either can be converted, to one record for each
    beam, or makes the conversion fail with the error of the type. *)
Theorem C93_records : forall scale_iq scale_acf power ctime t sid rs origin k fs, t = Bfiq \/ t = BRawacf ->
  Forall (fun p => passes t (snd p)) rs -> Forall2 (fun p f => says t (snd p) f) rs fs ->
  (Forall (can t) fs -> exists recs, converted_records scale_iq scale_acf power ctime t sid rs origin k = Ok recs /\ length recs = total_beams fs) /\
  (~ Forall (can t) fs -> converted_records scale_iq scale_acf power ctime t sid rs origin k = Raise (convert_error t)).
Proof. exact converted_sure. Qed.
Print Assumptions C93_records.

(** The file: the errors of reading come first, then those of the slice id. *)
Theorem C93_source : forall scale_iq scale_acf power ctime hf fs fn ft sfn sid st k,
  (forall e, borealis_read hf fn ft st = Raise e ->
     borealis_convert scale_iq scale_acf power ctime hf fs fn ft sfn sid st k = (fs, Raise e)) /\
  (forall rd, borealis_read hf fn ft st = Ok rd ->
     (forall e, reader_records rd = Raise e ->
        borealis_convert scale_iq scale_acf power ctime hf fs fn ft sfn sid st k = (fs, Raise e)) /\
     (reader_records rd = Ok [] ->
        borealis_convert scale_iq scale_acf power ctime hf fs fn ft sfn sid st k = (fs, Raise IndexError)) /\
     (forall key r rest, reader_records rd = Ok ((key, r) :: rest) -> dict_get r (str "slice_id") = None -> sid = None ->
        borealis_convert scale_iq scale_acf power ctime hf fs fn ft sfn sid st k = (fs, Raise BorealisStructureError))).
Proof.
  intros scale_iq scale_acf power ctime hf fs fn ft sfn sid st k. split; [intros e; apply convert_read_error|].
  intros rd E. split; [intros e; exact (convert_records_error _ _ _ _ _ _ _ _ _ _ _ _ _ _ E)|]. split.
  - intros E'. exact (convert_slice_error scale_iq scale_acf power ctime hf fs fn ft sfn sid st k rd [] IndexError E E' eq_refl).
  - intros key r rest E' N ->. apply (convert_slice_error scale_iq scale_acf power ctime hf fs fn ft sfn None st k rd _ BorealisStructureError E E').
    cbn [find_slice_id]. now rewrite N.
Qed.
Print Assumptions C93_source.

(** Then those of the checks. *)
Theorem C93_file_fault : forall scale_iq scale_acf power ctime hf fs fn ft sfn sid st k rd rs i t sd pre key r post e,
  borealis_read hf fn ft st = Ok rd -> reader_records rd = Ok rs -> find_slice_id rs sid = Ok i ->
  filetype_of ft = Some t -> sdarn_type t = Some sd -> fn <> sfn ->
  rs = pre ++ (key, r) :: post -> Forall (fun p => passes t (snd p)) pre -> check_fault t r e ->
  borealis_convert scale_iq scale_acf power ctime hf fs fn ft sfn sid st k = (fs, Raise e).
Proof.
  intros scale_iq scale_acf power ctime hf fs fn ft sfn sid st k rd rs i t sd pre key r post e H1 H2 H3 H4 H5 H6.
  exact (convert_fault scale_iq scale_acf power ctime hf fs fn ft sfn sid st k rd rs i t sd H1 H2 H3 H4 H5 H6 pre key r post e).
Qed.
Print Assumptions C93_file_fault.

(** Then those of the records, that of a file without beams, and at last those of writing
    the records. *)
Theorem C93_file : forall scale_iq scale_acf power ctime hf fs fn ft sfn sid st k rd rs i t sd fa,
  borealis_read hf fn ft st = Ok rd -> reader_records rd = Ok rs -> find_slice_id rs sid = Ok i ->
  filetype_of ft = Some t -> sdarn_type t = Some sd -> fn <> sfn ->
  Forall (fun p => passes t (snd p)) rs -> Forall2 (fun p f => says t (snd p) f) rs fa ->
  (~ Forall (can t) fa ->
     borealis_convert scale_iq scale_acf power ctime hf fs fn ft sfn sid st k = (fs, Raise (convert_error t))) /\
  (Forall (can t) fa -> (forall f, In f fa -> fa_beams f = []) ->
     borealis_convert scale_iq scale_acf power ctime hf fs fn ft sfn sid st k = (fs, Raise DmapDataError)) /\
  (Forall (can t) fa -> (exists f, In f fa /\ fa_beams f <> []) ->
     exists recs, converted_records scale_iq scale_acf power ctime t i rs fn k = Ok recs /\ recs <> [] /\ length recs = total_beams fa /\
       borealis_convert scale_iq scale_acf power ctime hf fs fn ft sfn sid st k =
         let '(r, _, fs') := sd_write sd fs (Conversions.mk_writer sfn recs []) sfn in (fs', r)).
Proof.
  intros scale_iq scale_acf power ctime hf fs fn ft sfn sid st k rd rs i t sd fa H1 H2 H3 H4 H5 H6 P S.
  destruct (convert_outcome scale_iq scale_acf power ctime hf fs fn ft sfn sid st k rd rs i t sd H1 H2 H3 H4 H5 H6 fa P S) as (A & B & C).
  split; [exact A|]. split; [exact B|]. intros F E. destruct (C F E) as (recs & R1 & R2 & R3 & R4). exists recs.
  split; [exact R1|]. split; [exact R2|]. split; [exact R3|]. rewrite R4. destruct (sd_write _ _ _ _) as [[a b] c]. reflexivity.
Qed.
Print Assumptions C93_file.

(** ** Cases *)

Definition first_text (r : brecord) (k : pystr) : pystr := match dict_get r k with Some (BText s) => s | _ => [] end.
Definition first_number (r : brecord) (k : pystr) : Z := match dict_get r k with Some (BScalar _ (CZ z)) => z | _ => 0 end.
Definition elements (r : brecord) (k : pystr) : list nat := match dict_get r k with Some (BArr _ _ l) => [length l] | _ => [] end.
Definition facts_of (r : brecord) (dims : pystr) (data : list pystr) : facts :=
  mk_facts (first_text r (str "borealis_git_hash")) (first_text r (str "station")) (cell_numbers r (str "sqn_timestamps"))
    (cell_numbers r (str "noise_at_freq")) (cell_numbers r (str "beam_azms")) (first_number r (str "first_range"))
    (first_number r (str "range_sep")) (cell_numbers r (str "beam_nums")) (map Z.to_nat (cell_numbers r dims))
    (first_number r (str "num_sequences")) (flat_map (elements r) data)
    (match dict_get r (str "xcfs") with Some _ => true | None => false end).
Definition raw_facts (r : brecord) : facts :=
  facts_of r (str "correlation_dimensions") [str "main_acfs"; str "intf_acfs"; str "xcfs"].
Definition bfiq_facts (r : brecord) : facts := facts_of r (str "data_dimensions") [str "data"].

Lemma digits_small s : (forallb (fun c => (48 <=? c) && (c <=? 57)) s && negb (Nat.eqb (length s) 0) && (digits_value s <=? 127))%bool = true -> small_number s.
Proof.
  intros H. apply andb_prop in H as [H V]. apply andb_prop in H as [H N]. split; [destruct s; [discriminate N|discriminate]|]. split; [|lia].
  apply Forall_forall. intros c I. rewrite forallb_forall in H. specialize (H c I). unfold digit. lia.
Qed.
Lemma no_digits s : forallb (fun c => negb ((48 <=? c) && (c <=? 57))) s = true -> numberless s.
Proof. intros H. apply Forall_forall. intros c I. rewrite forallb_forall in H. specialize (H c I). unfold digit. lia. Qed.
Ltac absent := intros C; vm_compute in C; intuition discriminate.
(** The version of a record: major, minor and the rest. *)
Ltac version a b c :=
  intros _; exists (str a), (str b); split;
  [ split; [absent|]; split; [absent|]; split; [absent|]; split; [absent|]; exists (str c); split; [field|];
    first [left; reflexivity | right; eexists _, _; split; [reflexivity|]; first [left; reflexivity | right; reflexivity]]
  | split; first [left; apply digits_small; field | right; apply no_digits; field] ].
(** A time: with a date or without. *)
Ltac date := intros t l E; vm_compute in E; first [discriminate E | injection E as <- _; first
  [ left; split; [vm_compute; discriminate|split; vm_compute; reflexivity]
  | right; left; vm_compute; reflexivity
  | right; right; split; [vm_compute; reflexivity|right; vm_compute; discriminate] ]].
Ltac common_said r a b c :=
  constructor;
  [ left; field
  | version a b c
  | intros f H; each H; eexists; left; field
  | left; field
  | intros f H; each H; eexists _, _; (split; [|field]); auto 10 with datatypes
  | field
  | intros f H; first [left; each H; field | right; each H; eexists _, _; (split; [|field]); auto 10 with datatypes]
  | field
  | date
  | field
  | field
  | intros f H; each H; eexists; field
  | eexists; field
  | field
  | field
  | eexists; field
  | exists (cell_numbers r (str "pulses")); field
  | exists 3%nat, [2%nat], (cell_numbers r (str "lags")); field
  | field ].
Definition pairs_of (r : brecord) (k : pystr) : list (Z * Z) :=
  match dict_get r k with Some (BArr _ _ l) => map (fun c => match c with CC a b => (a, b) | _ => (0, 0) end) l | _ => [] end.
Ltac sized r k :=
  first [ left; split; field | right; exists [length (pairs_of r (str k))], (pairs_of r (str k)); split; field ].
Ltac raw_said r a b c :=
  split; [common_said r a b c|]; split; [left; field|]; split; [vm_compute; lia|]; split;
  [ exists (elements r (str "main_acfs")), (elements r (str "intf_acfs")), (elements r (str "xcfs"));
    split; [sized r "main_acfs"%string|]; split; [vm_compute; discriminate|]; split; [sized r "intf_acfs"%string|];
    split; [sized r "xcfs"%string|]; split; [split; vm_compute; congruence|field]
  | left; field ].
Lemma raw_said_case : says BRawacf read_raw (raw_facts read_raw).
Proof. raw_said read_raw "0"%string "6"%string "-61-gc13ad17"%string. Qed.
Ltac bfiq_said r a b c :=
  split; [common_said r a b c|]; split; [eexists _, _, _; split; [field|left; reflexivity]|];
  split; [eexists _, _; split; [|field]; auto 10 with datatypes|]; split; [eexists _, _; split; [|field]; auto 10 with datatypes|];
  split; [field|]; split; [vm_compute; lia|]; split; [sized r "data"%string|vm_compute; discriminate].
Lemma bfiq_said_case : says Bfiq read_bfiq (bfiq_facts read_bfiq).
Proof. bfiq_said read_bfiq "0"%string "6"%string "-61-gc13ad17"%string. Qed.

Lemma raw_passes r : timed r hash06 2400 300 [0; 9] [0; 1; 72; 73] -> passes BRawacf r.
Proof. intros T. destruct (timed_able _ T) as [C W]. split; [exact C|]. split; [exact W|discriminate]. Qed.
Lemma bfiq_passes r : timed r hash06 2400 300 [0; 9] [0; 1; 72; 73] -> phases r [0; 2 ^ 31] -> passes Bfiq r.
Proof.
  intros T P. destruct (timed_able _ T) as [C W]. split; [exact C|]. split; [exact W|]. intros _. exists [0; 2 ^ 31]. split; [exact P|].
  repeat constructor.
Qed.
Lemma bfiq_phases r : dict_get r (str "pulse_phase_offset") = Some (BArr BF32 [2%nat] [CZ 0; CZ (2 ^ 31)]) -> phases r [0; 2 ^ 31].
Proof. intros H. split; [exact H|]. repeat constructor; vm_compute; congruence. Qed.
Ltac passed := first [apply raw_passes; constructor; [left|..]; field | apply bfiq_passes; [constructor; [left|..]; field|apply bfiq_phases; field]].

(** A record that says too little makes the conversion fail; the second conjunct is the last
    hypothesis. *)
Lemma cannot t key r f : t = Bfiq \/ t = BRawacf -> passes t r -> says t r f -> convert_case t [(key, r)] = Raise (convert_error t) ->
  ~ Forall (can t) [f].
Proof.
  intros HT P S E F. destruct (C93_records same_scale same_scale fst some_time t 0 [(key, r)] (str "f") 1 [f] HT) as [H _].
  - constructor; [exact P|constructor].
  - constructor; [exact S|constructor].
  - destruct (H F) as (recs & E' & _). unfold convert_case in E. rewrite E' in E. discriminate E.
Qed.
Lemma could t key r f recs : t = Bfiq \/ t = BRawacf -> passes t r -> says t r f -> convert_case t [(key, r)] = Ok recs ->
  (can t f \/ ~ can t f) -> Forall (can t) [f].
Proof.
  intros HT P S E [C|C]; [constructor; auto|]. destruct (C93_records same_scale same_scale fst some_time t 0 [(key, r)] (str "f") 1 [f] HT) as [_ H].
  - constructor; [exact P|constructor].
  - constructor; [exact S|constructor].
  - unfold convert_case in E. rewrite H in E; [discriminate E|]. intros F. inversion F; auto.
Qed.

(** The checks: no pulse length, no tau spacing either, a version without a dot, other
    blanked samples; phase offsets that are not 0, or a table of them. *)
Definition no_length : brecord := dict_set read_raw (str "tx_pulse_len") (BScalar BU32 (CZ 0)).
Definition no_spacing : brecord := dict_set no_length (str "tau_spacing") (BScalar BU32 (CZ 0)).
Definition no_dot : brecord := dict_set read_raw (str "borealis_git_hash") (BText (str "v05")).
Definition other_blanked : brecord := dict_set read_raw (str "blanked_samples") (BArr BU32 [2%nat] [CZ 0; CZ 71]).
Definition phased : brecord := dict_set read_bfiq (str "pulse_phase_offset") (BArr BF32 [2%nat] [CZ 0; CZ 1]).
Definition tabled : brecord := dict_set read_bfiq (str "pulse_phase_offset") (BArr BF32 [1; 2]%nat [CZ 0; CZ 0]).
Ltac timing := constructor; [left|..]; field.
Ltac timed_kind := split; [eexists _, _, _, [0; 9], _; split; [timing|lia]|].
Lemma other_not_blanked : ~ well_blanked other_blanked.
Proof.
  intros W. assert (C : checkable other_blanked).
  { exists hash06, 2400, 300, [0; 9], [0; 71]. split; [timing|]. split; [reflexivity|left; exact hash06_tagged]. }
  destruct (BorealisConvertProofs.checkable_blanking _ C) as (b & E & H). apply H in W. subst b. vm_compute in E. discriminate E.
Qed.
Example C93_fault_case :
  passes BRawacf read_raw /\ passes Bfiq read_bfiq /\ checked_kind BRawacf no_length /\
  check_fault BRawacf no_length OverflowError /\ check_fault BRawacf no_spacing ValueError /\
  check_fault BRawacf no_dot IndexError /\ check_fault BRawacf other_blanked BorealisConvert2RawacfError /\
  check_fault Bfiq phased BorealisConvert2IqdatError /\ check_fault Bfiq tabled ValueError /\
  convert_case BRawacf [(str "1", read_raw); (str "2", no_dot); (str "3", no_length)] = Raise IndexError.
Proof.
  split; [passed|]. split; [passed|].
  split. { split; [exists hash06, 2400, 0, [0; 9], [0; 1; 72; 73]; split; [timing|lia]|discriminate]. }
  split. { apply (cf_zero _ _ hash06 2400 [0; 9] [0; 1; 72; 73]); [timing|discriminate]. }
  split. { apply (cf_nothing _ _ hash06 [0; 9] [0; 1; 72; 73]). timing. }
  split. { apply (cf_version _ _ (str "v05") 2400 300 [0; 9] [0; 1; 72; 73]); [timing|reflexivity|..].
           - intros (a & b & E & _). assert (I : In 46 (str "v05")) by (rewrite E; right; apply in_or_app; right; now left). vm_compute in I. intuition discriminate.
           - intros (c & b & E & N). vm_compute in E. injection E as <- _. now apply N. }
  assert (TB : forall r, timed r hash06 2400 300 [0; 9] [0; 1; 72; 73] -> checkable r) by (intros r T; apply (timed_able r T)).
  assert (TW : forall r, timed r hash06 2400 300 [0; 9] [0; 1; 72; 73] -> well_blanked r) by (intros r T; apply (timed_able r T)).
  split. { apply cf_blanked; [|exact other_not_blanked]. exists hash06, 2400, 300, [0; 9], [0; 71]. split; [timing|]. split; [reflexivity|left; exact hash06_tagged]. }
  split. { apply (cf_phases _ _ [0; 1]); [reflexivity|apply TB; timing|apply TW; timing| |].
           - split; [field|]. repeat constructor; vm_compute; congruence.
           - intros F. apply Forall_inv_tail, Forall_inv in F. destruct F as [_ F]. vm_compute in F. discriminate F. }
  split. { apply cf_table; [reflexivity|apply TB; timing|apply TW; timing|]. exists 0%nat, 0%nat, [0; 0]. split; field. }
  vm_compute. reflexivity.
Qed.

(** The records: an unknown station; no noise; versions without a number; a time that is
    infinite, or after the year 9999; an azimuth too few; a first range that is infinite, a
    range separation of 2^63; an element of the data too few; two dimensions; no
    cross-correlations; more sequences than the data have. *)
Definition raw_cases : list brecord :=
  [ dict_set read_raw (str "station") (BText (str "xyz"));
    dict_set read_raw (str "noise_at_freq") (BArr BF64 [0%nat] []);
    dict_set read_raw (str "sqn_timestamps") (BArr BF64 [1%nat] [CZ 9218868437227405312]);
    dict_set read_raw (str "sqn_timestamps") (BArr BF64 [1%nat] [CZ 4785074604081152000]);
    dict_set read_raw (str "beam_azms") (BArr BF64 [1%nat] [CZ 0]);
    dict_set read_raw (str "first_range") (BScalar BF32 (CZ 2139095040));
    dict_set read_raw (str "range_sep") (BScalar BF32 (CZ 1593835520));
    set_complex (str "intf_acfs") (powers 11) read_raw;
    dict_set read_raw (str "correlation_dimensions") (BArr BU32 [2%nat] [CZ 2; CZ 6]);
    filter (fun p => negb (str_eqb (fst p) (str "xcfs"))) read_raw ].
Definition nameless : brecord := dict_set read_raw (str "borealis_git_hash") (BText (str "vx.y")).
Definition long_bfiq : brecord := dict_set read_bfiq (str "num_sequences") (BScalar BI64 (CZ 3)).
(** No beams: nothing to convert, whatever the station. *)
Definition no_beams : brecord := dict_set (hd [] raw_cases) (str "beam_nums") (BArr BU32 [0%nat] []).
Lemma raw_cases_hyps : Forall (fun r => passes BRawacf r /\ says BRawacf r (raw_facts r) /\
  convert_case BRawacf [(str "1", r)] = Raise BorealisConvert2RawacfError) raw_cases.
Proof.
  repeat (apply Forall_cons; [split; [passed|split; [|vm_compute; reflexivity]];
    match goal with |- says _ ?r _ => raw_said r "0"%string "6"%string "-61-gc13ad17"%string end|]). apply Forall_nil.
Qed.
Lemma nameless_passes : passes BRawacf nameless.
Proof.
  assert (T : timed nameless (str "vx.y") 2400 300 [0; 9] [0; 1; 72; 73]) by timing.
  split; [|split; [|discriminate]].
  - exists (str "vx.y"), 2400, 300, [0; 9], [0; 1; 72; 73]. split; [exact T|]. split; [reflexivity|left].
    exists (str "x"), (str "y"). split; [reflexivity|]. split; absent.
  - exists (str "vx.y"), 2400, 300, [0; 9], [0; 1; 72; 73]. split; [exact T|exact blanked_example].
Qed.
Example C93_records_case :
  Forall (fun r => passes BRawacf r /\ says BRawacf r (raw_facts r) /\ ~ Forall (can BRawacf) [raw_facts r]) raw_cases /\
  passes BRawacf nameless /\ says BRawacf nameless (raw_facts nameless) /\ ~ Forall (can BRawacf) [raw_facts nameless] /\
  passes Bfiq long_bfiq /\ says Bfiq long_bfiq (bfiq_facts long_bfiq) /\ ~ Forall (can Bfiq) [bfiq_facts long_bfiq] /\
  convert_case Bfiq [(str "1", long_bfiq)] = Raise BorealisConvert2IqdatError.
Proof.
  split. { eapply Forall_impl; [|exact raw_cases_hyps]. cbv beta. intros r (P & S & E). split; [exact P|]. split; [exact S|].
           exact (cannot BRawacf (str "1") r _ (or_intror eq_refl) P S E). }
  assert (S1 : says BRawacf nameless (raw_facts nameless)) by (raw_said nameless "x"%string "y"%string ""%string).
  split; [exact nameless_passes|]. split; [exact S1|].
  split. { apply (cannot BRawacf (str "1") nameless _ (or_intror eq_refl) nameless_passes S1). vm_compute. reflexivity. }
  assert (P2 : passes Bfiq long_bfiq) by passed.
  assert (S2 : says Bfiq long_bfiq (bfiq_facts long_bfiq)) by (bfiq_said long_bfiq "0"%string "6"%string "-61-gc13ad17"%string).
  split; [exact P2|]. split; [exact S2|].
  assert (E : convert_case Bfiq [(str "1", long_bfiq)] = Raise BorealisConvert2IqdatError) by (vm_compute; reflexivity).
  split; [|exact E]. exact (cannot Bfiq (str "1") long_bfiq _ (or_introl eq_refl) P2 S2 E).
Qed.
(** Records that can be converted, and one without beams. *)
Ltac can_common := split; [right; exact hash06_small|]; split; [eexists _, _; split; [reflexivity|]; split; [vm_compute; discriminate|split; vm_compute; reflexivity]|];
  split; [exists 5; field|]; split; [vm_compute; discriminate|]; split; [vm_compute; lia|];
  split; (split; [vm_compute; discriminate|split; vm_compute; congruence]).
Example C93_can_case :
  passes BRawacf read_raw /\ says BRawacf read_raw (raw_facts read_raw) /\ can BRawacf (raw_facts read_raw) /\
  passes Bfiq read_bfiq /\ says Bfiq read_bfiq (bfiq_facts read_bfiq) /\ can Bfiq (bfiq_facts read_bfiq) /\
  total_beams [raw_facts read_raw; raw_facts read_raw] = 4%nat /\
  passes BRawacf no_beams /\ says BRawacf no_beams (raw_facts no_beams) /\ can BRawacf (raw_facts no_beams) /\ fa_beams (raw_facts no_beams) = [] /\
  convert_case BRawacf [(str "1", no_beams)] = Ok [].
Proof.
  split; [passed|]. split; [exact raw_said_case|].
  split. { split; [repeat constructor|]. right. split; [can_common|]. split; [field|]. exists 2%nat, 2%nat, 3%nat. split; [field|]. split; vm_compute; lia. }
  split; [passed|]. split; [exact bfiq_said_case|].
  split. { split; [repeat constructor|]. right. split; [can_common|]. exists 2%nat, 2%nat, 2%nat, 3%nat. split; [field|]. split; [vm_compute; lia|right; vm_compute; discriminate]. }
  split; [field|]. split; [passed|]. split; [raw_said no_beams "0"%string "6"%string "-61-gc13ad17"%string|].
  split. { split; [repeat constructor|]. left. field. }
  split; field.
Qed.

(** Files: one without a pulse length, one without beams, and one that is not there. *)
Definition changed_fs (f : brecord -> brecord) : hfs :=
  fst (site_write BorealisFileProps.h5py_filters BorealisFileProps.empty_fs (str "r") (DRecords (map (fun p => (fst p, f (snd p))) raw_in)) (str "rawacf") None).
Definition convert_changed (f : brecord -> brecord) : res unit :=
  snd (borealis_convert same_scale same_scale fst some_time (changed_fs f) no_files (str "r") (str "rawacf") (str "o") None None 1).
Example C93_file_case :
  convert_changed (fun r => dict_set r (str "tx_pulse_len") (BScalar BU32 (CZ 0))) = Raise OverflowError /\
  convert_changed (fun r => dict_set r (str "beam_nums") (BArr BU32 [0%nat] [])) = Raise DmapDataError /\
  snd (convert_file (str "n") (str "rawacf") (str "o")) = Raise FileNotFoundError.
Proof. repeat split; vm_compute; reflexivity. Qed.
