(** Converting a site file and the array file made of it: proofs. *)
From Coq Require Import String ZArith List Bool Lia Permutation Sorted.
From Verif Require Import Base BytesProofs SDarnFormats SDarnChecks DmapFileProofs DmapWriteFacts DmapWriteProofs BorealisTypes BorealisFormats
  BorealisChecks BorealisArrays BorealisTime BorealisFile BorealisConvert BorealisFileProofs.
Import ListNotations.
Open Scope list_scope.
Open Scope Z_scope.

(** The fields that the conversion reads, but for the phase offsets. *)
Definition fields_read : list pystr :=
  [str "borealis_git_hash"; str "experiment_name"; str "experiment_id"; str "experiment_comment"; str "slice_comment"; str "slice_id";
   str "station"; str "num_sequences"; str "first_range_rtt"; str "rx_sample_rate"; str "agc_status_word"; str "lp_status_word";
   str "sqn_timestamps"; str "noise_at_freq"; str "beam_azms"; str "beam_nums"; str "scan_start_marker"; str "int_time";
   str "tx_pulse_len"; str "tau_spacing"; str "pulses"; str "lags"; str "first_range"; str "range_sep"; str "freq"; str "num_ranges";
   str "num_samps"; str "antenna_arrays_order"; str "blanked_samples"; str "data_dimensions"; str "correlation_dimensions"; str "data";
   str "data_normalization_factor"; str "main_acfs"; str "intf_acfs"; str "xcfs"; str "tx_antenna_phases"].
Definition agree (r r' : brecord) : Prop := forall k, str_mem k fields_read = true -> dict_get r' k = dict_get r k.

Lemma rbind_ext {A B} (x : res A) (f g : A -> res B) : (forall a, f a = g a) -> rbind x f = rbind x g.
Proof. intros E. destruct x; [apply E|reflexivity]. Qed.
Lemma mapM_ext {A B} (f g : A -> res B) l : (forall a, f a = g a) -> mapM f l = mapM g l.
Proof. intros E. induction l as [|a l IH]; [reflexivity|]. cbn [mapM]. now rewrite E, IH. Qed.

Section Ext.
Variables scale_iq scale_acf : Z -> Z -> Z * Z -> Z * Z.
Variable power : Z * Z -> Z.
Variable ctime : Z -> pystr.
Variables r r' : brecord.
Hypothesis H : agree r r'.

Lemma item_ext k : str_mem k fields_read = true -> dict_item r' k = dict_item r k.
Proof. intros K. unfold dict_item. now rewrite H. Qed.
Lemma int_ext k : str_mem k fields_read = true -> get_int r' k = get_int r k.
Proof. intros K. unfold get_int. now rewrite item_ext. Qed.
Lemma float_ext k t : str_mem k fields_read = true -> get_float r' k t = get_float r k t.
Proof. intros K. unfold get_float. now rewrite item_ext. Qed.
Lemma text_ext k : str_mem k fields_read = true -> get_text r' k = get_text r k.
Proof. intros K. unfold get_text. now rewrite item_ext. Qed.
Lemma vector_ext k t : str_mem k fields_read = true -> get_vector r' k t = get_vector r k t.
Proof. intros K. unfold get_vector. now rewrite item_ext. Qed.
Lemma length_ext k : str_mem k fields_read = true -> first_length r' k = first_length r k.
Proof. intros K. unfold first_length. now rewrite item_ext. Qed.
Lemma status_ext k : str_mem k fields_read = true -> status_word r' k = status_word r k.
Proof. intros K. unfold status_word. now rewrite H, int_ext. Qed.
Lemma shaped_ext d k : str_mem k fields_read = true -> shaped r' d k = shaped r d k.
Proof. intros K. unfold shaped. now rewrite item_ext. Qed.
Lemma shaped_if_ext d k : str_mem k fields_read = true -> shaped_if r' d k = shaped_if r d k.
Proof. intros K. unfold shaped_if. now rewrite H, shaped_ext. Qed.

Ltac ext := repeat first [rewrite item_ext by reflexivity|rewrite int_ext by reflexivity|rewrite float_ext by reflexivity|rewrite text_ext by reflexivity
  |rewrite vector_ext by reflexivity|rewrite length_ext by reflexivity|rewrite status_ext by reflexivity|rewrite shaped_ext by reflexivity].

Lemma blanking_ext : normal_blanking r' = normal_blanking r.
Proof. unfold normal_blanking, sample_spacing. ext. reflexivity. Qed.
Lemma common_ext s i b p n x : common_fields ctime r' s i b p n x = common_fields ctime r s i b p n x.
Proof. unfold common_fields. ext. reflexivity. Qed.
Lemma comment_ext key origin k : comment r' key origin k = comment r key origin k.
Proof. unfold comment. ext. reflexivity. Qed.
Lemma tables_ext : tables r' = tables r.
Proof. unfold tables. ext. reflexivity. Qed.
Lemma beams_ext : beams_of r' = beams_of r.
Proof. unfold beams_of. ext. reflexivity. Qed.
Lemma iqdat_ext s key origin k shape data b beam :
  iqdat_record ctime s key origin k r' shape data b beam = iqdat_record ctime s key origin k r shape data b beam.
Proof.
  unfold iqdat_record, has_intf. ext. apply rbind_ext. intros nseq. cbv zeta.
  do 5 (apply rbind_ext; intros ?). rewrite common_ext. apply rbind_ext. intros c. rewrite comment_ext. apply rbind_ext. intros tx.
  do 2 (apply rbind_ext; intros ?). now rewrite tables_ext.
Qed.
Lemma tx_ext : tx_power r' = tx_power r.
Proof. unfold tx_power. now rewrite H. Qed.
Lemma rawacf_ext s key origin k shape m x b beam :
  rawacf_record power ctime s key origin k r' shape m x b beam = rawacf_record power ctime s key origin k r shape m x b beam.
Proof.
  unfold rawacf_record. destruct shape as [|nb [|nr [|nl [|]]]]; try reflexivity. destruct (_ || _); [reflexivity|]. rewrite tx_ext.
  apply rbind_ext. intros p. rewrite common_ext, comment_ext, tables_ext. reflexivity.
Qed.

Lemma bfiq_ext s key origin k : convert_bfiq_record scale_iq ctime s (key, r') origin k = convert_bfiq_record scale_iq ctime s (key, r) origin k.
Proof.
  unfold convert_bfiq_record. ext. apply rbind_ext. intros d. rewrite shaped_ext by reflexivity. apply rbind_ext. intros sd. apply rbind_ext. intros norm.
  cbv zeta. do 4 (apply rbind_ext; intros ?). rewrite beams_ext. apply rbind_ext. intros l. apply mapM_ext. intros q. apply iqdat_ext.
Qed.
Lemma raw_ext s key origin k :
  convert_rawacf_record scale_acf power ctime s (key, r') origin k = convert_rawacf_record scale_acf power ctime s (key, r) origin k.
Proof.
  unfold convert_rawacf_record. rewrite !H by reflexivity. ext. apply rbind_ext. intros d. apply rbind_ext. intros norm. cbv zeta.
  rewrite shaped_ext by reflexivity. apply rbind_ext. intros m. rewrite !shaped_if_ext by reflexivity.
  do 4 (apply rbind_ext; intros ?). rewrite beams_ext. apply rbind_ext. intros l. apply mapM_ext. intros q. apply rawacf_ext.
Qed.
End Ext.

(** Records of the same names that agree are converted alike. *)
Lemma all_ext scale_iq scale_acf power ctime t sid rs rs' origin k :
  Forall2 (same_key (fun r r' => agree r r' /\ (t = Bfiq -> no_phases r' = no_phases r))) rs rs' ->
  converted_records scale_iq scale_acf power ctime t sid rs' origin k = converted_records scale_iq scale_acf power ctime t sid rs origin k.
Proof.
  intros F. destruct t; try reflexivity; unfold converted_records.
  - assert (E1 : convertible_iqdat rs' = convertible_iqdat rs).
    { induction F as [|[n r] [n' r'] rs rs' [E [H1 H2]] F IH]; [reflexivity|]. cbn [fst snd] in *. cbn [convertible_iqdat].
      rewrite (blanking_ext r r' H1), (H2 eq_refl), IH. reflexivity. }
    assert (E2 : mapM (fun p => convert_bfiq_record scale_iq ctime sid p origin k) rs' = mapM (fun p => convert_bfiq_record scale_iq ctime sid p origin k) rs).
    { clear E1. induction F as [|[n r] [n' r'] rs rs' [E [H1 H2]] F IH]; [reflexivity|]. cbn [fst snd] in *. subst n'. cbn [mapM].
      rewrite (bfiq_ext scale_iq ctime r r' H1), IH. reflexivity. }
    unfold convert_all. now rewrite E1, E2.
  - assert (E1 : convertible_rawacf rs' = convertible_rawacf rs).
    { induction F as [|[n r] [n' r'] rs rs' [E [H1 H2]] F IH]; [reflexivity|]. cbn [fst snd] in *. cbn [convertible_rawacf].
      rewrite (blanking_ext r r' H1), IH. reflexivity. }
    assert (E2 : mapM (fun p => convert_rawacf_record scale_acf power ctime sid p origin k) rs' =
                 mapM (fun p => convert_rawacf_record scale_acf power ctime sid p origin k) rs).
    { clear E1. induction F as [|[n r] [n' r'] rs rs' [E [H1 H2]] F IH]; [reflexivity|]. cbn [fst snd] in *. subst n'. cbn [mapM].
      rewrite (raw_ext scale_acf power ctime r r' H1), IH. reflexivity. }
    unfold convert_all. now rewrite E1, E2.
Qed.

Lemma slice_ext (P : brecord -> brecord -> Prop) rs rs' sid : (forall r r', P r r' -> agree r r') ->
  Forall2 (same_key P) rs rs' -> find_slice_id rs' sid = find_slice_id rs sid.
Proof.
  intros HP F. destruct F as [|[n r] [n' r'] rs rs' [_ H] F]; [reflexivity|]. cbn [snd] in H. apply HP in H.
  unfold find_slice_id. rewrite (H (str "slice_id") eq_refl), (int_ext r r' H (str "slice_id") eq_refl). reflexivity.
Qed.

(** So files whose readers give such records are converted alike. *)
Lemma convert_ext scale_iq scale_acf power ctime hf hf' ds fn ft t sfn sid st st' k rd rd' rs rs' :
  filetype_of ft = Some t -> borealis_read hf fn ft st = Ok rd -> reader_records rd = Ok rs ->
  borealis_read hf' fn ft st' = Ok rd' -> reader_records rd' = Ok rs' ->
  Forall2 (same_key (fun r r' => agree r r' /\ (t = Bfiq -> no_phases r' = no_phases r))) rs rs' ->
  borealis_convert scale_iq scale_acf power ctime hf' ds fn ft sfn sid st' k =
  borealis_convert scale_iq scale_acf power ctime hf ds fn ft sfn sid st k.
Proof.
  intros T A1 A2 B1 B2 F. unfold borealis_convert. rewrite A1, B1. cbn [rbind]. rewrite A2, B2. cbn [rbind].
  rewrite (slice_ext _ rs rs' sid (fun _ _ => @proj1 _ _) F). destruct (find_slice_id rs sid) as [i|e]; [|reflexivity]. cbn [rbind]. rewrite T.
  destruct (sdarn_type t); [|reflexivity]. destruct (str_eqb fn sfn); [reflexivity|]. now rewrite (all_ext _ _ _ _ t i rs rs' fn k F).
Qed.

(** ** The records of both files *)

From Verif Require Import BorealisCatalogue BorealisCatalogueProofs BorealisShapes
  BorealisSpec BorealisCheckProofs BorealisFillProofs BorealisRestructFacts BorealisRestructProofs BorealisFileSpec BorealisRestructure BorealisRestructureSpec
  BorealisRestructureFileSpec BorealisRestructureArrayFileProofs BorealisRestructureRoundProofs BorealisConvertSpec BorealisConvertSameSpec BorealisConvertProofs.

Lemma read_names_unread g t k : str_mem k fields_read = true -> k <> names_field g t.
Proof. intros K ->. destruct t, g; vm_compute in K; discriminate K. Qed.
Lemma read_phases_unread k : str_mem k fields_read = true -> k <> str "pulse_phase_offset".
Proof. intros K ->. vm_compute in K. discriminate K. Qed.

Definition raw_phases : bool :=
  forallb (fun g => forallb (fun r => negb (str_eqb (fr_name r) (str "pulse_phase_offset") && fr_in r BRawacf g)) catalogue) [G4; G5; G6; G7].
Lemma raw_no_phases g ro : ~ role_of g BRawacf (str "pulse_phase_offset") ro.
Proof.
  intros (kd & ty & r & A & B & _ & _ & C & _).
  assert (R : raw_phases = true) by (vm_compute; reflexivity). unfold raw_phases in R. rewrite forallb_forall in R.
  assert (G : In g [G4; G5; G6; G7]) by (destruct g; cbn; tauto). apply R in G. rewrite forallb_forall in G. apply G in A.
  rewrite B, C, str_eqb_refl in A. discriminate A.
Qed.
Lemma phases_role g t ro : has_structures t -> role_of g t (str "pulse_phase_offset") ro -> ro = Common \/ ro = Varying.
Proof.
  intros HT (kd & ty & L). apply (made_cases g t) in L; [|exact HT]. destruct ro; auto; exfalso;
    first [destruct L as (_ & _ & [C|[C _]]); solve [vm_compute in C; discriminate C]|destruct L as (C & _); destruct g, t; vm_compute in C; discriminate C].
Qed.

Lemma records_sorted f rs : NoDup (keys (h_items f)) -> BorealisFile.read_records f = Ok rs -> StronglySorted str_lt (keys rs).
Proof.
  intros ND H. unfold BorealisFile.read_records in H. apply mapM_inv in H.
  assert (E : keys rs = keys (sort_dict (h_items f))).
  { induction H as [|x y l l' E F IH]; [reflexivity|]. unfold keys in *. cbn [map]. rewrite IH. f_equal.
    destruct (BorealisFile.read_record (snd x)); cbn [rbind] in E; [|discriminate E]. apply ok_inj in E. now rewrite <- E. }
  rewrite E. now apply BorealisFileProofs.sort_sorted.
Qed.

Lemma forall2_keyed {P : brecord -> brecord -> Prop} : forall rs x : brecords, NoDup (keys rs) -> keys x = keys rs ->
  (forall n r r', In (n, r) rs -> In (n, r') x -> P r r') -> Forall2 (same_key P) rs x.
Proof.
  induction rs as [|[n r] rs IH]; intros [|[m q] x] ND E H; cbn [keys map fst] in E; try discriminate E; [constructor|].
  assert (E1 : m = n) by exact (f_equal (hd m) E). assert (E2 : keys x = keys rs) by exact (f_equal (@tl _) E). subst m.
  inversion ND as [|? ? N1 N2]; subst. constructor.
  - split; [reflexivity|]. cbn [snd]. apply (H n); now left.
  - apply IH; auto. intros k a b Ha Hb. apply (H k); now right.
Qed.

Theorem both_read av fs i o f t g z cs rs c v :
  has_structures t -> i <> o -> holds fs i f -> site_layout (format_class g t) f -> BorealisFile.read_records f = Ok rs ->
  (forall n r, In (n, r) rs -> BorealisSpec.site_record_ok (format_class g t) r /\ storable (format_class g t) r) ->
  consistent g t z cs rs -> common_arrays g t rs -> records_version rs v -> supported v g ->
  (t <> AntennasIq -> widest_first cs) ->
  (role_of g t (str "pulse_phase_offset") Varying -> forall n r, In (n, r) rs -> phases_of_pulses r) ->
  named_by record_name rs -> can_compress av c -> fs o = None ->
  (role_of g t (str "pulse_phase_offset") Common -> forall n r ty l, In (n, r) rs -> dict_get r (str "pulse_phase_offset") <> Some (BArr ty [2%nat] l)) ->
  exists fs1 sr ar rs', restructure av fs i o (type_name t) (str "array") c = (fs1, Ok tt) /\ only_file o fs fs1 /\
    site_read fs i (type_name t) = Ok sr /\ array_read fs1 o (type_name t) = Ok ar /\
    borealis_read fs1 o (type_name t) None = Ok (ArrayReader ar) /\
    (~ (g = G7 /\ t = Bfiq) -> reader_records (ArrayReader ar) = Ok rs') /\
    (g = G7 /\ t = Bfiq -> reader_records (ArrayReader ar) = Raise BorealisRestructureError) /\
    Forall2 (same_key record_back) rs (sr_records sr) /\ Forall2 (same_key (same_record g t)) rs rs'.
Proof.
  intros HT HIO HF HL HRR HOK HC HCA HV HSup HW HPh HNm HCc HO HTwo.
  destruct (site_file_arrays av fs i o f t g z cs rs c v HT HIO HF HL HRR HOK HC HCA HV HSup HW HPh) as (a & h & W1 & A1 & A2 & PR & AO & ST & AH & V4 & SH).
  destruct (array_file_round_trip av fs o t g a c h v HT (ao_nodup _ _ _ _ _ _ A2) AO ST AH V4 HSup HCc HO)
    as (fs' & ar & W2 & W3 & W4 & W5 & W6 & W7 & W8 & _ & W9).
  destruct (site_file_read fs i f t g rs h v HT HF HRR PR HOK SH V4 HSup) as (sr & R1 & R2 & R3 & R4 & R5).
  destruct (restructure_named g t z cs rs HT HC) as (a' & A1' & _ & A3). assert (a' = a) by congruence. subst a'.
  destruct (A3 record_name HNm) as (rs' & S1 & S2 & S3).
  assert (NE : rs <> []) by apply (co_some _ _ _ _ _ HC).
  destruct (tables g t HT) as (dims & TF).
  assert (AR : array_records g t a = wrap_restructure (rlet _ := check_site_records (format_class g t) rs' in Ok rs')).
  { unfold array_records. cbv zeta. now rewrite (tf_restr _ _ _ TF), S1. }
  assert (CK : check_site_records (format_class g t) rs' = Ok tt <-> ~ (g = G7 /\ t = Bfiq)).
  { apply (sites_pass g t rs rs' HT PR); auto. apply (site_check_iff g t rs HT PR). intros n r Hr. exact (proj1 (HOK n r Hr)). }
  assert (PR' : proper rs').
  { split; [rewrite S2; apply PR|]. clear - S3. intros n r H. induction S3 as [|p p' rs rs' (_ & N & _) H2 IH]; [destruct H|].
    destruct H as [->|H]; [exact N|auto]. }
  assert (GE : forall k, dict_get (ar_arrays ar) k = dict_get a k).
  { destruct W9 as [B1 B2]. intros k. destruct (str_eqb k (str "pulse_phase_offset")) eqn:EK; [|apply str_eqb_neq in EK; now apply B1].
    apply str_eqb_eq in EK. subst k. destruct (dict_get a (str "pulse_phase_offset")) as [w|] eqn:EW; [|exact B2].
    destruct B2 as (s & Q1 & Q2 & _). apply Q2. intros ->.
    assert (IK : In (str "pulse_phase_offset") (keys a)) by (apply in_map_iff; exists (str "pulse_phase_offset", w); split; [reflexivity|now apply dict_get_In]).
    apply (ao_fields _ _ _ _ _ _ A2) in IK as (ro & RO & NR). destruct rs as [|[n0 r0] rs0]; [now destruct NE|].
    destruct (phases_role g t ro HT RO) as [->| ->].
    - pose proof (ao_common _ _ _ _ _ _ A2 _ n0 r0 RO (or_introl eq_refl)) as E. rewrite EW in E.
      destruct w as [| |ty s l| | ]; cbn [has_shape] in Q1; try contradiction; try discriminate Q1. subst s.
      exact (HTwo RO n0 r0 ty l (or_introl eq_refl) (eq_sym E)).
    - destruct (ao_ppo _ _ _ _ _ _ A2 RO) as (ms & data & E1 & _ & E3). assert (EQ : w = BArr BF32 (length ((n0, r0) :: rs0) :: ms) data) by congruence.
      subst w. cbn [has_shape] in Q1. assert (EM : ms = []) by exact (f_equal (@tl _) Q1).
      destruct (E3 0%nat n0 r0 eq_refl) as (s & b & F1 & F2 & _). rewrite EM in F2.
      destruct (co_ppo _ _ _ _ _ HC RO) as (sh & P1 & P2). inversion P2 as [|c0 p0 cs0 l0 X1 X2]; subst. destruct X1 as (d & Y1 & _). cbn [snd] in Y1.
      assert (ES : s = sh c0) by congruence. subst s. destruct P1; cbn in F2; discriminate F2. }
  exists fs', sr, ar, rs'. splits; auto.
  - intros NB. cbn [reader_records]. rewrite W7, W8, (records_ext g t a (ar_arrays ar) GE), AR, (proj2 CK NB). reflexivity.
  - intros B7. cbn [reader_records]. rewrite W7, W8, (records_ext g t a (ar_arrays ar) GE), AR.
    pose proof (site_check_report g t rs' HT PR') as RP. cbv zeta in RP.
    destruct (check_site_records (format_class g t) rs') as [[]|e]; [destruct (proj1 CK eq_refl B7)|]. cbn [rbind wrap_restructure].
    destruct e; try reflexivity. destruct RP as [[C|C] _]; discriminate C.
  - destruct R5 as (Z1 & Z2 & Z3). apply forall2_keyed; [exact (proj1 PR)| |exact Z3].
    apply sorted_keys; [exact Z1|exact (records_sorted f rs (proj1 HL) HRR)|exact Z2].
  - clear - S2 S3. revert rs' S2 S3. induction rs as [|[n r] rs IH]; intros rs' E F; inversion F as [|? [m q] ? ? C1 C2]; subst; [constructor|].
    cbn [keys map fst] in E. assert (E1 : m = n) by exact (f_equal (hd m) E). assert (E2 : keys l' = keys rs) by exact (f_equal (@tl _) E).
    constructor; [split; [now symmetry|exact (proj1 C1)]|now apply IH].
Qed.

(** The phase offsets. *)
Lemma numbers_zeros n : numbers (repeat (CZ 0) n) = Ok (repeat 0 n).
Proof. unfold numbers. induction n as [|n IH]; [reflexivity|]. cbn [repeat mapM rbind]. now rewrite IH. Qed.
Lemma zeros_zero n : forallb zero32 (repeat 0 n) = true.
Proof. induction n as [|n IH]; [reflexivity|]. cbn [repeat forallb]. now rewrite IH. Qed.
Lemma alike_back g r x : phases_alike g r -> record_back r x -> forall y, dict_get y (str "pulse_phase_offset") = dict_get r (str "pulse_phase_offset") ->
  no_phases y = no_phases x.
Proof.
  intros (s & l & ty & p & l' & E1 & E2 & E3 & E4) [_ B] y EY. rewrite E1 in B. destruct B as (pp & s' & sp & B1 & B2 & B3 & B4 & B5).
  rewrite E3 in B1. injection B1 as <-. cbn [has_shape] in B2, B3. subst s' sp.
  unfold no_phases, dict_item. rewrite EY, E1. cbn [rbind].
  destruct E4 as [->|[-> _]].
  - destruct (Nat.eq_dec p 0) as [->|NP].
    + rewrite (B4 eq_refl). reflexivity.
    + rewrite B5 by congruence. cbn [rbind size fold_right] in *. destruct l; [|discriminate E2]. cbn [numbers rbind mapM forallb].
      rewrite numbers_zeros. cbn [rbind]. now rewrite zeros_zero.
  - rewrite (B4 eq_refl). reflexivity.
Qed.

(** A file is read alike under another name. *)
Lemma read_ext hf hf' n n' ft st : hf' n' = hf n -> borealis_read hf' n' ft st = borealis_read hf n ft st.
Proof.
  intros E. unfold borealis_read, return_reader, site_read, array_read, h5_open. now rewrite E.
Qed.

(** ** The conversions *)

(** How a file is given to the converter. *)
Lemma site_given fs i f F t st sr : holds fs i f -> site_layout F f -> site_read fs i (type_name t) = Ok sr -> st = None \/ st = Some (str "site") ->
  borealis_read fs i (type_name t) st = Ok (SiteReader sr).
Proof.
  intros HF (_ & _ & HH & _) HS HST.
  assert (E : borealis_read fs i (type_name t) (Some (str "site")) = Ok (SiteReader sr)).
  { unfold borealis_read. rewrite type_name_of. change (str_eqb (str "site") (str "site")) with true. cbv iota. rewrite HS. reflexivity. }
  destruct HST as [->| ->]; [|exact E]. rewrite <- E. refine (proj2 (no_root_hash fs i f t HF _)).
  intros C. apply HH in C. clear - C. cbn [map In] in C. repeat destruct C as [C|C]; try contradiction; vm_compute in C; discriminate C.
Qed.
Lemma array_given fs o t st ar : array_read fs o (type_name t) = Ok ar -> borealis_read fs o (type_name t) None = Ok (ArrayReader ar) ->
  st = None \/ st = Some (str "array") -> borealis_read fs o (type_name t) st = Ok (ArrayReader ar).
Proof.
  intros HA HN [->| ->]; [exact HN|]. unfold borealis_read. rewrite type_name_of.
  change (str_eqb (str "array") (str "site")) with false. change (str_eqb (str "array") (str "array")) with true. cbv iota. rewrite HA. reflexivity.
Qed.

Theorem same_conversion av fs i o f t g z cs rs c v :
  has_structures t -> i <> o -> holds fs i f -> site_layout (format_class g t) f -> BorealisFile.read_records f = Ok rs ->
  (forall n r, In (n, r) rs -> BorealisSpec.site_record_ok (format_class g t) r /\ storable (format_class g t) r) ->
  consistent g t z cs rs -> common_arrays g t rs -> records_version rs v -> supported v g ->
  (t <> AntennasIq -> widest_first cs) ->
  (role_of g t (str "pulse_phase_offset") Varying -> forall n r, In (n, r) rs -> phases_of_pulses r) ->
  named_by record_name rs -> can_compress av c -> fs o = None ->
  ~ (g = G7 /\ t = Bfiq) -> t = BRawacf \/ t = Bfiq -> (t = Bfiq -> forall n r, In (n, r) rs -> phases_alike g r) ->
  exists fs1, restructure av fs i o (type_name t) (str "array") c = (fs1, Ok tt) /\ only_file o fs fs1 /\
    forall scale_iq scale_acf power ctime hf ds sfn sid st st' k, hf i = fs1 o ->
      st = None \/ st = Some (str "site") -> st' = None \/ st' = Some (str "array") ->
      borealis_convert scale_iq scale_acf power ctime hf ds i (type_name t) sfn sid st' k =
      borealis_convert scale_iq scale_acf power ctime fs ds i (type_name t) sfn sid st k.
Proof.
  intros HT HIO HF HL HRR HOK HC HCA HV HSup HW HPh HNm HCc HO HNB HTy HA.
  assert (HTwo : role_of g t (str "pulse_phase_offset") Common -> forall n r ty l, In (n, r) rs ->
    dict_get r (str "pulse_phase_offset") <> Some (BArr ty [2%nat] l)).
  { intros RO n r ty l Hr E. destruct HTy as [->| ->]; [exact (raw_no_phases g _ RO)|].
    destruct (HA eq_refl n r Hr) as (s & l0 & ty' & p & l' & E1 & _ & _ & E4). rewrite E in E1. injection E1 as _ <- _.
    destruct E4 as [C|[C [D|D]]]; [discriminate C|injection C as <-; now apply D|]. pose proof (role_unique g Bfiq _ _ _ RO D) as X. discriminate X. }
  destruct (both_read av fs i o f t g z cs rs c v HT HIO HF HL HRR HOK HC HCA HV HSup HW HPh HNm HCc HO HTwo)
    as (fs1 & sr & ar & rs' & R1 & R2 & R3 & R4 & R5 & R6 & _ & R7 & R8). specialize (R6 HNB).
  exists fs1. split; [exact R1|]. split; [exact R2|]. intros scale_iq scale_acf power ctime hf ds sfn sid st st' k EH HS HS'.
  apply (convert_ext _ _ _ _ fs hf ds i (type_name t) t sfn sid st st' k (SiteReader sr) (ArrayReader ar) (sr_records sr) rs').
  - apply type_name_of.
  - exact (site_given fs i f _ t st sr HF HL R3 HS).
  - reflexivity.
  - rewrite (read_ext fs1 hf o i _ st' EH). exact (array_given fs1 o t st' ar R4 R5 HS').
  - exact R6.
  - clear - R7 R8 HA. revert R7 HA. generalize (sr_records sr). induction R8 as [|[n r] [n' r'] rs rs' [E1 S1] F IH]; intros xs R7 HA; inversion R7 as [|? [m x] ? ? [E2 S2] F2]; subst; constructor.
    + cbn [fst snd] in *. split; [cbn; congruence|]. cbn [snd]. split.
      * intros k K. rewrite (proj1 S1 k (read_names_unread g t k K)). symmetry. exact (proj1 S2 k (read_phases_unread k K)).
      * intros ->. apply (alike_back g r x (HA eq_refl n r (or_introl eq_refl)) S2). apply (proj1 S1).
        intros C. destruct g; vm_compute in C; discriminate C.
    + apply IH; [exact F2|]. intros T k q Hq. apply (HA T k q). now right.
Qed.

(** Rows of phases are read as they are from the array file, but as zeros from the site file. *)
Theorem rows_refused av fs i o f g z cs rs c v n0 r0 rest b :
  i <> o -> holds fs i f -> site_layout (format_class g Bfiq) f -> BorealisFile.read_records f = Ok rs ->
  (forall n r, In (n, r) rs -> BorealisSpec.site_record_ok (format_class g Bfiq) r /\ storable (format_class g Bfiq) r) ->
  consistent g Bfiq z cs rs -> common_arrays g Bfiq rs -> records_version rs v -> supported v g ->
  widest_first cs ->
  (role_of g Bfiq (str "pulse_phase_offset") Varying -> forall n r, In (n, r) rs -> phases_of_pulses r) ->
  named_by record_name rs -> can_compress av c -> fs o = None ->
  g <> G7 -> rs = (n0, r0) :: rest -> role_of g Bfiq (str "pulse_phase_offset") Varying ->
  checkable r0 -> well_blanked r0 -> rows_of_phases r0 -> number_field r0 (str "slice_id") BU32 b ->
  exists fs1 sr x, restructure av fs i o (str "bfiq") (str "array") c = (fs1, Ok tt) /\ only_file o fs fs1 /\
    site_read fs i (str "bfiq") = Ok sr /\ In (n0, x) (sr_records sr) /\ all_zero_phases x /\
    forall scale_iq scale_acf power ctime hf ds sfn sid st' k, hf i = fs1 o -> i <> sfn -> st' = None \/ st' = Some (str "array") ->
      borealis_convert scale_iq scale_acf power ctime hf ds i (str "bfiq") sfn sid st' k = (ds, Raise ValueError).
Proof.
  intros HIO HF HL HRR HOK HC HCA HV HSup HW HPh HNm HCc HO HG ER HRo HCk HWb (n & q & l & P1 & P2 & P3 & P4) HSl.
  assert (HT : has_structures Bfiq) by discriminate.
  assert (HTwo : role_of g Bfiq (str "pulse_phase_offset") Common -> forall n r ty l, In (n, r) rs ->
    dict_get r (str "pulse_phase_offset") <> Some (BArr ty [2%nat] l)).
  { intros RO. pose proof (role_unique g Bfiq _ _ _ RO HRo) as X. discriminate X. }
  destruct (both_read av fs i o f Bfiq g z cs rs c v HT HIO HF HL HRR HOK HC HCA HV HSup (fun _ => HW) HPh HNm HCc HO HTwo)
    as (fs1 & sr & ar & rs' & R1 & R2 & R3 & R4 & R5 & R6 & _ & R7 & R8).
  assert (HNB : ~ (g = G7 /\ Bfiq = Bfiq)) by tauto. specialize (R6 HNB). subst rs.
  inversion R7 as [|? [m x] ? xs [E1 S1] F1 EX EY]; subst. inversion R8 as [|? [m' y] ? ys [E2 S2] F2]; subst. cbn [fst snd] in E1, S1, E2, S2. subst m m'.
  exists fs1, sr, x. split; [exact R1|]. split; [exact R2|]. split; [exact R3|].
  split; [rewrite <- EY; now left|].
  assert (EG : forall k, k <> names_field g Bfiq -> dict_get y k = dict_get r0 k) by exact (proj1 S2).
  assert (NN : forall k, str_mem k (str "pulse_phase_offset" :: fields_read) = true -> k <> names_field g Bfiq).
  { intros k K ->. destruct g; vm_compute in K; discriminate K. }
  split.
  - destruct HCk as (h & tau & len & pulses & blanked & T & _). pose proof (tm_pulses _ _ _ _ _ _ T) as TP. unfold vector_field in TP.
    destruct S1 as [_ B]. rewrite P1 in B. destruct B as (pp & s' & sp & B1 & B2 & B3 & B4 & B5).
    rewrite TP in B1. injection B1 as <-. cbn [has_shape] in B2, B3. subst s' sp.
    exists (repeat 0 (length pulses)). split.
    + split; [|apply Forall_forall; intros w Hw; apply repeat_spec in Hw; subst w; lia].
      unfold vector_field. rewrite B5 by (intros C; discriminate C). cbn [size fold_right]. rewrite repeat_length, Nat.mul_1_r.
      f_equal. f_equal. clear. induction pulses as [|p pulses IH]; [reflexivity|]. cbn [length repeat map]. now rewrite IH.
    + apply Forall_forall. intros w Hw. apply repeat_spec in Hw. subst w. split; reflexivity.
  - intros scale_iq scale_acf power ctime hf ds sfn sid st' k EH NS HS'.
    pose proof (array_given fs1 o Bfiq st' ar R4 R5 HS') as RD. rewrite <- (read_ext fs1 hf o i _ st' EH) in RD. change (type_name Bfiq) with (str "bfiq") in RD.
    unfold borealis_convert. rewrite RD. cbn [rbind]. rewrite R6. cbn [rbind].
    assert (AG : agree r0 y) by (intros w W; apply EG, NN; unfold str_mem in *; cbn [existsb]; rewrite W; now rewrite orb_true_r).
    assert (SL : find_slice_id ((n0, y) :: ys) sid = Ok b).
    { cbn [find_slice_id]. rewrite (AG (str "slice_id") eq_refl). pose proof HSl as HSl'. unfold number_field in HSl'. rewrite HSl'.
      rewrite (int_ext r0 y AG (str "slice_id") eq_refl). exact (get_int_ok _ _ _ _ HSl eq_refl). }
    rewrite SL. cbn [rbind]. change (filetype_of (str "bfiq")) with (Some Bfiq). cbv iota. cbn [sdarn_type].
    apply str_eqb_neq in NS. rewrite NS. unfold converted_records. cbn [convertible_iqdat].
    rewrite (blanking_ext r0 y AG). destruct (checkable_blanking r0 HCk) as (bb & NB & HB). rewrite NB, (proj2 HB HWb). cbn [rbind negb].
    destruct n as [|n]; [lia|]. destruct q as [|[|q]]; try lia.
    rewrite (phases_matrix y n q l); [reflexivity| |exact P2]. rewrite EG by (apply NN; reflexivity). exact P1.
Qed.

(** Bfiq array files of version 0.7. *)
Theorem seven_refused av fs i o f z cs rs c v :
  i <> o -> holds fs i f -> site_layout (format_class G7 Bfiq) f -> BorealisFile.read_records f = Ok rs ->
  (forall n r, In (n, r) rs -> BorealisSpec.site_record_ok (format_class G7 Bfiq) r /\ storable (format_class G7 Bfiq) r) ->
  consistent G7 Bfiq z cs rs -> common_arrays G7 Bfiq rs -> records_version rs v -> supported v G7 ->
  widest_first cs ->
  (role_of G7 Bfiq (str "pulse_phase_offset") Varying -> forall n r, In (n, r) rs -> phases_of_pulses r) ->
  named_by record_name rs -> can_compress av c -> fs o = None ->
  exists fs1, restructure av fs i o (str "bfiq") (str "array") c = (fs1, Ok tt) /\ only_file o fs fs1 /\
    forall scale_iq scale_acf power ctime hf ds sfn sid st' k, hf i = fs1 o -> st' = None \/ st' = Some (str "array") ->
      borealis_convert scale_iq scale_acf power ctime hf ds i (str "bfiq") sfn sid st' k = (ds, Raise BorealisRestructureError).
Proof.
  intros HIO HF HL HRR HOK HC HCA HV HSup HW HPh HNm HCc HO.
  assert (HT : has_structures Bfiq) by discriminate.
  assert (HTwo : role_of G7 Bfiq (str "pulse_phase_offset") Common -> forall n r ty l, In (n, r) rs ->
    dict_get r (str "pulse_phase_offset") <> Some (BArr ty [2%nat] l)).
  { intros (kd & ty & r & A & B & _ & _ & C & D). exfalso.
    assert (R : forallb (fun r => negb (str_eqb (fr_name r) (str "pulse_phase_offset") && fr_in r Bfiq G7) || match fr_role r G7 with Common => false | _ => true end) catalogue = true)
      by (vm_compute; reflexivity).
    rewrite forallb_forall in R. apply R in A. rewrite B, C, D, str_eqb_refl in A. discriminate A. }
  destruct (both_read av fs i o f Bfiq G7 z cs rs c v HT HIO HF HL HRR HOK HC HCA HV HSup (fun _ => HW) HPh HNm HCc HO HTwo)
    as (fs1 & sr & ar & rs' & R1 & R2 & R3 & R4 & R5 & _ & R6 & R7 & R8). specialize (R6 (conj eq_refl eq_refl)).
  exists fs1. split; [exact R1|]. split; [exact R2|]. intros scale_iq scale_acf power ctime hf ds sfn sid st' k EH HS'.
  pose proof (array_given fs1 o Bfiq st' ar R4 R5 HS') as RD. rewrite <- (read_ext fs1 hf o i _ st' EH) in RD. change (type_name Bfiq) with (str "bfiq") in RD.
  unfold borealis_convert. rewrite RD. cbn [rbind]. rewrite R6. reflexivity.
Qed.
