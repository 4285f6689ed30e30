(** Restructuring a site file with a wrong number of phase offsets. *)
From Coq Require Import String ZArith List Bool Lia Permutation Sorted.
From Verif Require Import Base Utf8 BytesProofs Utf8Proofs DmapFileProofs DmapWriteProofs DmapWriteFacts SDarnChecks SDarnFormats
  BorealisTypes BorealisFormats BorealisChecks BorealisArrays BorealisTime BorealisFile BorealisRestructure BorealisSpec
  BorealisFileSpec BorealisRestructureSpec BorealisShapes BorealisRestructureFileSpec BorealisCheckProofs BorealisCatalogue
  BorealisCatalogueProofs BorealisNumpyProofs BorealisFillProofs BorealisRestructFacts BorealisToArrayProofs
  BorealisRestructProofs BorealisFileProofs BorealisRestructureProofs BorealisRestructureFileProofs BorealisRestructureToArrayProofs
  BorealisRestructureArraysProofs BorealisRestructureArrayFileProofs BorealisRestructureBackSpec BorealisRestructureBackProofs.
Import ListNotations.
Open Scope list_scope.
Open Scope nat_scope.

Lemma key_some {A} (d : dict A) k : In k (keys d) -> exists v, dict_get d k = Some v.
Proof.
  intros H. destruct (dict_get d k) as [v|] eqn:E; [eauto|]. apply dict_get_none in E. contradiction.
Qed.
Lemma combine_nth_error {A B} (l : list A) (m : list B) : forall j x y, nth_error l j = Some x -> nth_error m j = Some y ->
  nth_error (combine l m) j = Some (x, y).
Proof.
  revert m. induction l as [|a l IH]; intros [|b m] [|j] x y H1 H2; cbn in *; try discriminate; [congruence|eauto].
Qed.

Section Phases.
Variables (g : generation) (t : filetype) (dims : dict (list adim)) (z : sizes).
Hypothesis HT : has_structures t.
Hypothesis TF : table_facts g t dims.
Let F := format_class g t.
Variables (sa sd : dict btype).
Let u := map fst dims.
Hypothesis AT : array_tables_facts g t sa sd u.

(** A group and the record that is read from it. *)
Definition group_of (i : hitem) (c : counts) (r : brecord) : Prop :=
  record_fits g t z c r /\ exists ds als, i = HGroup ds als /\
  (forall k, In k (keys sa) -> exists x v, dict_get als k = Some x /\ dict_get r k = Some v /\
     (no_text F k = true -> attr_value x = v) /\ read_attr x = Ok v) /\
  (forall k, In k (keys sd) -> exists d v, dict_get als k = None /\ dict_get ds k = Some d /\ dict_get r k = Some v /\
     (no_text F k = true -> v = BArr (hd_type d) (hd_shape d) (hd_data d))).

Lemma ppo_single : dict_get (fm_single F) s_ppo = None.
Proof. unfold F. clear. destruct g, t; vm_compute; reflexivity. Qed.

Definition has_dims (m : max_dims) : Prop := forall k, In k u -> In k (keys (md_dims m)).

Lemma has_dims_set m k s n b : has_dims m -> In k u -> has_dims (mk_max (dict_set (md_dims m) k s) n b).
Proof.
  intros H Hk k' Hk'. cbn [md_dims]. specialize (H k' Hk'). apply key_some in H as (w & H).
  apply keys_in. destruct (str_eqb k k') eqn:E.
  - exists s. apply dict_get_In. rewrite dict_get_set, E. reflexivity.
  - exists w. apply dict_get_In. rewrite dict_get_set, E. exact H.
Qed.

Lemma field_shape_cases i c r ds als k : group_of i c r -> i = HGroup ds als -> In k u -> dict_get (fm_single F) k = None ->
  dict_get als k = None /\
  ((exists s, field_shape ds k = Ok s /\ (k = str "beam_nums" -> s = Some [c_beam c]) /\ (k = s_ppo -> ~ wrong_phases r)) \/
   field_shape ds k = Raise ValueError).
Proof.
  intros (HF & ds' & als' & EI & LA & LD) E Hk ES. rewrite E in EI. injection EI as <- <-. clear E.
  destruct (at_many _ _ _ _ _ AT k Hk ES) as [K NT]. destruct (LD k K) as (d & v & X1 & X2 & X3 & X4). specialize (X4 NT). subst v.
  split; [exact X1|]. unfold field_shape. rewrite X2. destruct (str_eqb k s_ppo) eqn:EP.
  - apply str_eqb_eq in EP. subst k. destruct (at_ppo _ _ _ _ _ AT Hk) as (P1 & P2 & P3 & P4).
    destruct (at_dims _ _ _ _ _ AT) as [KD ND]. destruct (LD _ KD) as (dd & w & _ & W2 & W3 & W4). specialize (W4 ND).
    rewrite (rf_dims _ _ _ _ _ HF) in W3. injection W3 as W3. rewrite W4 in W3. injection W3 as V1 V2 V3. rewrite P1 in W2. rewrite W2, <- V1, <- V2, <- V3.
    assert (EA : array_int (BArr BU32 [length (data_layout t)] (map (fun x => CZ (Z.of_nat (dim_val z c x))) (data_layout t))) 1 =
      Ok (Z.of_nat (c_seq c))).
    { clear - P4 HT. destruct t; try reflexivity; [now destruct P4|now destruct HT]. }
    rewrite EA. cbn [rbind]. destruct (LD _ P2) as (dp & w' & _ & U2 & U3 & U4). specialize (U4 P3). subst w'. rewrite U2. cbv zeta.
    assert (WP : wrong_phases r -> 2 <= size (hd_shape d) /\ Z.of_nat (size (hd_shape d)) <> (Z.of_nat (c_seq c) * Z.of_nat (size (hd_shape dp)))%Z).
    { intros (ty & s & l & ty' & s' & l' & ty'' & n & A1 & A2 & A3 & A4 & A5). rewrite (rf_seq _ _ _ _ _ HF) in A3.
      change (str "pulse_phase_offset") with s_ppo in A1. rewrite X3 in A1. rewrite U3 in A2. injection A1 as <- <- <-. injection A2 as <- <- <-. injection A3 as <- <-. auto. }
    assert (NB : s_ppo = str "beam_nums" -> False) by (intros C; vm_compute in C; discriminate C).
    destruct (Z.eqb_spec (Z.of_nat (size (hd_shape d))) (Z.of_nat (c_seq c) * Z.of_nat (size (hd_shape dp)))) as [E1|E1]; cbn [negb andb].
    + left. eexists. split; [reflexivity|]. split; [intros C; destruct (NB C)|]. intros _ C. now apply WP in C.
    + destruct (Z.eqb_spec (Z.of_nat (size (hd_shape d))) 0) as [E2|E2]; cbn [negb].
      * left. eexists. split; [reflexivity|]. split; [intros C; destruct (NB C)|]. intros _ C. apply WP in C as [C _]. lia.
      * destruct (Z.eqb_spec (Z.of_nat (size (hd_shape d))) 1) as [E3|E3]; [|now right].
        left. eexists. split; [reflexivity|]. split; [intros C; destruct (NB C)|]. intros _ C. apply WP in C as [C _]. lia.
  - left. eexists. split; [reflexivity|]. split.
    + intros ->. destruct (many_in_ok _ _ _ _ _ (tf_beam _ _ _ TF)) as (M1 & _ & M3).
      destruct (rf_many _ _ _ _ _ HF _ _ (many_listed g t dims HT TF _ _ M1 M3)) as (data & D1 & _).
      { intros C; vm_compute in C; discriminate C. }
      assert (X5 : hd_shape d = stored_shape g t z c (str "beam_nums")) by congruence. rewrite X5. unfold stored_shape.
      replace (flat g t (str "beam_nums")) with false by (clear; destruct g, t; reflexivity). reflexivity.
    + intros ->. rewrite str_eqb_refl in EP. discriminate.
Qed.

Lemma max_field_cases i c r first k m : group_of i c r -> In k u -> has_dims m ->
  (exists m', max_field i first k m = Ok m' /\ has_dims m' /\ (k = s_ppo -> ~ wrong_phases r)) \/
  max_field i first k m = Raise ValueError.
Proof.
  intros HG Hk HM. pose proof HG as (HF & ds & als & EI & LA & LD). unfold max_field. rewrite EI. cbn [item_attrs].
  destruct (dict_get (fm_single F) k) as [ty|] eqn:ES.
  - left. destruct (at_one _ _ _ _ _ AT k ty Hk ES) as [Ka _]. destruct (LA k Ka) as (x & v & X1 & X2 & X3 & X4). rewrite X1.
    assert (NP : k = s_ppo -> ~ wrong_phases r) by (intros ->; rewrite ppo_single in ES; discriminate).
    destruct (str_eqb k (str "num_sequences")) eqn:EN; [|exists m; auto].
    apply str_eqb_eq in EN. subst k. assert (EV : attr_value x = BScalar BI64 (CZ (Z.of_nat (c_seq c)))).
    { rewrite X3; [rewrite (rf_seq _ _ _ _ _ HF) in X2; congruence|].
      unfold no_text, single_string, F. rewrite (tf_seq_type _ _ _ TF). cbn [is_text_type negb andb].
      pose proof (at_attr _ _ _ _ _ AT _ Ka) as NA. unfold F in *. apply negb_true_iff. exact NA. }
    rewrite EV. cbn [scalar_int is_int_type rbind]. eexists. split; [reflexivity|]. split; [exact HM|exact NP].
  - destruct (field_shape_cases i c r ds als k HG EI Hk ES) as (N & [(s & S1 & S2 & S3)|S]); rewrite N.
    2:{ right. now rewrite S. }
    left. rewrite S1. cbn [rbind]. destruct s as [s|]; [|exists m; auto]. destruct first.
    + cbv zeta. destruct (str_eqb k (str "beam_nums")) eqn:EB.
      * apply str_eqb_eq in EB. specialize (S2 EB). injection S2 as ->. eexists. split; [reflexivity|]. split; [now apply has_dims_set|exact S3].
      * eexists. split; [reflexivity|]. split; [now apply has_dims_set|exact S3].
    + unfold dict_item. pose proof (HM k Hk) as HK. apply key_some in HK as (w & HK). rewrite HK. cbn [rbind].
      eexists. split; [reflexivity|]. split; [now apply has_dims_set|exact S3].
Qed.

Lemma max_fields_cases i c r first : group_of i c r -> forall ks m, incl ks u -> has_dims m ->
  (exists m', max_fields i first ks m = Ok m' /\ has_dims m' /\ (In s_ppo ks -> ~ wrong_phases r)) \/
  max_fields i first ks m = Raise ValueError.
Proof.
  intros HG. induction ks as [|k ks IH]; intros m HI HM; cbn [max_fields].
  - left. exists m. auto.
  - destruct (max_field_cases i c r first k m HG (HI k (or_introl eq_refl)) HM) as [(m1 & E1 & M1 & P1)|E1]; rewrite E1; cbn [rbind]; [|now right].
    destruct (IH m1 (fun x Hx => HI x (or_intror Hx)) M1) as [(m2 & E2 & M2 & P2)|E2]; [|now right].
    left. exists m2. split; [exact E2|]. split; [exact M2|]. intros [->|H]; auto.
Qed.

Lemma max_records_never : In s_ppo u -> forall its cs (rs : brecords) first m,
  Forall2 (fun p (q : counts * (pystr * brecord)) => group_of (snd p) (fst q) (snd (snd q))) its (combine cs rs) -> length cs = length rs -> has_dims m ->
  (exists n r, In (n, r) rs /\ wrong_phases r) -> max_records its first u m = Raise ValueError.
Proof.
  intros HU. induction its as [|[n i] its IH]; intros cs rs first m H HL HM (n0 & r0 & HI & HW).
  - destruct rs as [|p rs]; [destruct HI|]. destruct cs; [discriminate|]. inversion H.
  - destruct cs as [|c cs]; [inversion H|]. destruct rs as [|[n1 r1] rs]; [discriminate|]. cbn [combine] in H.
    inversion H as [|? ? ? ? H1 H2]; subst. cbn [fst snd] in H1. cbn [max_records].
    destruct (max_fields_cases i c r1 first H1 u m (incl_refl _) HM) as [(m1 & E1 & M1 & P1)|E1]; rewrite E1; cbn [rbind]; [|reflexivity].
    destruct HI as [HI|HI]; [injection HI as <- <-; now destruct (P1 HU)|].
    apply (IH cs rs); [exact H2|now injection HL|exact M1|]. exists n0, r0. auto.
Qed.
End Phases.

(** The version of a site file is that of its first record. *)
Lemma layout_version f t g rs v : has_structures t -> site_layout (format_class g t) f -> read_records f = Ok rs ->
  records_version rs v -> supported v g -> has_version f v.
Proof.
  intros HT (NI & NH & HH & HG) HRR (n0 & r0 & hh & V1 & V2 & V3 & V4) HSup. exists hh. split; [exact V4|]. right. split.
  { intros [C|C]; [contradiction|].
    apply HH in C. clear - C. cbn [map In] in C. repeat destruct C as [C|C]; try contradiction; vm_compute in C; discriminate C. }
  apply first_hash_eq; [exact NI|].
  assert (IM : forall p, In p (members f) -> In p (h_items f)) by (intros p Hp; eapply Permutation_in; [apply sort_perm|exact Hp]).
  unfold read_records in HRR. fold (members f) in HRR. apply mapM_inv in HRR.
  assert (EKR : keys rs = keys (members f)).
  { clear - HRR. unfold keys. induction HRR as [|p q l m X HR IH]; cbn [map]; [reflexivity|]. apply rbind_ok in X as (r & _ & X).
    apply ok_inj in X as <-. cbn [fst]. now rewrite IH. }
  destruct (forall2_in_r _ _ _ _ HRR V1) as ([nm it] & Hp & X2). cbn [fst snd] in *.
  apply rbind_ok in X2 as (r' & R1 & R2). apply ok_inj in R2. injection R2 as -> ->.
  assert (FS : exists rest, sort_dict (h_items f) = (n0, it) :: rest).
  { apply (first_sorted (h_items f) n0 it NI (IM _ Hp)). intros n' Hn'. apply V2. rewrite EKR.
    eapply Permutation_in; [apply keys_perm; symmetry; apply sort_perm|exact Hn']. }
  destruct FS as (rest & FS). unfold site_hash. rewrite FS.
  destruct (HG _ _ (IM _ Hp)) as (ds & als & -> & N1 & N2 & N3 & LA & LD). cbn [item_attrs].
  destruct (f_hash_site _ (format_facts g t HT)) as (ty & HS').
  destruct (LA _ _ HS') as (x & X3 & X4). apply (dget _ _ _ N2) in X3. rewrite X3.
  destruct (group_read ds als r0 N1 N2 N3 R1) as (_ & RA & _).
  destruct (RA s_hash x X3) as (v' & RV & GV); [vm_compute; reflexivity|].
  assert (v' = BText hh) by (unfold s_hash in GV; congruence). subst v'.
  destruct X4 as [T1 T2]. pose proof (hash_text g t HT) as HTX. destruct (T1 HTX) as [(b & ->)|[-> _]].
  - cbn [read_attr] in RV. cbn [attr_decode]. destruct (utf8_dec b); [|discriminate]. apply ok_inj in RV. injection RV as ->. reflexivity.
  - exfalso. cbn [read_attr] in RV. apply ok_inj in RV. injection RV as <-. clear - V4 HSup. apply version_iff in V4. cbn in V4. subst v.
    apply supported_gen in HSup. discriminate.
Qed.

(** Restructuring is a ValueError, and nothing is written. *)
Theorem phases_never av fs i o f t g z cs rs c v :
  has_structures t -> i <> o -> holds fs i f -> site_layout (format_class g t) f -> read_records f = Ok rs ->
  (forall n r, In (n, r) rs -> BorealisSpec.site_record_ok (format_class g t) r /\ storable (format_class g t) r) ->
  Forall2 (fun c p => record_fits g t z c (snd p)) cs rs ->
  records_version rs v -> supported v g -> role_of g t (str "pulse_phase_offset") Varying ->
  (exists n r, In (n, r) rs /\ wrong_phases r) ->
  restructure av fs i o (type_name t) (str "array") c = (fs, Raise ValueError).
Proof.
  intros HT HIO HF HL HRR HOK HC HV HSup HRo HWr. apply (layout_version f t g rs v HT HL HRR) in HV; [|exact HSup].
  destruct HL as (NI & NH & HH & HG).
  rewrite (restructure_start av fs i o f t (str "array") c v HT (or_intror eq_refl) HIO HF NI HV).
  apply supported_gen in HSup. rewrite HSup.
  assert (BS : borealis_structure (record_names f) = str "site").
  { apply structure_iff. right. split; [reflexivity|]. intros [C|C]; [contradiction|].
    apply HH in C. clear - C. cbn [map In] in C. repeat destruct C as [C|C]; try contradiction; vm_compute in C; discriminate C. }
  rewrite BS. change (str_eqb (str "site") (str "array")) with false. change (str_eqb (str "array") (str "site")) with false. cbv iota.
  destruct (site_tables g t HT) as (sa & sd & E1 & E2 & Na & Nd & Dj & HA & HD & _).
  destruct (tables g t HT) as (dims & TF).
  assert (EU : unshared_fields (format_class g t) = Ok (map fst dims)) by (unfold unshared_fields; rewrite (tf_dims _ _ _ TF); reflexivity).
  pose proof (array_facts_ok g t sa sd (map fst dims) HT E1 E2 EU) as AT.
  assert (HU : In s_ppo (map fst dims)) by (apply (dims_role g t dims HT TF); exact HRo).
  assert (IM : forall p, In p (members f) -> In p (h_items f)) by (intros p Hp; eapply Permutation_in; [apply sort_perm|exact Hp]).
  unfold site_to_array_file, arrays_of_file. cbv zeta. rewrite EU. cbn [rbind].
  assert (EM : base_max_dims f (map fst dims) = Raise ValueError).
  { unfold base_max_dims. apply (max_records_never g t dims z HT TF sa sd AT HU (members f) cs rs).
    - unfold read_records in HRR. fold (members f) in HRR. apply mapM_inv in HRR.
      assert (LM : length (members f) = length rs) by exact (forall2_length _ _ _ HRR).
      assert (LC : length cs = length rs) by exact (forall2_length _ _ _ HC).
      apply forall2_from_nth.
      { rewrite combine_length, LC, Nat.min_id. exact LM. }
      intros j [nm it] Hj. destruct (forall2_nth _ _ _ _ _ HRR Hj) as ([n r] & X1 & X2). cbn [fst snd] in X2.
      apply rbind_ok in X2 as (r' & R1 & R2). apply ok_inj in R2. injection R2 as -> ->.
      destruct (nth_error cs j) as [c0|] eqn:EC.
      2:{ exfalso. apply nth_error_None in EC. assert (X : j < length rs) by (apply nth_error_Some; unfold brecords, dict in *; congruence). lia. }
      destruct (forall2_nth _ _ _ _ _ HC EC) as ([n' r'] & Y1 & Y2).
      assert (X : Some (n, r) = Some (n', r')) by exact (eq_trans (eq_sym X1) Y1). injection X as <- <-. cbn [snd] in Y2.
      exists (c0, (n, r)). split; [now apply combine_nth_error|]. cbn [fst snd]. split; [exact Y2|].
      apply nth_error_In in Hj, X1. destruct (HOK _ _ X1) as [K1 K2].
      destruct (loaded_like g t sa sd (map fst dims) it r HT AT HA HD (tf_nd_single _ _ _ TF) (HG _ _ (IM _ Hj)) R1 K1 K2)
        as (NR & lr & L1 & L2 & ds & als & L3 & L4 & L5). exists ds, als. auto.
    - exact (forall2_length _ _ _ HC).
    - intros k Hk. cbn [md_dims]. unfold keys. rewrite map_map. cbn [fst]. now rewrite map_id.
    - exact HWr. }
  unfold site_max_dims. rewrite EM. reflexivity.
Qed.

(** ** Array files of samples from version 0.6 on *)

Lemma through_phases g t r y : has_structures t -> went_through g t r y ->
  (forall k, k <> names_field g t -> k <> str "pulse_phase_offset" -> dict_get y k = dict_get r k) /\
  (forall k, In k (keys y) <-> exists ro, role_of g t k ro /\ ro <> MadeArray) /\
  forall w, dict_get r (str "pulse_phase_offset") = Some w ->
    exists v p sp, dict_get y (str "pulse_phase_offset") = Some v /\ dict_get r (str "pulses") = Some p /\ has_shape p sp /\ has_shape v sp.
Proof.
  intros HT (r' & x & ((S1 & S2) & ND & KR) & [B1 B2] & PE & NX).
  assert (NP : names_field g t <> str "pulse_phase_offset") by (intros C; destruct t, g; vm_compute in C; discriminate C).
  assert (NU : str "pulses" <> names_field g t) by (intros C; destruct t, g; vm_compute in C; discriminate C).
  assert (PY : forall k, dict_get y k = dict_get x k) by (intros k; now apply perm_get).
  split; [|split].
  - intros k H1 H2. rewrite PY, B1 by exact H2. now apply S1.
  - intros k. rewrite <- KR. assert (E : dict_get y k = None <-> dict_get r' k = None).
    { rewrite PY. destruct (str_eqb k (str "pulse_phase_offset")) eqn:EK.
      - apply str_eqb_eq in EK. subst k. destruct (dict_get r' (str "pulse_phase_offset")) as [v|] eqn:EV; [|tauto].
        destruct B2 as (p & s & sp & P1 & P2 & P3 & P4 & P5).
        assert (D : s = sp \/ s <> sp) by (destruct (list_eq_dec Nat.eq_dec s sp); auto).
        destruct D as [D|D]; [rewrite (P4 D)|rewrite (P5 D)]; split; discriminate.
      - apply str_eqb_neq in EK. now rewrite B1. }
    split; intros H; apply key_some in H as (w & H); apply keys_in.
    + destruct (dict_get r' k) as [w'|] eqn:EW; [exists w'; now apply dict_get_In|]. rewrite (proj2 E eq_refl) in H. discriminate.
    + destruct (dict_get y k) as [w'|] eqn:EW; [exists w'; now apply dict_get_In|]. rewrite (proj1 E eq_refl) in H. discriminate.
  - intros w Hw. rewrite <- S1 in Hw by (now apply not_eq_sym). rewrite Hw in B2. destruct B2 as (p & s & sp & P1 & P2 & P3 & P4 & P5).
    rewrite PY. rewrite S1 in P1 by exact NU.
    assert (D : s = sp \/ s <> sp) by (destruct (list_eq_dec Nat.eq_dec s sp); auto).
    destruct D as [D|D].
    + exists w, p, sp. subst s. splits; auto.
    + exists (BArr BF32 sp (repeat (CZ 0) (size sp))), p, sp. splits; auto. reflexivity.
Qed.

Lemma fits_through g t z c r y : has_structures t -> went_through g t r y -> record_fits g t z c r -> record_fits g t z c y.
Proof.
  intros HT HW H. destruct (through_phases g t r y HT HW) as (HE & HK & _). constructor.
  - exact HK.
  - intros k ty L. assert (NP : k <> str "pulse_phase_offset").
    { intros ->. destruct (catalogue_lists g t HT) as (C1 & _). assert (C : In (str "pulse_phase_offset", ty) (fm_single (format_class g t))) by (apply C1; eauto).
      pose proof (ppo_single g t) as PS. apply dict_get_none in PS. apply PS. change s_ppo with (fst (s_ppo, ty)). now apply in_map. }
    rewrite HE; [exact (rf_one _ _ _ _ _ H k ty L)|apply (made_cases g t _ _ _ _ HT L)|exact NP].
  - rewrite HE; [exact (rf_seq _ _ _ _ _ H)|..]; intros C; destruct t, g; vm_compute in C; discriminate C.
  - intros k ty L NP. rewrite HE; [exact (rf_many _ _ _ _ _ H k ty L NP)|apply (made_cases g t _ _ _ _ HT L)|exact NP].
  - rewrite HE; [exact (rf_dims _ _ _ _ _ H)|..]; intros C; destruct t, g; vm_compute in C; discriminate C.
  - exact (rf_small _ _ _ _ _ H).
  - exact (rf_pos _ _ _ _ _ H).
Qed.

Theorem array_file_stuck av fs i o p f t g z cs rs c c' ar :
  has_structures t -> i <> o -> o <> p -> holds fs i f -> array_layout (format_class g t) f -> phases_whole f -> no_empty_numbers (format_class g t) f ->
  array_read fs i (type_name t) = Ok ar -> ar_gen ar = g -> proper rs ->
  (forall n r, In (n, r) rs -> BorealisSpec.site_record_ok (format_class g t) r /\ storable (format_class g t) r) ->
  consistent g t z cs rs -> common_arrays g t rs -> arrays_of g t z cs rs (ar_arrays ar) ->
  named_by record_name rs -> StronglySorted str_lt (keys rs) -> ~ (g = G7 /\ t = Bfiq) ->
  can_compress av c -> fs o = None ->
  role_of g t (str "pulse_phase_offset") Varying -> (exists n r, In (n, r) rs /\ several_pulses r) ->
  exists fs1, restructure av fs i o (type_name t) (str "site") c = (fs1, Ok tt) /\ only_file o fs fs1 /\
    restructure av fs1 o p (type_name t) (str "array") c' = (fs1, Raise ValueError).
Proof.
  intros HT HIO HOP HI HL HPW HE HR HG PR HOK HC HCA HA HNm HSo HNB HCc HO HRo (n0 & r0 & I0 & SP).
  destruct (to_site_file av fs i o f t g z cs rs c ar) as (fs1 & its & ys & h & Y1 & Y2 & Y3 & Y4 & Y5 & Y6 & Y7 & Y8 & Y9 & Y10); auto.
  exists fs1. splits; auto. apply (phases_never av fs1 o p (mk_hfile its []) t g z cs ys c' (ar_version ar)); auto.
  - intros n r Hr. destruct (Y8 n r Hr) as (X1 & X2 & _). now split.
  - pose proof (co_records _ _ _ _ _ HC) as HR'. assert (LS : length rs = length ys) by exact (forall2_length _ _ _ Y6).
    apply forall2_from_nth; [rewrite (forall2_length _ _ _ HR'); exact LS|]. intros j c0 Hj.
    destruct (forall2_nth _ _ _ _ _ HR' Hj) as ([n r] & X1 & X2). destruct (forall2_nth _ _ _ _ _ Y6 X1) as ([m y] & Z1 & Z2 & Z3).
    exists (m, y). split; [exact Z1|]. cbn [fst snd] in *. exact (fits_through g t z c0 r y HT Z3 X2).
  - assert (NY : ys <> []).
    { intros ->. apply (co_some _ _ _ _ _ HC). inversion Y6. reflexivity. }
    destruct ys as [|[n y] ys0] eqn:EY; [now destruct NY|]. exists n, y, h. split; [now left|]. split; [|split; [apply (Y8 n y); now left|exact Y9]].
    rewrite <- Y7 in HSo. inversion HSo as [|? ? H1 H2]; subst. rewrite Forall_forall in H2. intros n' [<-|Hn]; [now left|right; now apply H2].
  - destruct (forall2_in _ _ _ _ Y6 I0) as ([m y] & X1 & X2 & X3). cbn [fst snd] in *. subst m. exists n0, y. split; [exact X1|].
    destruct (through_phases g t r0 y HT X3) as (W1 & _ & W2). destruct SP as (ty & s & l & ty' & n & P1 & P2 & P3 & P4).
    assert (PW : exists w, dict_get r0 (str "pulse_phase_offset") = Some w).
    { destruct (co_ppo _ _ _ _ _ HC HRo) as (f0 & _ & F2). destruct (forall2_in_r _ _ _ _ F2 I0) as (c0 & _ & data & D & _). eauto. }
    destruct PW as (w & PW). destruct (W2 w PW) as (v & pv & sp & U1 & U2 & U3 & U4).
    rewrite P1 in U2. injection U2 as <-. cbn in U3. subst sp.
    assert (PT : exists ty0 l0, v = BArr ty0 s l0).
    { destruct v; cbn [has_shape] in U4; try contradiction; subst; [exfalso; cbn in P2; lia|eauto]. }
    destruct PT as (ty0 & l0 & ->). exists ty0, s, l0, ty, s, l, ty', n. splits; auto.
    + rewrite W1; [exact P1|..]; intros C; destruct t, g; vm_compute in C; discriminate C.
    + rewrite W1; [exact P3|..]; intros C; destruct t, g; vm_compute in C; discriminate C.
    + nia.
Qed.
