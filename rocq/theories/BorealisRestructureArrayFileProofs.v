(** Restructuring a site file: the array file. *)
From Coq Require Import String ZArith List Bool Lia Permutation Sorted.
From Verif Require Import Base Utf8 BytesProofs Utf8Proofs DmapFileProofs DmapWriteProofs DmapWriteFacts SDarnChecks SDarnFormats
  BorealisTypes BorealisFormats BorealisChecks BorealisArrays BorealisTime BorealisFile BorealisRestructure BorealisSpec
  BorealisFileSpec BorealisRestructureSpec BorealisShapes BorealisRestructureFileSpec BorealisCheckProofs BorealisCatalogue
  BorealisCatalogueProofs BorealisNumpyProofs BorealisFillProofs BorealisRestructFacts BorealisToArrayProofs
  BorealisRestructProofs BorealisFileProofs BorealisRestructureProofs BorealisRestructureFileProofs BorealisRestructureToArrayProofs
  BorealisRestructureArraysProofs.
Import ListNotations.
Open Scope list_scope.
Open Scope nat_scope.

(** ** The arrays can be stored *)

Lemma filled_number ty c : fill_cell ty = Ok c -> ty = BStr \/ number_type ty.
Proof. destruct ty; cbn; intros H; try discriminate; auto. Qed.

Lemma names_kept t : Forall text_cell (map CS (array_dim_names t)).
Proof.
  assert (G : forall s, forallb (fun x => (0 <=? x)%Z && (x <? 1114112)%Z) s && negb (last s 1%Z =? 0)%Z = true -> text_cell (CS s)).
  { intros s H. apply andb_true_iff in H as [H1 H2]. exists s. splits; auto.
    - apply Forall_forall. rewrite forallb_forall in H1. intros x Hx. apply H1 in Hx. lia.
    - apply negb_true_iff, Z.eqb_neq in H2. exact H2. }
  apply Forall_map, Forall_forall. intros s Hs. apply G. revert s Hs. apply forallb_forall. destruct t; vm_compute; reflexivity.
Qed.

Lemma arrays_storable g t z cs rs a : has_structures t -> consistent g t z cs rs ->
  (forall n r, In (n, r) rs -> storable (format_class g t) r) -> common_arrays g t rs ->
  arrays_of g t z cs rs a -> storable_arrays (format_class g t) a.
Proof.
  intros HT HC HS HCA HA. destruct (spec_tables g t HT) as (S1 & S2 & S3 & S4 & S5). destruct (tables g t HT) as (dims & TF).
  assert (GV : forall k v, In (k, v) a -> dict_get a k = Some v).
  { intros k v H. apply dict_get_nodup; [apply (ao_nodup _ _ _ _ _ _ HA)|assumption]. }
  assert (G0 : exists n r, In (n, r) rs).
  { destruct rs as [|[n r] rs']; [exfalso; now apply (co_some _ _ _ _ _ HC)|]. exists n, r. now left. }
  destruct G0 as (n0 & r0 & H0). destruct (HS n0 r0 H0) as [K1 K2].
  assert (RC : forall k kd ty, listed g t k kd ty Varying -> exists ads, In (k, ads) dims).
  { intros k kd ty L. apply dims_row. apply (dims_role g t dims HT TF). now exists kd, ty. }
  destruct (catalogue_lists g t HT) as (L1 & L2 & _).
  split; intros k v ty HI HD; apply GV in HI.
  - apply S3 in HD. apply (K1 k v ty).
    + apply dict_get_In. rewrite <- (ao_common _ _ _ _ _ _ HA k n0 r0); [exact HI|now exists One, ty|assumption].
    + apply S1. exists Common. split; [assumption|discriminate].
  - apply S4 in HD as [(ro & L & N)|(ro & L & N)].
    + destruct ro; try congruence.
      * apply (K2 k v ty); [|apply S2; now exists Common]. apply dict_get_In.
        rewrite <- (ao_common _ _ _ _ _ _ HA k n0 r0); [exact HI|now exists Many, ty|assumption].
      * assert (NT : number_type ty).
        { destruct (RC k Many ty L) as (ads & Hr).
          assert (A2' : dict_get (fm_array (format_class g t)) k = Some ty).
          { apply dget; [exact (tf_nd_array _ _ _ TF)|]. apply L2. now exists Varying. }
          destruct (row_cases g t dims TF _ _ Hr) as [(ty' & c & A & _)|(A & ty' & c & sds & A2 & _ & EF & NS & _)].
          - exfalso. apply dict_get_In in A. apply L1 in A as (ro & A). destruct (listed_unique _ _ _ _ _ _ _ _ _ L A) as (C & _). discriminate C.
          - assert (ty' = ty) by congruence. subst ty'. destruct (filled_number ty c EF); [contradiction|assumption]. }
        destruct (str_eqb k (str "pulse_phase_offset")) eqn:EP.
        -- apply str_eqb_eq in EP. subst k. destruct (ao_ppo _ _ _ _ _ _ HA) as (ms & data & E & _); [now exists Many, ty|].
           rewrite E in HI. injection HI as <-. constructor; [discriminate|now left].
        -- apply str_eqb_neq in EP. destruct (ao_many _ _ _ _ _ _ HA k ty L EP) as (data & E & _). rewrite E in HI. injection HI as <-.
           constructor; [discriminate|now left].
      * destruct (made_cases g t _ _ _ _ HT L) as (-> & _). destruct (ao_names _ _ _ _ _ _ HA) as (ty' & E & ET). rewrite E in HI.
        apply (f_equal (fun o => match o with Some v => v | None => BPlain end)) in HI. cbv beta iota in HI. subst v.
        assert (CT : ty' = BBytes \/ ty' = BNpStr) by (subst ty'; destruct g, t; auto).
        destruct CT as [-> | ->].
        -- constructor; [discriminate|now right].
        -- apply kept_texts; [discriminate| |apply names_kept]. rewrite map_length. cbn [size fold_right]. lia.
      * destruct (made_cases g t _ _ _ _ HT L) as (C & _). discriminate.
    + destruct ro; try congruence.
      * destruct (RC k One ty L) as (ads & Hr).
        assert (A2' : dict_get (fm_single (format_class g t)) k = Some ty).
        { apply dget; [exact (tf_nd_single _ _ _ TF)|]. apply L1. now exists Varying. }
        destruct (row_cases g t dims TF _ _ Hr) as [(ty' & c & A & _ & EF & NN & _)|(A & _)]; [|congruence].
        assert (ty' = ty) by congruence. subst ty'.
        destruct (ao_one _ _ _ _ _ _ HA k ty L) as (data & E & E2). rewrite E in HI. injection HI as <-.
        destruct (filled_number ty c EF) as [-> |NT].
        -- cbn [array_type]. apply kept_texts; [discriminate| |].
           ++ rewrite (forall2_length _ _ _ E2). cbn [size fold_right]. now rewrite Nat.mul_1_r.
           ++ apply Forall_forall. intros x Hx. destruct (forall2_in _ _ _ _ E2 Hx) as ([n r] & Hp & Ep). cbn [snd] in Ep.
              destruct (HS n r Hp) as [K _]. assert (AK : attr_kept (plain_value BStr x)).
              { apply (K k _ BStr (dict_get_In _ _ _ Ep)). apply S1. exists Varying. split; [exact L|discriminate]. }
              destruct x as [zz|s|]; cbn [plain_value] in AK; inversion AK as [s' P|? ? NB]; subst; try contradiction.
              destruct P as [P1 P2]. exists s. splits; auto. eapply Forall_impl; [|exact P1]. cbn. lia.
        -- replace (array_type ty) with ty by (destruct ty; try reflexivity; contradiction). constructor; [discriminate|now left].
      * destruct (made_cases g t _ _ _ _ HT L) as (_ & C & _). discriminate.
      * destruct (made_cases g t _ _ _ _ HT L) as (_ & -> & [-> |[-> NG]]).
        -- rewrite (ao_beams _ _ _ _ _ _ HA) in HI. injection HI as <-. constructor; [discriminate|left; exact I].
        -- rewrite (ao_blanked _ _ _ _ _ _ HA NG) in HI. injection HI as <-. constructor; [discriminate|left; exact I].
      * destruct (made_cases g t _ _ _ _ HT L) as (_ & C & _). discriminate.
Qed.

Lemma hash_text g t : has_structures t -> text_name (format_class g t) s_hash.
Proof.
  intros HT. exists BStr. split; [|now left]. right.
  assert (G : dict_get (fm_single (format_class g t)) s_hash = Some BStr) by (destruct g, t; vm_compute; reflexivity).
  now apply dict_get_In.
Qed.

(** ** The whole file *)

Lemma hidden_only (l : list pystr) : (forall k, In k l -> In k (map str ["CLASS"; "TITLE"; "VERSION"; "DEEPDISH_IO_VERSION"; "PYTABLES_FORMAT_VERSION"]%string)) ->
  filter (fun k => negb (str_mem k hidden_attrs)) l = [].
Proof.
  induction l as [|k l IH]; intros H; cbn [filter]; [reflexivity|]. rewrite IH by (intros x Hx; apply H; now right).
  replace (str_mem k hidden_attrs) with true; [reflexivity|]. symmetry. apply str_mem_In. exact (H k (or_introl eq_refl)).
Qed.

Lemma forall2_of_map {A B C} (R : A -> B -> Prop) (v : C -> B) l m : Forall2 R l (map v m) -> Forall2 (fun x y => R x (v y)) l m.
Proof. revert l. induction m as [|y m IH]; intros l H; inversion H; subst; constructor; auto. Qed.

(** What a file and its records have to do with each other. *)
Record file_setup (g : generation) (t : filetype) (z : sizes) (cs : list counts) (rs : brecords) (f : hfile) (v : pystr)
    (dims : dict (list adim)) (sa sd : dict btype) (Q : list quad) (h : counts -> list nat) (hh n0 : pystr) (r0 : brecord) : Prop := mk_setup {
  fs_tables : table_facts g t dims;
  fs_arrays : array_tables_facts g t sa sd (map fst dims);
  fs_unshared : unshared_fields (format_class g t) = Ok (map fst dims);
  fs_counts : map q_c Q = cs;
  fs_records : map q_rec Q = rs;
  fs_reshaped : reshape_site_arrays (format_class g t) rs = Ok (map q_rec2 Q);
  fs_fits : Forall (fun q => record_fits g t z (q_c q) (q_r q) /\ reshaped g t z q) Q;
  fs_some : Q <> [];
  fs_blank : (forall c, In c (map q_c Q) -> c_blank c = 0) \/ (forall c, In c (map q_c Q) -> 1 <= c_blank c);
  fs_ppo : In s_ppo_name (map fst dims) -> ppo_shapes (map q_c Q) h /\
    Forall (fun q => exists data, dict_get (q_r q) s_ppo_name = Some (BArr BF32 (h (q_c q)) data) /\
      length data = size (h (q_c q))) Q;
  fs_phases : In s_ppo (map fst dims) -> forall q ty sp l, In q Q -> dict_get (q_r q) (str "pulses") = Some (BArr ty sp l) ->
    size (h (q_c q)) = 0 \/ size (h (q_c q)) = c_seq (q_c q) * size sp;
  fs_members : Forall2 (member_of g t sa sd) (members f) Q;
  fs_items : forall q, In q Q -> exists it lr lr2 ds als, dict_get (h_items f) (q_name q) = Some it /\ item_of g t sa sd it q lr lr2 ds als;
  fs_names : record_names f = map q_name Q;
  fs_proper : proper rs;
  fs_first : In (n0, r0) rs;
  fs_first_hash : dict_get r0 (str "borealis_git_hash") = Some (BText hh);
  fs_version : hash_version hh v;
  fs_hash : site_hash f = Ok hh
}.

Lemma site_setup av fs i o f t g z cs rs c v :
  has_structures t -> i <> o -> holds fs i f -> site_layout (format_class g t) f -> read_records f = Ok rs ->
  (forall n r, In (n, r) rs -> BorealisSpec.site_record_ok (format_class g t) r /\ storable (format_class g t) r) ->
  consistent g t z cs rs -> records_version rs v -> supported v g ->
  (role_of g t (str "pulse_phase_offset") Varying -> forall n r, In (n, r) rs -> phases_of_pulses r) ->
  restructure av fs i o (type_name t) (str "array") c = site_to_array_file av g t fs f o c /\
  exists dims sa sd Q h hh n0 r0, file_setup g t z cs rs f v dims sa sd Q h hh n0 r0.
Proof.
  intros HT HIO HF HL HRR HOK HC HV HSup HPh.
  destruct HL as (NI & NH & HH & HG).
  destruct (site_tables g t HT) as (sa & sd & E1 & E2 & Na & Nd & Dj & HA & HD & _).
  destruct (tables g t HT) as (dims & TF).
  assert (EU : unshared_fields (format_class g t) = Ok (map fst dims)) by (unfold unshared_fields; rewrite (tf_dims _ _ _ TF); reflexivity).
  pose proof (array_facts_ok g t sa sd (map fst dims) HT E1 E2 EU) as AT.
  (* the quads *)
  destruct (combine_forall2 _ _ _ (co_records _ _ _ _ _ HC)) as (C1 & C2 & C3).
  destruct (reshape_ok g t dims z HT TF (combine cs rs)) as (Q & Q1 & Q2 & Q3 & Q4); [exact C3|].
  rewrite C1 in Q1. rewrite C2 in Q2, Q3.
  assert (Q0 : Q <> []) by (intros ->; cbn in Q2; apply (co_some _ _ _ _ _ HC); now symmetry).
  assert (IQ : forall q, In q Q -> In (q_name q, q_r q) rs).
  { intros q Hq. rewrite <- Q2. apply in_map_iff. exists q. split; [reflexivity|assumption]. }
  assert (HB : (forall c, In c (map q_c Q) -> c_blank c = 0) \/ (forall c, In c (map q_c Q) -> 1 <= c_blank c)).
  { rewrite Q1. apply (co_blank _ _ _ _ _ HC). }
  assert (GP : exists h, In s_ppo_name (map fst dims) -> ppo_shapes (map q_c Q) h /\
    Forall (fun q => exists data, dict_get (q_r q) s_ppo_name = Some (BArr BF32 (h (q_c q)) data) /\
      length data = size (h (q_c q))) Q).
  { assert (D : {In s_ppo_name (map fst dims)} + {~ In s_ppo_name (map fst dims)}).
    { apply in_dec. intros x y. destruct (str_eqb x y) eqn:EB; [left; now apply str_eqb_eq|right; intros C; apply str_eqb_eq in C; congruence]. }
    destruct D as [D|D]; [|exists (fun _ => []); intros C; contradiction].
    pose proof D as D'. apply (dims_role g t dims HT TF) in D'.
    destruct (co_ppo _ _ _ _ _ HC D') as (h & F1 & F2). exists h. intros _. rewrite Q1. split; [assumption|].
    rewrite <- Q1, <- Q2 in F2. apply forall2_unmap in F2. exact F2. }
  destruct GP as (h & HP).
  assert (HPH : In s_ppo (map fst dims) -> forall q ty sp l, In q Q -> dict_get (q_r q) (str "pulses") = Some (BArr ty sp l) ->
    size (h (q_c q)) = 0 \/ size (h (q_c q)) = c_seq (q_c q) * size sp).
  { intros Hk q ty sp l Hq EP. destruct (HP Hk) as [_ P2]. rewrite Forall_forall in P2. destruct (P2 q Hq) as (data & D1 & _).
    apply (dims_role g t dims HT TF) in Hk.
    destruct (HPh Hk (q_name q) (q_r q) (IQ q Hq) _ _ _ _ _ _ _ _ D1 EP (rf_seq _ _ _ _ _ (fits g t z Q Q4 q Hq))) as [S|S]; [now left|right].
    apply Nat2Z.inj. rewrite Nat2Z.inj_mul. exact S. }
  (* the members *)
  assert (NM : NoDup (keys (members f))) by (eapply Permutation_NoDup; [symmetry; apply keys_perm, sort_perm|exact NI]).
  assert (IM : forall p, In p (members f) -> In p (h_items f)) by (intros p Hp; eapply Permutation_in; [apply sort_perm|exact Hp]).
  assert (RM : Forall2 (fun p q => fst p = q_name q /\ read_record (snd p) = Ok (q_r q)) (members f) Q).
  { unfold read_records in HRR. fold (members f) in HRR. rewrite <- Q2 in HRR. apply mapM_inv in HRR. apply forall2_of_map in HRR.
    eapply forall2_weak; [|exact HRR]. cbv beta. intros [nm it] q X. cbn [fst snd] in *. apply rbind_ok in X as (r & R1 & R2).
    apply ok_inj in R2. unfold q_rec in R2. injection R2 as -> ->. auto. }
  assert (MI : forall nm it q, In (nm, it) (h_items f) -> In q Q -> read_record it = Ok (q_r q) ->
    NoDup (keys (q_r q)) /\ exists lr lr2 ds als, item_of g t sa sd it q lr lr2 ds als).
  { intros nm it q Hm Hq RR. destruct (HOK _ _ (IQ q Hq)) as [K1 K2].
    destruct (loaded_like g t sa sd (map fst dims) it (q_r q) HT AT HA HD (tf_nd_single _ _ _ TF) (HG nm it Hm) RR K1 K2)
      as (NR & lr & L1 & L2 & ds & als & L3 & L4 & L5). split; [exact NR|].
    destruct (item_of_ok g t dims z HT TF sa sd AT Q Q4 it q ds als lr Hq L3 L1 L2 L4 L5) as (lr2 & X). exists lr, lr2, ds, als. exact X. }
  assert (HM : Forall2 (member_of g t sa sd) (members f) Q).
  { apply forall2_from_nth; [exact (forall2_length _ _ _ RM)|]. intros j [nm it] Hj.
    assert (X : exists q, nth_error Q j = Some q /\ nm = q_name q /\ read_record it = Ok (q_r q)) by exact (forall2_nth _ _ _ _ _ RM Hj).
    destruct X as (q & X1 & X2 & X3). exists q. split; [exact X1|]. apply nth_error_In in Hj. apply nth_error_In in X1.
    split; [exact X2|]. exact (proj2 (MI nm it q (IM _ Hj) X1 X3)). }
  assert (HGq : forall q, In q Q -> exists it lr lr2 ds als, dict_get (h_items f) (q_name q) = Some it /\ item_of g t sa sd it q lr lr2 ds als).
  { intros q Hq. destruct (forall2_in_r _ _ _ _ HM Hq) as ([nm it] & Hp & X1 & lr & lr2 & ds & als & X). cbn [fst snd] in *. subst nm.
    exists it, lr, lr2, ds, als. split; [|exact X]. apply dget; [exact NI|]. now apply IM. }
  assert (EN : map q_name Q = keys (members f)).
  { clear - RM. unfold keys. induction RM as [|p q l m [X _] RM IH]; cbn [map]; [reflexivity|]. now rewrite X, IH. }
  assert (ERN : record_names f = map q_name Q).
  { unfold record_names. rewrite hidden_only by exact HH. rewrite app_nil_r. now rewrite EN. }
  assert (EKR : keys rs = keys (members f)).
  { rewrite <- EN, <- Q2. unfold keys. rewrite map_map. reflexivity. }
  assert (PR : proper rs).
  { split; [rewrite EKR; exact NM|]. intros n r Hr. rewrite <- Q2 in Hr. apply in_map_iff in Hr as (q & Eq & Hq). unfold q_rec in Eq. injection Eq as <- <-.
    destruct (forall2_in_r _ _ _ _ RM Hq) as ([nm it] & Hp & _ & X2). exact (proj1 (MI nm it q (IM _ Hp) Hq X2)). }
  (* the version *)
  destruct HV as (n0 & r0 & hh & V1 & V2 & V3 & V4).
  assert (HSH : site_hash f = Ok hh).
  { assert (GX : exists q, In q Q /\ q_name q = n0 /\ q_r q = r0).
    { rewrite <- Q2 in V1. apply in_map_iff in V1 as (q & Eq & Hq). unfold q_rec in Eq. injection Eq as <- <-. eauto. }
    destruct GX as (q & Hq & <- & <-). destruct (forall2_in_r _ _ _ _ RM Hq) as ([nm it] & Hp & X1 & X2). cbn [fst snd] in *. subst nm.
    assert (FS : exists rest, sort_dict (h_items f) = (q_name q, it) :: rest).
    { apply (first_sorted (h_items f) (q_name q) it NI (IM _ Hp)). intros n' Hn'. apply V2. rewrite EKR.
      eapply Permutation_in; [apply keys_perm; symmetry; apply sort_perm|exact Hn']. }
    destruct FS as (rest & FS). unfold site_hash. rewrite FS.
    destruct (HG _ _ (IM _ Hp)) as (ds & als & -> & N1 & N2 & N3 & LA & LD). cbn [item_attrs].
    destruct (f_hash_site _ (format_facts g t HT)) as (ty & HS').
    destruct (LA _ _ HS') as (x & X3 & X4). apply (dget _ _ _ N2) in X3. rewrite X3.
    destruct (group_read ds als (q_r q) N1 N2 N3 X2) as (_ & RA & _).
    destruct (RA s_hash x X3) as (v' & RV & GV); [vm_compute; reflexivity|].
    assert (v' = BText hh) by (unfold s_hash in GV; congruence). subst v'.
    destruct X4 as [T1 T2]. pose proof (hash_text g t HT) as HTX. destruct (T1 HTX) as [(b & ->)|[-> _]].
    - cbn [read_attr] in RV. cbn [attr_decode]. destruct (utf8_dec b); [|discriminate]. apply ok_inj in RV. injection RV as ->. reflexivity.
    - exfalso. cbn [read_attr] in RV. apply ok_inj in RV. injection RV as <-. clear - V4 HSup. apply version_iff in V4. cbn in V4. subst v.
      apply supported_gen in HSup. discriminate. }
  split; [|exists dims, sa, sd, Q, h, hh, n0, r0; constructor; assumption].
  unfold restructure. rewrite restructured_name by exact HT. rewrite (proj2 (str_eqb_neq i o) HIO).
  change (str_eqb (str "array") (str "site") || str_eqb (str "array") (str "array")) with true. cbn [negb]. unfold h5_open. unfold holds in HF. rewrite HF. cbn [rbind].
  assert (IF : input_format f = Ok (str "site", g)).
  { unfold input_format. cbv zeta. assert (BS : borealis_structure (record_names f) = str "site").
    { unfold borealis_structure. replace (str_mem s_hash (record_names f)) with false; [reflexivity|]. symmetry.
      destruct (str_mem s_hash (record_names f)) eqn:EM; [|reflexivity]. exfalso. apply str_mem_In in EM. rewrite ERN, EN in EM. apply NH.
      eapply Permutation_in; [apply keys_perm, sort_perm|exact EM]. }
    rewrite BS. unfold file_version. change (str_eqb (str "site") (str "array")) with false. change (str_eqb (str "site") (str "site")) with true. cbv iota.
    rewrite HSH. cbn [rbind]. destruct (members f) as [|p l] eqn:EM.
    - exfalso. inversion HM. subst. now apply Q0.
    - cbn [rbind]. rewrite (proj2 (version_iff hh v) V4). now rewrite (proj1 (supported_gen v g) HSup). }
  rewrite IF. cbn [rbind]. cbv zeta. change (str_eqb (str "site") (str "array")) with false. cbv iota.
  rewrite (tf_restr _ _ _ TF). cbn [negb]. change (str_eqb (str "array") (str "site")) with false. cbv iota.
  reflexivity.
Qed.

(** Restructuring writes the arrays of the records. *)
Theorem site_file_arrays av fs i o f t g z cs rs c v :
  has_structures t -> i <> o -> holds fs i f -> site_layout (format_class g t) f -> read_records f = Ok rs ->
  (forall n r, In (n, r) rs -> BorealisSpec.site_record_ok (format_class g t) r /\ storable (format_class g t) r) ->
  consistent g t z cs rs -> common_arrays g t rs -> records_version rs v -> supported v g ->
  (t <> AntennasIq -> widest_first cs) ->
  (role_of g t (str "pulse_phase_offset") Varying -> forall n r, In (n, r) rs -> phases_of_pulses r) ->
  exists a h, (forall fs', array_write av fs o (DArrays a) (type_name t) c = (fs', Ok tt) ->
      restructure av fs i o (type_name t) (str "array") c = (fs', Ok tt)) /\
    site_to_array (format_class g t) rs = Ok a /\ arrays_of g t z cs rs a /\ proper rs /\
    arrays_ok (format_class g t) a /\ storable_arrays (format_class g t) a /\
    dict_get a (str "borealis_git_hash") = Some (BText h) /\ hash_version h v /\ site_hash f = Ok h.
Proof.
  intros HT HIO HF HL HRR HOK HC HCA HV HSup HW HPh.
  destruct (site_setup av fs i o f t g z cs rs c v HT HIO HF HL HRR HOK HC HV HSup HPh) as (ER & dims & sa & sd & Q & h & hh & n0 & r0 & ST).
  destruct ST as [TF AT EU Q1 Q2 Q3 Q4 Q0 HB HP HPH HM HGq ERN PR V1 V3 V4 HSH].
  (* the arrays *)
  destruct (restructure_main g t z cs rs HT HC) as (a & A1 & A2 & _).
  assert (CK : check_array_dict (format_class g t) a = Ok tt).
  { apply (arrays_pass g t z cs rs a HT HC PR HCA); [|exact A2]. apply (site_check_iff g t rs HT PR). intros n r Hr. exact (proj1 (HOK n r Hr)). }
  assert (AF : arrays_of_file g t f = Ok a).
  { unfold arrays_of_file. cbv zeta. rewrite EU. cbn [rbind].
    destruct (first_quad g t dims z Q Q4 Q0 HB h HP) as (q0 & Q' & EQ & Hq0).
    destruct (site_max_ok g t dims z HT TF sa sd AT Q Q4 Q0 HB h HP HPH f q0 Q' HM EQ) as (m & M1 & M2).
    { intros NT q Hq. specialize (HW NT). rewrite <- Q1, EQ in HW. cbn [map widest_first] in HW. apply HW. rewrite EQ in Hq.
      destruct Hq as [<-|Hq]; [now left|right]. apply in_map_iff. now exists q. }
    rewrite M1. cbn [rbind]. rewrite M2, ERN, map_length.
    destruct (build_same g t dims z HT TF sa sd AT Q Q4 Q0 HB h HP HPH f rs a Q3 A1 HGq) as (st & B1 & B2).
    rewrite B1. cbn [rbind]. rewrite B2, CK. reflexivity. }
  assert (AH : dict_get a (str "borealis_git_hash") = Some (BText hh)).
  { rewrite (ao_common _ _ _ _ _ _ A2 _ n0 r0); [exact V3| |exact V1].
    destruct (f_hash_array _ (format_facts g t HT)) as (ty & HX). destruct (spec_tables g t HT) as (_ & _ & S3 & _). apply S3 in HX. now exists One, ty. }
  assert (ST : storable_arrays (format_class g t) a).
  { apply (arrays_storable g t z cs rs a HT HC); auto. intros n r Hr. exact (proj2 (HOK n r Hr)). }
  assert (AO : arrays_ok (format_class g t) a) by (apply (arrays_ok_check g t a HT (ao_nodup _ _ _ _ _ _ A2)); exact CK).
  exists a, hh. splits; auto. intros fs' W1.
  unfold array_write in W1. rewrite type_name_of in W1. cbn [arrays_hash] in W1. unfold s_hash in W1. rewrite AH in W1. cbn [text_of rbind] in W1.
  rewrite (proj2 (version_iff hh v) V4) in W1. unfold generation_of in W1. rewrite (proj1 (supported_gen v g) HSup) in W1. cbn [rbind] in W1.
  rewrite CK in W1. cbn [rbind] in W1.
  rewrite ER. unfold site_to_array_file. rewrite AF. rewrite W1. reflexivity.
Qed.

Theorem site_file_to_array av fs i o f t g z cs rs c v :
  has_structures t -> i <> o -> holds fs i f -> site_layout (format_class g t) f -> read_records f = Ok rs ->
  (forall n r, In (n, r) rs -> BorealisSpec.site_record_ok (format_class g t) r /\ storable (format_class g t) r) ->
  consistent g t z cs rs -> common_arrays g t rs -> records_version rs v -> supported v g ->
  (t <> AntennasIq -> widest_first cs) ->
  (role_of g t (str "pulse_phase_offset") Varying -> forall n r, In (n, r) rs -> phases_of_pulses r) ->
  can_compress av c -> fs o = None ->
  exists fs' a ar, restructure av fs i o (type_name t) (str "array") c = (fs', Ok tt) /\ only_file o fs fs' /\
    site_to_array (format_class g t) rs = Ok a /\ arrays_of g t z cs rs a /\
    array_read fs' o (type_name t) = Ok ar /\ borealis_read fs' o (type_name t) None = Ok (ArrayReader ar) /\
    ar_version ar = v /\ ar_gen ar = g /\ ar_type ar = t /\ arrays_back a (ar_arrays ar).
Proof.
  intros HT HIO HF HL HRR HOK HC HCA HV HSup HW HPh HCc HO.
  destruct (site_file_arrays av fs i o f t g z cs rs c v HT HIO HF HL HRR HOK HC HCA HV HSup HW HPh) as (a & hh & W1 & A1 & A2 & _ & AO & ST & AH & V4 & _).
  destruct (array_file_round_trip av fs o t g a c hh v HT (ao_nodup _ _ _ _ _ _ A2) AO ST AH V4 HSup HCc HO)
    as (fs' & ar & W2 & W3 & W4 & W5 & W6 & W7 & W8 & _ & W9).
  exists fs', a, ar. splits; auto.
Qed.
