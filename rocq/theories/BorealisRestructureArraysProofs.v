(** Restructuring a site file: the arrays under construction. *)
From Coq Require Import String ZArith List Bool Lia Permutation Sorted.
From Verif Require Import Base Utf8 BytesProofs Utf8Proofs DmapFileProofs DmapWriteProofs DmapWriteFacts SDarnChecks SDarnFormats
  BorealisTypes BorealisFormats BorealisChecks BorealisArrays BorealisTime BorealisFile BorealisRestructure BorealisSpec
  BorealisFileSpec BorealisRestructureSpec BorealisShapes BorealisRestructureFileSpec BorealisCheckProofs BorealisCatalogue
  BorealisCatalogueProofs BorealisNumpyProofs BorealisFillProofs BorealisRestructFacts BorealisToArrayProofs
  BorealisRestructProofs BorealisFileProofs BorealisRestructureProofs BorealisRestructureFileProofs BorealisRestructureToArrayProofs.
Import ListNotations.
Open Scope list_scope.
Open Scope nat_scope.

Section ToArray.
Variables (g : generation) (t : filetype) (dims : dict (list adim)) (z : sizes).
Hypothesis HT : has_structures t.
Hypothesis TF : table_facts g t dims.
Let F := format_class g t.
Variables (sa sd : dict btype).
Let u := map fst dims.
Hypothesis AT : array_tables_facts g t sa sd u.
Variable Q : list quad.
Hypothesis HQ : Forall (fun q => record_fits g t z (q_c q) (q_r q) /\ reshaped g t z q) Q.
Hypothesis HQ0 : Q <> [].
Hypothesis HB : (forall c, In c (map q_c Q) -> c_blank c = 0) \/ (forall c, In c (map q_c Q) -> 1 <= c_blank c).
Variable f : counts -> list nat.
Hypothesis HP : In s_ppo_name (map fst dims) -> ppo_shapes (map q_c Q) f /\
  Forall (fun q => exists data, dict_get (q_r q) s_ppo_name = Some (BArr BF32 (f (q_c q)) data) /\
    length data = size (f (q_c q))) Q.
Let n := length Q.
Let rs2 := map q_rec2 Q.
Local Notation many_get' := (many_get g t dims z HT TF Q HQ f HP).
Local Notation one_get' := (one_get g t dims z HT TF Q HQ).
Local Notation lay_fits' := (lay_fits g t dims z HT TF Q HQ HQ0 HB f HP).
Local Notation lay' := (lay t z f).
Local Notation tp' := (tp g t z Q).
Local Notation mx' := (mx z Q).

(** What a group and a record have to do with each other. *)
Record item_of (i : hitem) (q : quad) (lr lr2 : brecord) (ds : dict hdset) (als : dict hattr) : Prop := mk_item_of {
  io_group : i = HGroup ds als;
  io_loaded : loaded_record F i = Ok lr;
  io_reshaped : reshape_site_arrays F [(str "tmp", lr)] = Ok [(str "tmp", lr2)];
  io_seen : seen F i lr (q_r q);
  io_seen2 : seen F i lr2 (q_r2 q);
  io_attr : forall k, In k (keys sa) -> exists x v, dict_get als k = Some x /\ dict_get (q_r q) k = Some v /\
       (no_text F k = true -> attr_value x = v) /\ read_attr x = Ok v;
  io_dset : forall k, In k (keys sd) -> exists d v, dict_get als k = None /\ dict_get ds k = Some d /\ dict_get (q_r q) k = Some v /\
       (no_text F k = true -> v = BArr (hd_type d) (hd_shape d) (hd_data d))
}.

Lemma flat_no_text k : flat g t k = true -> no_text F k = true.
Proof.
  unfold flat. intros H. apply andb_true_iff in H as [H _]. apply (tf_data _ _ _ TF) in H. apply many_in_ok in H as (_ & H1 & H2).
  fold F in H1, H2. unfold no_text, single_string, array_string. now rewrite H1, H2.
Qed.

Lemma item_of_ok i q ds als lr : In q Q -> i = HGroup ds als -> loaded_record F i = Ok lr -> seen F i lr (q_r q) ->
  (forall k, In k (keys sa) -> exists x v, dict_get als k = Some x /\ dict_get (q_r q) k = Some v /\
       (no_text F k = true -> attr_value x = v) /\ read_attr x = Ok v) ->
  (forall k, In k (keys sd) -> exists d v, dict_get als k = None /\ dict_get ds k = Some d /\ dict_get (q_r q) k = Some v /\
       (no_text F k = true -> v = BArr (hd_type d) (hd_shape d) (hd_data d))) ->
  exists lr2, item_of i q lr lr2 ds als.
Proof.
  intros Hq EI EL HS HA HD. pose proof (fits g t z Q HQ q Hq) as FQ. destruct (shaped g t z Q HQ q Hq) as [S1 S2].
  assert (G : exists lr2, reshape_site_arrays F [(str "tmp", lr)] = Ok [(str "tmp", lr2)] /\ seen F i lr2 (q_r2 q)).
  { unfold reshape_site_arrays. pose proof (tf_flat _ _ _ TF) as HFl. fold F in HFl. destruct (fm_flat F) as [[df fs]|].
    - destruct HFl as (-> & HN & HI).
      destruct (reshape_record_ok (length (data_layout t)) (map (dim_val z (q_c q)) (data_layout t)) fs HN lr) as (lr2 & R1 & R2 & R3).
      { intros k Hk. apply HI in Hk as Hf'. pose proof (flat_no_text k Hf') as NT. pose proof Hf' as Hfl.
        unfold flat in Hf'. apply andb_true_iff in Hf' as [Hd _].
        pose proof (tf_data _ _ _ TF _ Hd) as M. apply many_in_ok in M as (M1 & M2 & M3).
        pose proof (many_listed g t dims HT TF _ _ M1 M3) as ML.
        assert (NP : k <> str "pulse_phase_offset").
        { intros ->. apply data_field_names in Hd. unfold data_names in Hd. clear - Hd. cbn [In] in Hd.
          repeat destruct Hd as [Hd|Hd]; try contradiction; vm_compute in Hd; discriminate. }
        destruct (rf_many _ _ _ _ _ FQ _ _ ML NP) as (data & D1 & D2).
        exists BC64, (stored_shape g t z (q_c q) k), data. split; [exact (seen_plain _ _ _ _ _ _ HS NT D1)|].
        rewrite D2. unfold shape_of. now rewrite (flat_layout g t k Hfl). }
      exists lr2. cbn [mapM fst snd]. unfold dict_item. destruct (at_dims _ _ _ _ _ AT) as [_ ND].
      rewrite (seen_plain _ _ _ _ _ _ HS ND (rf_dims _ _ _ _ _ FQ)). cbn [rbind]. rewrite map_map in R1. rewrite R1. cbn [rbind].
      split; [reflexivity|]. intros k v G. destruct (flat g t k) eqn:EF.
      + pose proof (flat_no_text k EF) as NT. rewrite (S2 k EF) in G. rewrite R2 by now apply HI.
        destruct (dict_get (q_r q) k) as [v0|] eqn:E0; [|discriminate].
        rewrite (seen_plain _ _ _ _ _ _ HS NT E0). unfold shape_of in G. rewrite (flat_layout g t k EF) in G. rewrite G.
        exists v. split; [reflexivity|]. unfold like. apply andb_true_iff in NT as [N1 N2]. apply negb_true_iff in N1, N2. now rewrite N1, N2.
      + rewrite (S1 k EF) in G. rewrite R3 by (rewrite HI; congruence). exact (HS k v G).
    - exists lr. split; [reflexivity|]. intros k v G. apply HS. rewrite <- S1; [exact G|apply HFl]. }
  destruct G as (lr2 & G1 & G2). exists lr2. constructor; auto.
Qed.

(** ** The greatest dimensions *)

Hypothesis HPH : In s_ppo u -> forall q ty sp l, In q Q -> dict_get (q_r q) (str "pulses") = Some (BArr ty sp l) ->
  size (f (q_c q)) = 0 \/ size (f (q_c q)) = c_seq (q_c q) * size sp.

Definition sshape (k : pystr) (c : counts) : list nat := if str_eqb k s_ppo then f c else stored_shape g t z c k.

Lemma many_raw q k ty : In q Q -> In k u -> dict_get (fm_single F) k = None -> dict_get (fm_array F) k = Some ty ->
  exists data, dict_get (q_r q) k = Some (BArr ty (sshape k (q_c q)) data).
Proof.
  intros Hq Hk H1 H2. unfold sshape. destruct (str_eqb k s_ppo) eqn:E.
  - apply str_eqb_eq in E. subst k. destruct (HP Hk) as [_ G]. rewrite Forall_forall in G. destruct (G q Hq) as (data & D1 & _).
    destruct (dims_row _ _ Hk) as (ads & Hr).
    destruct (row_cases g t dims TF _ _ Hr) as [(ty' & c & A & _)|(_ & ty' & c & sds & A & _ & _ & _ & [(_ & _ & _ & ->)|(N & _)])].
    + fold F in A. congruence.
    + fold F in A. change s_ppo_name with s_ppo in A. assert (ty = BF32) by congruence. subst. eauto.
    + now destruct N.
  - assert (NP : k <> str "pulse_phase_offset") by (intros ->; unfold s_ppo in E; rewrite str_eqb_refl in E; discriminate).
    destruct (rf_many _ _ _ _ _ (fits g t z Q HQ q Hq) k ty (many_listed g t dims HT TF _ _ Hk H2) NP) as (data & D1 & _). eauto.
Qed.

Lemma many_type k : In k u -> dict_get (fm_single F) k = None -> exists ty, dict_get (fm_array F) k = Some ty /\ ty <> BStr.
Proof.
  intros Hk E. destruct (dims_row _ _ Hk) as (ads & Hr).
  destruct (row_cases g t dims TF _ _ Hr) as [(ty & c & A & _)|(_ & ty & c & sds & A & _ & _ & N & _)]; fold F in A; [congruence|eauto].
Qed.

Lemma raw_dset i q lr lr2 ds als k : item_of i q lr lr2 ds als -> In q Q -> In k u -> dict_get (fm_single F) k = None ->
  exists d, dict_get als k = None /\ dict_get ds k = Some d /\ hd_shape d = sshape k (q_c q).
Proof.
  intros HI Hq Hk E. destruct (many_type k Hk E) as (ty & A & _). destruct (many_raw q k ty Hq Hk E A) as (data & D).
  destruct (at_many _ _ _ _ _ AT k Hk E) as [K NT]. destruct (io_dset _ _ _ _ _ _ HI k K) as (d & v & X1 & X2 & X3 & X4).
  exists d. splits; auto. rewrite D in X3. injection X3 as <-. specialize (X4 NT). injection X4 as _ X5 _. now symmetry.
Qed.

Lemma dims_dset i q lr lr2 ds als : item_of i q lr lr2 ds als -> In q Q ->
  exists d, dict_get ds (dims_field g t) = Some d /\ hd_type d = BU32 /\ hd_shape d = [length (data_layout t)] /\
    hd_data d = map (fun x => CZ (Z.of_nat (dim_val z (q_c q) x))) (data_layout t).
Proof.
  intros HI Hq. destruct (at_dims _ _ _ _ _ AT) as [K NT]. destruct (io_dset _ _ _ _ _ _ HI _ K) as (d & v & X1 & X2 & X3 & X4).
  exists d. rewrite (rf_dims _ _ _ _ _ (fits g t z Q HQ q Hq)) in X3. injection X3 as <-. specialize (X4 NT).
  injection X4 as A B C. splits; auto.
Qed.

Lemma field_shape_ok i q lr lr2 ds als k : item_of i q lr lr2 ds als -> In q Q -> In k u -> dict_get (fm_single F) k = None ->
  field_shape ds k = Ok (Some (sshape k (q_c q))).
Proof.
  intros HI Hq Hk E. destruct (raw_dset i q lr lr2 ds als k HI Hq Hk E) as (d & _ & D2 & D3). unfold field_shape. rewrite D2.
  destruct (str_eqb k s_ppo) eqn:EP; [|now rewrite D3].
  apply str_eqb_eq in EP. subst k. destruct (at_ppo _ _ _ _ _ AT Hk) as (P1 & P2 & P3 & P4).
  destruct (dims_dset i q lr lr2 ds als HI Hq) as (dd & DD1 & DD2 & DD3 & DD4). rewrite P1 in DD1. rewrite DD1, DD2, DD3, DD4.
  assert (EA : array_int (BArr BU32 [length (data_layout t)] (map (fun x => CZ (Z.of_nat (dim_val z (q_c q) x))) (data_layout t))) 1 =
    Ok (Z.of_nat (c_seq (q_c q)))).
  { clear - P4 HT. destruct t; try reflexivity; [now destruct P4|now destruct HT]. }
  rewrite EA. cbn [rbind]. destruct (io_dset _ _ _ _ _ _ HI _ P2) as (dp & v & _ & V2 & V3 & V4). rewrite V2.
  specialize (V4 P3). subst v. rewrite D3. unfold sshape. rewrite str_eqb_refl.
  cbv zeta. destruct (HPH Hk q _ _ _ Hq V3) as [H0|H0].
  - rewrite H0. change (Z.of_nat 0) with 0%Z. rewrite Z.eqb_refl. cbn [negb]. now rewrite andb_false_r.
  - rewrite H0, Nat2Z.inj_mul, Z.eqb_refl. reflexivity.
Qed.

Definition dims_of (l : list pystr) (D : pystr -> list nat) : dict (list nat) := map (fun k => (k, D k)) l.

Lemma dims_of_ext l D D' : (forall k, In k l -> D k = D' k) -> dims_of l D = dims_of l D'.
Proof. intros H. apply map_ext_in. intros k Hk. now rewrite H. Qed.
Lemma dims_of_get l D k : In k l -> dict_get (dims_of l D) k = Some (D k).
Proof.
  induction l as [|x l IH]; intros Hk; [destruct Hk|]. cbn [dims_of map dict_get]. destruct (str_eqb x k) eqn:E.
  - apply str_eqb_eq in E. now subst.
  - destruct Hk as [->|Hk]; [now rewrite str_eqb_refl in E|exact (IH Hk)].
Qed.
Lemma dims_of_set l D k s : NoDup l -> In k l ->
  dict_set (dims_of l D) k s = dims_of l (fun k' => if str_eqb k k' then s else D k').
Proof.
  induction 1 as [|x l Hx HN IH]; intros Hk; [destruct Hk|]. cbn [dims_of map dict_set]. destruct (str_eqb x k) eqn:E.
  - apply str_eqb_eq in E. subst x. rewrite str_eqb_refl. f_equal. apply dims_of_ext. intros k' Hk'.
    destruct (str_eqb k k') eqn:E; [|reflexivity]. apply str_eqb_eq in E. subst. contradiction.
  - rewrite str_eqb_sym, E. f_equal. apply IH. destruct Hk as [->|Hk]; [rewrite str_eqb_refl in E; discriminate|exact Hk].
Qed.

Definition step_dims (first : bool) (c : counts) (D : pystr -> list nat) (k : pystr) : list nat :=
  match dict_get (fm_single F) k with
  | Some _ => D k
  | None => if first then sshape k c else max_map (D k) (sshape k c)
  end.

Lemma max_fields_ok i q lr lr2 ds als first : item_of i q lr lr2 ds als -> In q Q ->
  forall ks D s b, NoDup ks -> incl ks u ->
  exists D', max_fields i first ks (mk_max (dims_of u D) s b) =
    Ok (mk_max (dims_of u D')
          (if str_mem (str "num_sequences") ks then Z.max s (Z.of_nat (c_seq (q_c q))) else s)
          (if first && str_mem (str "beam_nums") ks then Nat.max (c_beam (q_c q)) b else b)) /\
    (forall k, In k u -> D' k = if str_mem k ks then step_dims first (q_c q) D k else D k).
Proof.
  intros HI Hq. pose proof (tf_nd_dims _ _ _ TF) as NU. fold u in NU.
  induction ks as [|k ks IH]; intros D s b HN Hin; cbn [max_fields].
  { exists D. cbn [str_mem]. rewrite andb_false_r. split; [reflexivity|auto]. }
  inversion HN as [|? ? N1 N2]; subst. assert (Hk : In k u) by (apply Hin; now left).
  assert (Hin' : incl ks u) by (intros x Hx; apply Hin; now right).
  assert (NM : str_mem k ks = false) by (destruct (str_mem k ks) eqn:E; [apply str_mem_In in E; contradiction|reflexivity]).
  cbn [str_mem].
  unfold max_field. rewrite (io_group _ _ _ _ _ _ HI). cbn [item_attrs].
  destruct (dict_get (fm_single F) k) as [ty|] eqn:ES.
  - destruct (at_one _ _ _ _ _ AT k ty Hk ES) as [Ka _]. destruct (io_attr _ _ _ _ _ _ HI k Ka) as (x & v & X1 & X2 & X3 & X4).
    rewrite X1.
    assert (NB : str_eqb k (str "beam_nums") = false).
    { destruct (str_eqb k (str "beam_nums")) eqn:E; [|reflexivity]. apply str_eqb_eq in E. subst k.
      destruct (many_in_ok _ _ _ _ _ (tf_beam _ _ _ TF)) as (_ & M & _). fold F in M. congruence. }
    assert (SD : forall D0 : pystr -> list nat, step_dims first (q_c q) D0 k = D0 k) by (intros; unfold step_dims; now rewrite ES).
    destruct (str_eqb k (str "num_sequences")) eqn:EN.
    + apply str_eqb_eq in EN. subst k. assert (EV : attr_value x = BScalar BI64 (CZ (Z.of_nat (c_seq (q_c q))))).
      { rewrite X3; [rewrite (rf_seq _ _ _ _ _ (fits g t z Q HQ q Hq)) in X2; congruence|].
        unfold no_text, single_string, F. rewrite (tf_seq_type _ _ _ TF). cbn [is_text_type negb andb].
        pose proof (at_attr _ _ _ _ _ AT _ Ka) as NA. unfold F in *. apply negb_true_iff. exact NA. }
      rewrite EV. cbn [scalar_int is_int_type rbind md_dims md_seqs md_beams].
      destruct (IH D (Z.max s (Z.of_nat (c_seq (q_c q)))) b N2 Hin') as (D' & E1 & E2).
      exists D'. rewrite (io_group _ _ _ _ _ _ HI) in E1. rewrite E1, NM, NB. cbn [orb].
      split; [reflexivity|]. intros k Hk'. rewrite E2 by exact Hk'. destruct (str_eqb (str "num_sequences") k) eqn:EK; [|reflexivity].
      apply str_eqb_eq in EK. subst k. rewrite NM, SD. reflexivity.
    + cbn [rbind]. destruct (IH D s b N2 Hin') as (D' & E1 & E2). exists D'. rewrite (io_group _ _ _ _ _ _ HI) in E1.
      rewrite E1, NB. cbn [orb].
      split; [reflexivity|]. intros k' Hk'. rewrite E2 by exact Hk'. destruct (str_eqb k k') eqn:EK; [|reflexivity].
      apply str_eqb_eq in EK. subst k'. rewrite NM, SD. reflexivity.
  - destruct (raw_dset i q lr lr2 ds als k HI Hq Hk ES) as (d & X1 & _ & _). rewrite X1.
    rewrite (field_shape_ok i q lr lr2 ds als k HI Hq Hk ES). cbn [rbind].
    assert (NQ : str_eqb k (str "num_sequences") = false).
    { destruct (str_eqb k (str "num_sequences")) eqn:E; [|reflexivity]. apply str_eqb_eq in E. subst k.
      pose proof (tf_seq_type _ _ _ TF) as M. fold F in M. congruence. }
    rewrite NQ. cbn [orb].
    assert (BS : str_eqb k (str "beam_nums") = true -> sshape k (q_c q) = [c_beam (q_c q)]).
    { intros E. apply str_eqb_eq in E. subst k. unfold sshape, stored_shape.
      replace (flat g t (str "beam_nums")) with false by (clear; destruct g, t; reflexivity). reflexivity. }
    set (nv := if first then sshape k (q_c q) else max_map (D k) (sshape k (q_c q))).
    set (Dk := fun k' => if str_eqb k k' then nv else D k').
    assert (FIN : forall D', (forall k0, In k0 u -> D' k0 = if str_mem k0 ks then step_dims first (q_c q) Dk k0 else Dk k0) ->
      forall k0, In k0 u -> D' k0 = if str_eqb k k0 || str_mem k0 ks then step_dims first (q_c q) D k0 else D k0).
    { intros D' H k0 Hk0. rewrite H by exact Hk0. unfold Dk, step_dims. destruct (str_eqb k k0) eqn:EK; cbn [orb]; [|reflexivity].
      apply str_eqb_eq in EK. subst k0. rewrite NM, ES. reflexivity. }
    destruct first.
    + cbn [andb]. cbn [md_dims md_seqs md_beams]. rewrite dims_of_set by assumption. fold nv. fold Dk.
      destruct (str_eqb k (str "beam_nums")) eqn:EB.
      * assert (NV : nv = [c_beam (q_c q)]) by exact (BS eq_refl). rewrite NV. cbn [rbind orb].
        destruct (IH Dk s (Nat.max (c_beam (q_c q)) b) N2 Hin') as (D' & E1 & E2). exists D'.
        rewrite (io_group _ _ _ _ _ _ HI) in E1. rewrite E1. apply str_eqb_eq in EB. rewrite <- EB, NM. cbn [andb].
        split; [reflexivity|]. now apply FIN.
      * cbn [rbind orb]. destruct (IH Dk s b N2 Hin') as (D' & E1 & E2). exists D'. rewrite (io_group _ _ _ _ _ _ HI) in E1. rewrite E1. cbn [andb].
        split; [reflexivity|]. now apply FIN.
    + cbn [andb md_dims md_seqs md_beams]. unfold dict_item. rewrite (dims_of_get u D k Hk). cbn [rbind]. rewrite dims_of_set by assumption. fold nv. fold Dk.
      destruct (IH Dk s b N2 Hin') as (D' & E1 & E2). exists D'. rewrite (io_group _ _ _ _ _ _ HI) in E1. rewrite E1. cbn [andb].
      split; [reflexivity|]. now apply FIN.
Qed.

Definition member_of (p : pystr * hitem) (q : quad) : Prop :=
  fst p = q_name q /\ exists lr lr2 ds als, item_of (snd p) q lr lr2 ds als.

Lemma max_rest l Ql : Forall2 member_of l Ql -> incl Ql Q -> forall D s b,
  exists D', max_records l false u (mk_max (dims_of u D) s b) =
    Ok (mk_max (dims_of u D') (fold_left (fun acc q => Z.max acc (Z.of_nat (c_seq (q_c q)))) Ql s) b) /\
    (forall k, In k u -> D' k = match dict_get (fm_single F) k with
                                | Some _ => D k
                                | None => fold_left (fun acc q => max_map acc (sshape k (q_c q))) Ql (D k)
                                end).
Proof.
  pose proof (tf_nd_dims _ _ _ TF) as NU. fold u in NU.
  induction 1 as [|[nm i] q l Ql [_ (lr & lr2 & ds & als & HI)] HL IH]; intros Hin D s b; cbn [max_records].
  - exists D. cbn [fold_left]. split; [reflexivity|]. intros k _. now destruct (dict_get (fm_single F) k).
  - assert (Hq : In q Q) by (apply Hin; now left). assert (Hin' : incl Ql Q) by (intros x Hx; apply Hin; now right).
    destruct (max_fields_ok i q lr lr2 ds als false HI Hq u D s b NU (incl_refl u)) as (D1 & E1 & E2).
    rewrite E1. cbn [rbind].
    assert (HS : str_mem (str "num_sequences") u = true) by (apply str_mem_In; exact (tf_seq _ _ _ TF)). rewrite HS. cbn [andb].
    destruct (IH Hin' D1 (Z.max s (Z.of_nat (c_seq (q_c q)))) b) as (D' & E3 & E4). exists D'. rewrite E3. cbn [fold_left].
    split; [reflexivity|]. intros k Hk. rewrite E4, E2 by exact Hk. assert (HM : str_mem k u = true) by now apply str_mem_In.
    rewrite HM. unfold step_dims. now destruct (dict_get (fm_single F) k).
Qed.

Lemma fold_seqs (l : list quad) : forall m, fold_left (fun acc q => Z.max acc (Z.of_nat (c_seq (q_c q)))) l (Z.of_nat m) =
  Z.of_nat (Nat.max m (list_max (map (fun q => c_seq (q_c q)) l))).
Proof.
  induction l as [|q l IH]; intros m; cbn [fold_left map].
  - cbn. now rewrite Nat.max_0_r.
  - rewrite <- Nat2Z.inj_max, IH. f_equal. cbn [list_max fold_right]. change (fold_right Nat.max 0) with list_max. lia.
Qed.

Lemma fold_max_map (L : list dim) (l : list quad) : forall a,
  fold_left (fun acc q => max_map acc (map (dim_val z (q_c q)) L)) l (map a L) =
  map (fun d => Nat.max (a d) (list_max (map (fun q => dim_val z (q_c q) d) l))) L.
Proof.
  induction l as [|q l IH]; intros a; cbn [fold_left map].
  - apply map_ext. intros d. cbn. now rewrite Nat.max_0_r.
  - assert (E : max_map (map a L) (map (dim_val z (q_c q)) L) = map (fun d => Nat.max (a d) (dim_val z (q_c q) d)) L).
    { clear. induction L as [|d L IH]; cbn [map max_map]; [reflexivity|now rewrite IH]. }
    rewrite E, IH. apply map_ext. intros d. cbn [list_max fold_right]. change (fold_right Nat.max 0) with list_max. lia.
Qed.

Lemma ppo_name_eq : s_ppo_name = s_ppo.
Proof. reflexivity. Qed.

Lemma base_top q0 Q' k : Q = q0 :: Q' -> In k u -> dict_get (fm_single F) k = None -> flat g t k = false ->
  fold_left (fun acc q => max_map acc (sshape k (q_c q))) Q' (sshape k (q_c q0)) = tp' k.
Proof.
  intros EQ Hk ES EF. unfold tp. fold F. rewrite ES. unfold top, sshape. rewrite ppo_name_eq. destruct (str_eqb k s_ppo) eqn:E.
  - apply str_eqb_eq in E. subst k.
    destruct (ppo_top_ok g t dims z HT TF Q HQ HQ0 HB f HP Hk) as [_ [(HS & ->)|[(p & HS & -> & _)|(p & HS & -> & _)]]].
    + rewrite HS. clear - HS. induction Q' as [|q l IH]; cbn [fold_left]; [reflexivity|]. rewrite HS. exact IH.
    + rewrite HS. clear - HS. induction Q' as [|q l IH]; cbn [fold_left]; [reflexivity|]. rewrite HS. cbn [max_map]. rewrite Nat.max_id. exact IH.
    + rewrite HS. unfold mx. rewrite EQ. cbn [map list_max fold_right dim_val]. change (fold_right Nat.max 0) with list_max.
      assert (G : forall l m, fold_left (fun acc q => max_map acc (f (q_c q))) l [m; p] =
        [Nat.max m (list_max (map (fun q => c_seq (q_c q)) l)); p]).
      { clear - HS. induction l as [|q l IH]; intros m; cbn [fold_left map].
        - cbn. now rewrite Nat.max_0_r.
        - rewrite HS. cbn [max_map]. rewrite Nat.max_id, IH. cbn [list_max fold_right]. change (fold_right Nat.max 0) with list_max. f_equal. lia. }
      apply G.
  - unfold stored_shape. rewrite EF. unfold shape_of. rewrite fold_max_map. apply map_ext. intros d. unfold mx. rewrite EQ. reflexivity.
Qed.

Lemma dims_of_update ks D s : NoDup u -> incl ks u ->
  dict_update (dims_of u D) (map (fun k => (k, s)) ks) = dims_of u (fun k => if str_mem k ks then s else D k).
Proof.
  intros NU. revert D. induction ks as [|k ks IH]; intros D Hin; unfold dict_update in *; cbn [map fold_left fst snd].
  - now apply dims_of_ext.
  - rewrite dims_of_set by (auto; apply Hin; now left). rewrite IH by (intros x Hx; apply Hin; now right).
    apply dims_of_ext. intros k' _. cbn [str_mem]. destruct (str_mem k' ks), (str_eqb k k'); reflexivity.
Qed.

Lemma first_dims_ok fi nm i rest q0 lr lr2 ds als : members fi = (nm, i) :: rest -> item_of i q0 lr lr2 ds als -> In q0 Q ->
  first_dims fi (dims_field g t) (length (data_layout t)) = Ok (map (dim_val z (q_c q0)) (data_layout t)).
Proof.
  intros EM HI Hq. unfold first_dims. rewrite EM. rewrite (io_group _ _ _ _ _ _ HI).
  destruct (dims_dset i q0 lr lr2 ds als HI Hq) as (d & D1 & D2 & D3 & D4). unfold dict_item. rewrite D1. cbn [rbind].
  rewrite D3, D2, D4, Nat.eqb_refl. cbn [is_int_type andb]. apply mapM_Forall2.
  apply forall2_map. intros x _. unfold reshape_dim. destruct (Z.ltb_spec (Z.of_nat (dim_val z (q_c q0) x)) 0); [lia|]. now rewrite Nat2Z.id.
Qed.

Lemma data_tp k : In k (match t with BRawacf => acf_fields | _ => [str "data"] end) -> tp' k = map mx' (data_layout t).
Proof.
  intros Hk. pose proof (at_data_in _ _ _ _ _ AT k Hk) as Hu. apply (at_data _ _ _ _ _ AT k Hu) in Hk.
  destruct (data_layout_of t k Hk) as [L1 L2]. apply (tf_data _ _ _ TF) in Hk. apply many_in_ok in Hk as (_ & M & _).
  unfold tp. rewrite M. unfold top. now rewrite L2, L1.
Qed.

(** The greatest dimensions as the code has them: of the data, the beams of the first
    record. *)
Definition data_names_of : list pystr := match t with BRawacf => acf_fields | _ => [str "data"] end.
Definition first_beams (q0 : quad) (d : dim) : nat := match d with DBeam => c_beam (q_c q0) | _ => mx' d end.
Definition tp_first (q0 : quad) (k : pystr) : list nat :=
  if str_mem k data_names_of then map (first_beams q0) (data_layout t) else tp' k.

Lemma site_max_any fi q0 Q' : Forall2 member_of (members fi) Q -> Q = q0 :: Q' ->
  exists m, site_max_dims g t fi u = Ok m /\ md_dims m = dims_of u (tp_first q0).
Proof.
  intros HM EQ. pose proof (tf_nd_dims _ _ _ TF) as NU. fold u in NU.
  assert (Hq0 : In q0 Q) by (rewrite EQ; now left).
  assert (HM' := HM). rewrite EQ in HM'. inversion HM' as [|[nm i] y rest Y HP0 HR EL EY]; subst y Y.
  destruct HP0 as [_ (lr & lr2 & ds & als & HI)]. cbn [snd] in HI.
  assert (EB : exists D, base_max_dims fi u = Ok (mk_max (dims_of u D) (Z.of_nat (mx' DSeq)) (c_beam (q_c q0))) /\
    forall k, In k u -> flat g t k = false -> D k = tp' k).
  { unfold base_max_dims. rewrite <- EL. cbn [max_records].
    change (map (fun k => (k, [])) u) with (dims_of u (fun _ => [])).
    destruct (max_fields_ok i q0 lr lr2 ds als true HI Hq0 u (fun _ => []) 0%Z 0 NU (incl_refl u)) as (D1 & E1 & E2).
    rewrite E1. cbn [rbind].
    assert (HS : str_mem (str "num_sequences") u = true) by (apply str_mem_In; exact (tf_seq _ _ _ TF)).
    assert (HBm : str_mem (str "beam_nums") u = true).
    { apply str_mem_In. exact (proj1 (many_in_ok _ _ _ _ _ (tf_beam _ _ _ TF))). }
    rewrite HS, HBm. cbn [andb].
    destruct (max_rest rest Q' HR) with (D := D1) (s := Z.max 0 (Z.of_nat (c_seq (q_c q0)))) (b := Nat.max (c_beam (q_c q0)) 0) as (D' & E3 & E4).
    { rewrite EQ. intros x Hx. now right. }
    rewrite E3. exists D'. rewrite Nat.max_0_r. rewrite Z.max_r by lia. rewrite fold_seqs. split.
    - do 2 f_equal. unfold mx. rewrite EQ. reflexivity.
    - intros k Hk EF. rewrite E4, E2 by exact Hk. replace (str_mem k u) with true by (symmetry; now apply str_mem_In).
      unfold step_dims. destruct (dict_get (fm_single F) k) eqn:ES.
      + unfold tp. fold F. now rewrite ES.
      + now apply base_top. }
  destruct EB as (D & EB & ED). unfold site_max_dims. rewrite EB. cbn [rbind md_seqs md_dims md_beams]. rewrite Nat2Z.id.
  pose proof (first_dims_ok fi nm i rest q0 lr lr2 ds als (eq_sym EL) HI Hq0) as FD.
  assert (MF : forall d, fixed_dim d = true -> dim_val z (q_c q0) d = mx' d).
  { intros d Hd. symmetry. exact (mx_fixed g t dims z Q HQ HQ0 HB f HP d (q_c q0) Hd). }
  assert (FIN : forall dd, dd = map (first_beams q0) (data_layout t) ->
    dims_of u (fun k => if str_mem k (match t with BRawacf => acf_fields | _ => [str "data"] end) then dd else D k) = dims_of u (tp_first q0)).
  { intros dd ->. apply dims_of_ext. intros k Hk. unfold tp_first, data_names_of. destruct (str_mem k _) eqn:ESM.
    - reflexivity.
    - apply ED; [exact Hk|]. unfold flat. destruct (data_field t k) eqn:EDF; [|reflexivity].
      apply (at_data _ _ _ _ _ AT k Hk) in EDF. apply str_mem_In in EDF. congruence. }
  assert (IN : incl (match t with BRawacf => acf_fields | _ => [str "data"] end) u) by (intros k; apply (at_data_in _ _ _ _ _ AT)).
  assert (ONE : forall s, dict_set (dims_of u D) (str "data") s = dict_update (dims_of u D) (map (fun k => (k, s)) [str "data"])) by reflexivity.
  assert (CT : t = AntennasIq \/ t = Bfiq \/ t = BRawacf).
  { unfold has_structures in HT. clear - HT. destruct t; auto. now destruct HT. }
  destruct CT as [CT|[CT|CT]]; rewrite CT in FD, FIN, IN |- *.
  - cbn [data_layout] in FD. change (dims_field g AntennasIq) with (str "data_dimensions") in FD. cbn [length] in FD. rewrite FD. cbn [rbind map nth].
    eexists. split; [reflexivity|]. cbn [md_dims]. rewrite ONE, (dims_of_update _ _ _ NU IN). apply FIN. cbn [data_layout map first_beams].
    rewrite !MF by reflexivity. reflexivity.
  - cbn [data_layout] in FD. change (dims_field g Bfiq) with (str "data_dimensions") in FD. cbn [length] in FD. rewrite FD. cbn [rbind map nth].
    eexists. split; [reflexivity|]. cbn [md_dims]. rewrite ONE, (dims_of_update _ _ _ NU IN). apply FIN. cbn [data_layout map first_beams].
    rewrite !MF by reflexivity. reflexivity.
  - replace (dims_field g BRawacf) with (match g with G7 => str "data_dimensions" | _ => str "correlation_dimensions" end) in FD by (clear; destruct g; reflexivity).
    cbn [data_layout] in FD. cbn [length] in FD. rewrite FD. cbn [rbind map nth].
    eexists. split; [reflexivity|]. cbn [md_dims]. rewrite (dims_of_update _ _ _ NU IN). apply FIN. cbn [data_layout map first_beams].
    rewrite !MF by reflexivity. reflexivity.
Qed.

Lemma site_max_ok fi q0 Q' : Forall2 member_of (members fi) Q -> Q = q0 :: Q' ->
  (t <> AntennasIq -> forall q, In q Q -> c_beam (q_c q) <= c_beam (q_c q0)) ->
  exists m, site_max_dims g t fi u = Ok m /\ md_dims m = dims_of u tp'.
Proof.
  intros HM EQ HW. destruct (site_max_any fi q0 Q' HM EQ) as (m & M1 & M2). exists m. split; [exact M1|]. rewrite M2.
  assert (Hq0 : In q0 Q) by (rewrite EQ; now left).
  assert (MB : t <> AntennasIq -> mx' DBeam = c_beam (q_c q0)).
  { intros H. apply Nat.le_antisymm.
    - unfold mx. apply list_max_le, Forall_forall. intros x Hx. apply in_map_iff in Hx as (q & <- & Hq). cbn [dim_val]. now apply HW.
    - apply (mx_le z Q q0 DBeam Hq0). }
  apply dims_of_ext. intros k Hk. unfold tp_first. destruct (str_mem k data_names_of) eqn:ESM; [|reflexivity].
  apply str_mem_In in ESM. rewrite (data_tp k ESM). apply map_ext_in. intros d Hd. unfold first_beams. destruct d; try reflexivity.
  symmetry. apply MB. intros C. rewrite C in Hd. cbn in Hd. repeat destruct Hd as [Hd|Hd]; try discriminate; contradiction.
Qed.

(** ** The arrays under construction *)

Lemma mapM_ext {A B} (h h' : A -> res B) l : (forall x, In x l -> h x = h' x) -> mapM h l = mapM h' l.
Proof.
  induction l as [|x l IH]; intros H; cbn [mapM]; [reflexivity|]. rewrite (H x) by now left. rewrite IH; [reflexivity|].
  intros y Hy. apply H. now right.
Qed.
Lemma mapM_of_map {A B C} (h : B -> res C) (v : A -> B) l : mapM h (map v l) = mapM (fun x => h (v x)) l.
Proof. induction l as [|x l IH]; cbn [map mapM]; [reflexivity|]. now rewrite IH. Qed.

Lemma forall2_right {A B} (R : A -> B -> Prop) (S : B -> Prop) l m : Forall2 R l m -> (forall x y, R x y -> S y) -> Forall S m.
Proof. induction 1; intros K; constructor; eauto. Qed.

Definition wf_temp (p : pystr * temp_array) : Prop :=
  In (fst p) u /\ exists ty data, field_type F (fst p) = Ok ty /\ snd p = mk_temp ty (tp' (fst p)) data.

Lemma init_ok k ads : In (k, ads) dims -> exists p, temp_init F rs2 (k, ads) = Ok p /\ file_temp_init F n (k, tp' k) = Ok p /\ wf_temp p.
Proof.
  intros Hr. assert (Hk : In k u) by (apply in_map_iff; now exists (k, ads)).
  assert (G : exists ty c, field_type F k = Ok ty /\ fill_cell ty = Ok c /\
    temp_init F rs2 (k, ads) = Ok (k, mk_temp ty (tp' k) (repeat c (n * size (tp' k))))).
  { destruct (row_cases g t dims TF _ _ Hr) as [(ty & c & A & -> & EF & N & _ & _)|(A & ty & c & sds & A2 & _ & EF & N & _)]; fold F in A.
    - exists ty, c. unfold temp_init, field_type. cbn [fst snd mapM rbind]. unfold tp. fold F. rewrite A. cbn [rbind]. rewrite EF.
      cbn [rbind concat]. unfold rs2. rewrite map_length. splits; auto.
    - fold F in A2. exists ty, c. destruct (top_dims g t dims z HT TF Q HQ HQ0 HB f HP k ads Hr A) as (dd & E1 & E2). unfold temp_init, field_type. cbn [fst snd].
      unfold rs2. rewrite E1. cbn [rbind]. unfold tp. fold F. rewrite A. unfold dict_item. rewrite A2. cbn [rbind]. rewrite EF. cbn [rbind].
      rewrite E2. rewrite map_length. splits; auto. }
  destruct G as (ty & c & G1 & G2 & G3). eexists. split; [exact G3|]. split.
  - unfold file_temp_init. cbn [fst snd]. rewrite G1. cbn [rbind]. rewrite G2. reflexivity.
  - split; cbn [fst snd]; [exact Hk|eauto].
Qed.

Lemma temps_init : exists mid, mapM (temp_init F rs2) dims = Ok mid /\ mapM (file_temp_init F n) (dims_of u tp') = Ok mid /\ Forall wf_temp mid.
Proof.
  destruct (choose_all (fun x p => temp_init F rs2 x = Ok p /\ file_temp_init F n (fst x, tp' (fst x)) = Ok p /\ wf_temp p) dims) as (mid & HM).
  { intros [k ads] Hr. exact (init_ok k ads Hr). }
  exists mid. split; [|split].
  - apply mapM_Forall2. eapply forall2_weak; [|exact HM]. cbv beta. tauto.
  - unfold dims_of, u. rewrite map_map, mapM_of_map. apply mapM_Forall2. eapply forall2_weak; [|exact HM]. cbv beta. tauto.
  - apply (forall2_right _ _ _ _ HM). cbv beta. tauto.
Qed.

Lemma fill_same i q q0 lr lr2 ds als rec p : item_of i q lr lr2 ds als -> In q Q -> In q0 Q -> wf_temp p ->
  file_temp_fill lr2 rec p = temp_fill (q_r2 q0) (q_r2 q) rec p /\
  forall p', temp_fill (q_r2 q0) (q_r2 q) rec p = Ok p' -> wf_temp p'.
Proof.
  intros HI Hq Hq0 HW. destruct p as [k a]. destruct HW as [Hk (ty & data & FT & EA)]. cbn [fst snd] in Hk, FT, EA. subst a. split.
  - unfold file_temp_fill, temp_fill. cbn [ta_type ta_dims ta_data]. unfold dict_item.
    destruct (dims_row _ _ Hk) as (ads & Hr).
    destruct (row_cases g t dims TF _ _ Hr) as [(ty' & c & A & _ & _ & N & _ & _)|(A & ty' & c & sds & A2 & _ & _ & N & _)]; fold F in A.
    + unfold field_type in FT. rewrite A in FT. apply ok_inj in FT as ->.
      destruct (one_get' q k ty Hq Hk A) as (v & V1 & V2 & _). destruct (one_get' q0 k ty Hq0 Hk A) as (v0 & W1 & W2 & _).
      rewrite V1, W1. cbn [rbind]. destruct (assigned_one ty v V2 N) as (cc & E1 & E2 & E3).
      destruct (assigned_one ty v0 W2 N) as (c0 & _ & E4 & _). unfold needs_shape. rewrite E1, E4. cbn [rbind fst snd].
      destruct (io_seen2 _ _ _ _ _ _ HI k v V1) as (vl & L1 & L2). rewrite L1. cbn [rbind].
      destruct (at_one _ _ _ _ _ AT k ty Hk A) as [Ka NS]. unfold like in L2.
      assert (NA : array_string F k = false) by exact (at_attr _ _ _ _ _ AT k Ka).
      destruct (single_string F k) eqn:ESS.
      * destruct L2 as (s & -> & HA & [->|(-> & _ & C)]); [|exfalso; now apply NS].
        destruct E3 as [[_ E3]|(s' & -> & _ & _)]; [discriminate|].
        cbn [assigned_attr]. unfold ascii_text in HA. rewrite HA. cbn [rbind is_ndarray fst snd].
        cbn [assigned] in E1. apply ok_inj in E1. injection E1 as <-. reflexivity.
      * rewrite NA in L2. subst vl. assert (NT : ty <> BStr).
        { intros ->. unfold single_string in ESS. rewrite A in ESS. discriminate. }
        replace (assigned_attr ty v) with (assigned ty v) by (clear - NT; destruct ty; try reflexivity; now destruct NT).
        rewrite E1, E2. reflexivity.
    + fold F in A2. unfold field_type in FT. rewrite A in FT. unfold dict_item in FT. rewrite A2 in FT. apply ok_inj in FT as ->.
      destruct (many_get' q k ty Hq Hk A A2) as (d & D1 & D2). destruct (many_get' q0 k ty Hq0 Hk A A2) as (d0 & W1 & W2).
      rewrite D1, W1. unfold needs_shape. cbn [rbind is_ndarray bshape]. rewrite assigned_arr. cbn [rbind fst snd].
      destruct (at_many _ _ _ _ _ AT k Hk A) as [_ NT]. rewrite (seen_plain _ _ _ _ _ _ (io_seen2 _ _ _ _ _ _ HI) NT D1). cbn [rbind].
      replace (assigned_attr ty (BArr ty (lay' k (q_c q)) d)) with (assigned ty (BArr ty (lay' k (q_c q)) d)) by (clear; destruct ty; reflexivity).
      rewrite assigned_arr. cbn [rbind is_ndarray fst snd].
      destruct (lay_fits' q k Hq Hk) as [LE RG].
      assert (ET : tp' k = top t z Q k) by (unfold tp; fold F; now rewrite A).
      rewrite ET. unfold assign. rewrite (region_le _ _ LE).
      change (filter (fun i0 => negb (i0 =? 0)) (lay' k (q_c q))) with (filter nonzero (lay' k (q_c q))). rewrite RG. reflexivity.
  - intros p' H. unfold temp_fill in H. inv_rbind H v0. inv_rbind H v. inv_rbind H u0. inv_rbind H sb. inv_rbind H dat. apply ok_inj in H as <-.
    split; cbn [fst snd ta_type ta_dims]; [exact Hk|eauto].
Qed.

Lemma fills_same i q q0 lr lr2 ds als rec l : item_of i q lr lr2 ds als -> In q Q -> In q0 Q -> Forall wf_temp l ->
  mapM (file_temp_fill lr2 rec) l = mapM (temp_fill (q_r2 q0) (q_r2 q) rec) l /\
  forall l', mapM (temp_fill (q_r2 q0) (q_r2 q) rec) l = Ok l' -> Forall wf_temp l'.
Proof.
  intros HI Hq Hq0 HW. rewrite Forall_forall in HW. split.
  - apply mapM_ext. intros p Hp. exact (proj1 (fill_same i q q0 lr lr2 ds als rec p HI Hq Hq0 (HW p Hp))).
  - intros l' H. apply mapM_inv in H. revert HW. induction H as [|p p' l l' E H IH]; intros HW; constructor.
    + apply (proj2 (fill_same i q q0 lr lr2 ds als rec p HI Hq Hq0 (HW p (or_introl eq_refl)))). exact E.
    + apply IH. intros x Hx. apply HW. now right.
Qed.

(** ** The counts *)

Definition len_of (kf : pystr) (c : counts) : nat := if str_eqb kf (str "beam_nums") then c_beam c else c_blank c.
Definition count_cell (kf : pystr) (q : quad) : cell := CZ (Z.of_nat (len_of kf (q_c q)) mod 2 ^ 32).
Definition spec_at (P : list quad) (p : pystr * agen) : pystr * spec_field :=
  (fst p, match snd p with
          | GCounts kf => SCount kf BU32 (map (count_cell kf) P ++ repeat (CZ 0) (n - length P))
          | GNames ty l => SConst (BArr ty [length l] (map CS l))
          end).

Lemma counted q k kf : In q Q -> In (k, GCounts kf) (fm_array_gen F) ->
  exists ty data, dict_get (q_r2 q) kf = Some (BArr ty [len_of kf (q_c q)] data) /\ dict_get (q_r q) kf = Some (BArr ty [len_of kf (q_c q)] data).
Proof.
  intros Hq H. pose proof (tf_agen _ _ _ TF _ H) as HA. cbn [array_gen_fact] in HA. apply orb_true_iff in HA.
  destruct (shaped g t z Q HQ q Hq) as [S1 _].
  destruct HA as [HA|HA]; rewrite !andb_true_iff in HA.
  - destruct HA as [_ HA]. apply str_eqb_eq in HA. subst kf.
    destruct (beams_get g t dims z HT TF Q HQ f HP q Hq) as (d & D). exists BU32, d.
    split; [exact D|]. rewrite <- S1; [exact D|]. clear. destruct g, t; reflexivity.
  - destruct HA as [[_ HA] Hg]. apply str_eqb_eq in HA. subst kf.
    assert (NG : g <> G4) by (intros E; rewrite E in Hg; discriminate).
    destruct (blanks_get g t dims z HT TF Q HQ f HP q NG Hq) as (d & D). exists BU32, d.
    split; [exact D|]. rewrite <- S1; [exact D|]. clear. destruct g, t; reflexivity.
Qed.

Lemma spec_init_ok data p : In p (fm_array_gen F) -> spec_init F n data p = Ok (spec_at [] p).
Proof.
  intros H. destruct p as [k [kf|ty l]]; unfold spec_init, spec_at; cbn [fst snd].
  - destruct (at_gen _ _ _ _ _ AT k kf H) as (A & _). unfold dict_item. fold F in A. rewrite A. cbn [rbind fill_cell map app length].
    now rewrite Nat.sub_0_r.
  - reflexivity.
Qed.

Lemma spec_fill_ok i q lr lr2 ds als P p : item_of i q lr lr2 ds als -> In q Q -> In p (fm_array_gen F) -> length P < n ->
  spec_fill lr (length P) (spec_at P p) = Ok (spec_at (P ++ [q]) p).
Proof.
  intros HI Hq H HL. destruct p as [k [kf|ty l]]; unfold spec_fill, spec_at; cbn [fst snd]; [|reflexivity].
  destruct (at_gen _ _ _ _ _ AT k kf H) as (_ & NT & _). destruct (counted q k kf Hq H) as (ty & data & _ & D).
  unfold dict_item. rewrite (seen_plain _ _ _ _ _ _ (io_seen _ _ _ _ _ _ HI) NT D). cbn [rbind blen].
  unfold put. rewrite app_length, map_length, repeat_length.
  replace (Nat.ltb (length P) (length P + (n - length P))) with true by (symmetry; apply Nat.ltb_lt; lia). cbn [rbind].
  do 3 f_equal. rewrite firstn_app, map_length, Nat.sub_diag. cbn [firstn]. rewrite app_nil_r.
  rewrite firstn_all2 by (rewrite map_length; lia). rewrite map_app, <- app_assoc. f_equal. cbn [map app].
  unfold count_cell at 1. f_equal.
  rewrite skipn_app, map_length. rewrite skipn_all2 by (rewrite map_length; lia). cbn [app].
  replace (S (length P) - length P) with 1 by lia. rewrite app_length. cbn [length].
  replace (n - length P) with (S (n - (length P + 1))) by lia. reflexivity.
Qed.

Definition spec_val (p : pystr * spec_field) : pystr * bval :=
  (fst p, match snd p with SConst v => v | SCount _ ty data => BArr ty [n] data end).

Lemma spec_done : mapM (fun p => rlet v := agen_eval rs2 (snd p) in Ok (fst p, v)) (fm_array_gen F) =
  Ok (map (fun p => spec_val (spec_at Q p)) (fm_array_gen F)).
Proof.
  apply mapM_map. intros [k [kf|ty l]] H; unfold spec_val, spec_at; cbn [fst snd agen_eval]; [|reflexivity].
  unfold rs2. rewrite mapM_of_map. rewrite (mapM_map _ (fun q => len_of kf (q_c q))).
  - cbn [rbind]. rewrite map_length, map_map. fold n. rewrite Nat.sub_diag. cbn [repeat]. rewrite app_nil_r. reflexivity.
  - intros q Hq. cbn [q_rec2 snd]. destruct (counted q k kf Hq H) as (ty & data & D & _). unfold dict_item. rewrite D. reflexivity.
Qed.

(** ** The shared fields *)

Lemma shared_same i q lr lr2 ds als k : item_of i q lr lr2 ds als -> In q Q -> In k (fm_shared F) ->
  first_shared F i lr2 k = dict_item (q_r2 q) k.
Proof.
  intros HI Hq Hk. destruct (shared_get g t dims z HT TF Q HQ q k Hq Hk) as (v & V).
  destruct (io_seen2 _ _ _ _ _ _ HI k v V) as (vl & L1 & L2). unfold first_shared, dict_item. rewrite V, L1. cbn [rbind].
  unfold like in L2. destruct (single_string F k).
  - destruct L2 as (s & -> & HA & [->|(-> & -> & _)]); [|reflexivity].
    replace (utf8_dec s) with (Some s); [reflexivity|]. symmetry. apply utf8_dec_enc, utf8_enc_ascii. unfold ascii.
    unfold ascii_text in HA. rewrite forallb_forall in HA. apply Forall_forall. intros c Hc. apply HA in Hc.
    rewrite andb_true_iff, Z.leb_le, Z.ltb_lt in Hc. exact Hc.
  - destruct (array_string F k); [|now rewrite L2].
    destruct L2 as (ds' & als' & d & -> & D1 & D2). unfold dict_item. rewrite D1. cbn [rbind]. exact D2.
Qed.

(** ** The loop *)

Lemma build_step (dd : dict (list nat)) i q q0 lr lr2 ds als P sh temps temps' : item_of i q lr lr2 ds als -> In q Q -> In q0 Q ->
  length P < n -> Forall wf_temp temps -> mapM (temp_fill (q_r2 q0) (q_r2 q) (length P)) temps = Ok temps' ->
  build_record F n dd i (length P) (Some (mk_building sh (map (spec_at P) (fm_array_gen F)) temps)) =
    Ok (mk_building sh (map (spec_at (P ++ [q])) (fm_array_gen F)) temps') /\ Forall wf_temp temps'.
Proof.
  intros HI Hq Hq0 HL HW HF. destruct (fills_same i q q0 lr lr2 ds als (length P) temps HI Hq Hq0 HW) as [E1 E2].
  split; [|now apply E2]. unfold build_record. rewrite (io_loaded _ _ _ _ _ _ HI). cbn [rbind].
  rewrite (io_reshaped _ _ _ _ _ _ HI). cbn [rbind bu_shared bu_spec bu_temps fst snd].
  rewrite mapM_of_map. rewrite (mapM_map _ (spec_at (P ++ [q]))).
  - cbn [rbind]. rewrite E1, HF. reflexivity.
  - intros p Hp. exact (spec_fill_ok i q lr lr2 ds als P p HI Hq Hp HL).
Qed.

Lemma build_rest (dd : dict (list nat)) fi q0 sh : In q0 Q ->
  (forall q, In q Q -> exists i lr lr2 ds als, dict_get (h_items fi) (q_name q) = Some i /\ item_of i q lr lr2 ds als) ->
  forall Ql P temps out, Q = P ++ Ql -> Forall wf_temp temps ->
  fill_loop (q_r2 q0) (map q_rec2 Ql) (length P) temps = Ok out ->
  build_loop F n dd fi (map q_name Ql) (length P) (Some (mk_building sh (map (spec_at P) (fm_array_gen F)) temps)) =
    Ok (Some (mk_building sh (map (spec_at Q) (fm_array_gen F)) out)).
Proof.
  intros Hq0 HG. induction Ql as [|q Ql IH]; intros P temps out EQ HW HF; cbn [map fill_loop build_loop] in *.
  - rewrite app_nil_r in EQ. rewrite <- EQ in *. apply ok_inj in HF as <-. reflexivity.
  - unfold q_rec2 at 1 in HF. inv_rbind HF temps'.
    assert (Hq : In q Q) by (rewrite EQ; apply in_app_iff; right; now left).
    assert (HL : length P < n) by (unfold n; rewrite EQ, app_length; cbn [length]; lia).
    destruct (HG q Hq) as (i & lr & lr2 & ds & als & GI & HI). unfold dict_item. rewrite GI. cbn [rbind].
    destruct (build_step dd i q q0 lr lr2 ds als P sh temps temps' HI Hq Hq0 HL HW) as [E1 E2].
    { assumption. }
    rewrite E1. cbn [rbind].
    assert (EL : length P + 1 = length (P ++ [q])) by (rewrite app_length; reflexivity). rewrite EL in *.
    apply IH; auto. now rewrite <- app_assoc.
Qed.

Theorem build_same fi records a : reshape_site_arrays F records = Ok rs2 -> site_to_array F records = Ok a ->
  (forall q, In q Q -> exists i lr lr2 ds als, dict_get (h_items fi) (q_name q) = Some i /\ item_of i q lr lr2 ds als) ->
  exists st, build_loop F n (dims_of u tp') fi (map q_name Q) 0 None = Ok (Some st) /\ built n st = a.
Proof.
  intros HR HA HG. destruct (first_quad g t dims z Q HQ HQ0 HB f HP) as (q0 & Q' & EQ & Hq0).
  assert (ER : rs2 = (q_name q0, q_r2 q0) :: map q_rec2 Q') by (unfold rs2; rewrite EQ; reflexivity).
  rewrite (site_to_array_eq F records rs2 _ _ _ (tf_restr _ _ _ TF) HR ER) in HA.
  inv_rbind HA sh. inv_rbind HA sp. assert (ED : fm_dims_array F = Ok dims) by exact (tf_dims _ _ _ TF).
  rewrite ED in HA. cbn [rbind] in HA. inv_rbind HA mid. inv_rbind HA out. apply ok_inj in HA as <-.
  destruct temps_init as (mid' & T1 & T2 & T3). assert (mid' = mid) by congruence. subst mid'.
  pose proof spec_done as SD.
  exists (mk_building sh (map (spec_at Q) (fm_array_gen F)) out). split.
  - assert (SH : mapM (fun f0 => rlet v := dict_item (q_r2 q0) f0 in Ok (f0, v)) (fm_shared F) = Ok sh) by assumption.
    assert (FL : fill_loop (q_r2 q0) (map q_rec2 Q) (length (@nil quad)) mid = Ok out) by assumption.
    pose proof (build_rest (dims_of u tp') fi q0 sh Hq0 HG Q [] mid out eq_refl T3 FL) as B. rewrite <- B. rewrite EQ. cbn [map build_loop length].
    destruct (HG q0 Hq0) as (i & lr & lr2 & ds & als & GI & HI). unfold dict_item. rewrite GI. cbn [rbind].
    assert (ES : build_record F n (dims_of u tp') i 0 None =
      build_record F n (dims_of u tp') i 0 (Some (mk_building sh (map (spec_at []) (fm_array_gen F)) mid))).
    { unfold build_record. rewrite (io_loaded _ _ _ _ _ _ HI). cbn [rbind].
      rewrite (io_reshaped _ _ _ _ _ _ HI). cbn [rbind bu_shared bu_spec bu_temps fst snd].
      rewrite (mapM_ext (fun k => rlet v := first_shared F i lr2 k in Ok (k, v)) (fun f0 => rlet v := dict_item (q_r2 q0) f0 in Ok (f0, v)) (fm_shared F)).
      - rewrite SH. cbn [rbind]. rewrite (mapM_map (spec_init F n lr2) (spec_at []) (fm_array_gen F)) by (intros p Hp; now apply spec_init_ok).
        cbn [rbind fst snd]. rewrite T2. reflexivity.
      - intros k Hk. rewrite (shared_same i q0 lr lr2 ds als k HI Hq0 Hk). reflexivity. }
    rewrite <- EQ. rewrite ES. reflexivity.
  - unfold built. cbn [bu_shared bu_spec bu_temps]. rewrite map_map.
    assert (sp = map (fun p => spec_val (spec_at Q p)) (fm_array_gen F)) as -> by congruence.
    unfold rs2. rewrite map_length. reflexivity.
Qed.
End ToArray.
