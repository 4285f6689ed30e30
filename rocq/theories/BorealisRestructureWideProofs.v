(** Restructuring a site file in which a later record has more beams than the first. *)
From Coq Require Import String ZArith List Bool Lia Permutation Sorted.
From Verif Require Import Base Utf8 BytesProofs Utf8Proofs DmapFileProofs DmapWriteProofs DmapWriteFacts SDarnChecks SDarnFormats
  BorealisTypes BorealisFormats BorealisChecks BorealisArrays BorealisTime BorealisFile BorealisRestructure BorealisSpec
  BorealisFileSpec BorealisRestructureSpec BorealisShapes BorealisRestructureFileSpec BorealisCheckProofs BorealisCatalogue
  BorealisCatalogueProofs BorealisNumpyProofs BorealisFillProofs BorealisRestructFacts BorealisToArrayProofs
  BorealisRestructProofs BorealisFileProofs BorealisRestructureProofs BorealisRestructureFileProofs BorealisRestructureToArrayProofs
  BorealisRestructureArraysProofs BorealisRestructureArrayFileProofs.
Import ListNotations.
Open Scope list_scope.
Open Scope nat_scope.

(** ** Assignments *)

Definition value_error {A} (r : res A) : Prop := (exists x, r = Ok x) \/ r = Raise ValueError.

Lemma spread_error {A} bs : forall ts (b : list A), value_error (spread bs ts b).
Proof.
  induction bs as [|x bs IH]; intros [|y ts] b; cbn [spread]; try (right; reflexivity); [left; eauto|].
  destruct (Nat.eqb x y).
  - generalize (rows x (size bs) b). intros l. induction l as [|r l IHl]; [left; eauto|].
    destruct (IH ts r) as [(h & ->)| ->]; [|now right]. cbn [rbind].
    destruct IHl as [(h' & ->)| ->]; [|now right]. left. cbn [rbind]. eauto.
  - destruct (Nat.eqb x 1); [|now right]. destruct (IH ts b) as [(h & ->)| ->]; [left; cbn [rbind]; eauto|now right].
Qed.

Lemma broadcast_error {A} bs ts (b : list A) : value_error (broadcast bs ts b).
Proof.
  unfold broadcast. destruct (Nat.leb _ _); [apply spread_error|]. destruct (forallb _ _); [apply spread_error|now right].
Qed.

Lemma region_some ds : forall ss, length ss <= length ds -> exists rg, region ds ss = Ok rg.
Proof.
  induction ds as [|d ds IH]; intros [|s ss] H; cbn [region length] in *; eauto; [lia|].
  destruct (IH ss) as (rg & ->); [lia|]. cbn [rbind]. eauto.
Qed.

Lemma assign_error ds data rec ss bs b : length ss <= length ds -> value_error (assign ds data rec ss bs b).
Proof.
  intros H. unfold assign. destruct (region_some ds ss H) as (rg & ->). cbn [rbind].
  destruct (broadcast_error bs rg b) as [(b' & ->)| ->]; [left; cbn [rbind]; eauto|now right].
Qed.

(** A size other than 1 does not go into another. *)
Lemma spread_fails {A} pre : forall x y xs ys (b : list A), x <> y -> x <> 1 -> Forall (fun k => 1 <= k) pre ->
  spread (pre ++ x :: xs) (pre ++ y :: ys) b = Raise ValueError.
Proof.
  induction pre as [|k pre IH]; intros x y xs ys b N1 N2 HP; cbn [app spread].
  - now rewrite (proj2 (Nat.eqb_neq x y) N1), (proj2 (Nat.eqb_neq x 1) N2).
  - inversion HP as [|? ? K1 K2]; subst. rewrite Nat.eqb_refl. destruct k as [|k]; [lia|]. cbn [rows]. now rewrite IH.
Qed.

Lemma broadcast_fails {A} pre x y xs ys (b : list A) : x <> y -> x <> 1 -> length xs = length ys -> Forall (fun k => 1 <= k) pre ->
  broadcast (pre ++ x :: xs) (pre ++ y :: ys) b = Raise ValueError.
Proof.
  intros N1 N2 HL HP. unfold broadcast. rewrite !app_length. cbn [length]. rewrite HL, Nat.leb_refl, Nat.sub_diag. cbn [repeat app].
  now apply spread_fails.
Qed.

Lemma mapM_error {A B} (h : A -> res B) (R : B -> Prop) l :
  (forall x, In x l -> (exists y, h x = Ok y /\ R y) \/ h x = Raise ValueError) ->
  (exists m, mapM h l = Ok m /\ Forall R m) \/ mapM h l = Raise ValueError.
Proof.
  induction l as [|x l IH]; intros H; cbn [mapM]; [left; eauto|].
  destruct (H x (or_introl eq_refl)) as [(y & -> & Y)| ->]; [|now right]. cbn [rbind].
  destruct IH as [(m & -> & M)| ->]; [intros; apply H; now right| |now right]. left. cbn [rbind]. eauto.
Qed.

Lemma mapM_fails {A B} (h : A -> res B) x l :
  (forall x, In x l -> value_error (h x)) -> In x l -> h x = Raise ValueError -> mapM h l = Raise ValueError.
Proof.
  induction l as [|y l IH]; intros H HI E; [destruct HI|]. cbn [mapM].
  destruct (H y (or_introl eq_refl)) as [(w & W)| ->]; [|reflexivity]. rewrite W. cbn [rbind].
  destruct HI as [->|HI]; [congruence|]. rewrite IH; auto. intros; apply H; now right.
Qed.

Lemma forall2_keys {A B} (l : list (pystr * A)) (m : list (pystr * B)) : Forall2 (fun x p => fst p = fst x) l m -> map fst m = map fst l.
Proof. induction 1 as [|x p l m E HM IH]; cbn [map]; [reflexivity|]. now rewrite E, IH. Qed.

Section Wide.
Variables (g : generation) (t : filetype) (dims : dict (list adim)) (z : sizes).
Hypothesis HT : has_structures t.
Hypothesis TF : table_facts g t dims.
Let F := format_class g t.
Variables (sa sd : dict btype).
Let u := map fst dims.
Hypothesis AT : array_tables_facts g t sa sd u.
Variable Q : list quad.
Hypothesis HQ : Forall (fun q => record_fits g t z (q_c q) (q_r q) /\ reshaped g t z q) Q.
Hypothesis HQ0 : Q <> [].
Hypothesis HB : (forall c, In c (map q_c Q) -> c_blank c = 0) \/ (forall c, In c (map q_c Q) -> 1 <= c_blank c).
Variable f : counts -> list nat.
Hypothesis HP : In s_ppo_name (map fst dims) -> ppo_shapes (map q_c Q) f /\
  Forall (fun q => exists data, dict_get (q_r q) s_ppo_name = Some (BArr BF32 (f (q_c q)) data) /\
    length data = size (f (q_c q))) Q.
Hypothesis HPH : In s_ppo u -> forall q ty sp l, In q Q -> dict_get (q_r q) (str "pulses") = Some (BArr ty sp l) ->
  size (f (q_c q)) = 0 \/ size (f (q_c q)) = c_seq (q_c q) * size sp.
Hypothesis NT : t <> AntennasIq.
Variables (q0 : quad) (Q' : list quad).
Hypothesis EQ : Q = q0 :: Q'.
Let n := length Q.
Let rs2 := map q_rec2 Q.
Local Notation many_get' := (many_get g t dims z HT TF Q HQ f HP).
Local Notation one_get' := (one_get g t dims z HT TF Q HQ).
Local Notation lay_fits' := (lay_fits g t dims z HT TF Q HQ HQ0 HB f HP).
Local Notation lay' := (lay t z f).
Local Notation tp' := (tp g t z Q).
Local Notation tpw := (tp_first g t z Q q0).
Local Notation item_of' := (item_of g t sa sd).
Local Notation spec_at' := (spec_at Q).

Lemma tpw_length k : length (tpw k) = length (tp' k).
Proof.
  unfold tp_first. destruct (str_mem k (data_names_of t)) eqn:E; [|reflexivity].
  apply str_mem_In in E. rewrite (data_tp g t dims z TF sa sd AT Q k E). now rewrite !map_length.
Qed.

Definition wfw (p : pystr * temp_array) : Prop :=
  In (fst p) u /\ exists ty data, field_type F (fst p) = Ok ty /\ snd p = mk_temp ty (tpw (fst p)) data.

Lemma data_lay q k : In k (data_names_of t) -> lay' k (q_c q) = map (dim_val z (q_c q)) (data_layout t).
Proof.
  intros Hk. pose proof (at_data_in _ _ _ _ _ AT k Hk) as Hu. apply (at_data _ _ _ _ _ AT k Hu) in Hk.
  destruct (data_layout_of t k Hk) as [L1 L2]. unfold lay. rewrite L2. unfold shape_of. now rewrite L1.
Qed.

Lemma wide_fails q data rec b : In q Q -> c_beam (q_c q0) < c_beam (q_c q) ->
  assign (map (first_beams z Q q0) (data_layout t)) data rec (map (dim_val z (q_c q)) (data_layout t)) (map (dim_val z (q_c q)) (data_layout t)) b = Raise ValueError.
Proof.
  intros Hq HL. unfold assign.
  assert (RG : region (map (first_beams z Q q0) (data_layout t)) (map (dim_val z (q_c q)) (data_layout t)) =
    Ok (map (fun d => Nat.min (dim_val z (q_c q) d) (first_beams z Q q0 d)) (data_layout t))).
  { generalize (data_layout t). intros L. induction L as [|d L IH]; cbn [map region]; [reflexivity|]. now rewrite IH. }
  rewrite RG. cbn [rbind].
  assert (MN : forall d, d <> DBeam -> Nat.min (dim_val z (q_c q) d) (first_beams z Q q0 d) = dim_val z (q_c q) d).
  { intros d Hd. apply Nat.min_l. replace (first_beams z Q q0 d) with (mx z Q d) by (destruct d; congruence || reflexivity).
    exact (mx_le z Q q d Hq). }
  assert (MB : Nat.min (dim_val z (q_c q) DBeam) (first_beams z Q q0 DBeam) = c_beam (q_c q0)) by (cbn; lia).
  assert (Hq0 : In q0 Q) by (rewrite EQ; now left).
  pose proof (rf_pos _ _ _ _ _ (fits g t z Q HQ q Hq)) as PS.
  assert (P0 : 1 <= c_beam (q_c q0)) by (apply (rf_pos _ _ _ _ _ (fits g t z Q HQ q0 Hq0) DBeam); discriminate).
  assert (NE : dim_val z (q_c q) DBeam <> c_beam (q_c q0)) by (cbn; lia).
  assert (N1 : dim_val z (q_c q) DBeam <> 1) by (cbn; lia).
  assert (CT : data_layout t = [DArr; DSeq; DBeam; DSamp] \/ data_layout t = [DBeam; DRange; DLag]).
  { clear - HT NT. unfold has_structures in HT. destruct t; auto. now destruct NT. }
  destruct CT as [-> | ->]; cbn [map]; rewrite MB, !MN by discriminate.
  - apply (f_equal (fun r => rbind r _)
      (broadcast_fails [dim_val z (q_c q) DArr; dim_val z (q_c q) DSeq] _ _ [dim_val z (q_c q) DSamp] [dim_val z (q_c q) DSamp] b NE N1 eq_refl
        ltac:(repeat constructor; apply PS; discriminate))).
  - apply (f_equal (fun r => rbind r _)
      (broadcast_fails [] _ _ [dim_val z (q_c q) DRange; dim_val z (q_c q) DLag] [dim_val z (q_c q) DRange; dim_val z (q_c q) DLag] b NE N1 eq_refl
        (Forall_nil _))).
Qed.

Lemma fill_any i q lr lr2 ds als rec p : item_of' i q lr lr2 ds als -> In q Q -> wfw p ->
  ((exists p', file_temp_fill lr2 rec p = Ok p' /\ (wfw p' /\ fst p' = fst p)) \/ file_temp_fill lr2 rec p = Raise ValueError) /\
  (In (fst p) (data_names_of t) -> c_beam (q_c q0) < c_beam (q_c q) -> file_temp_fill lr2 rec p = Raise ValueError).
Proof.
  intros HI Hq HW. destruct p as [k a]. destruct HW as [Hk (ty & data & FT & EA)]. cbn [fst snd] in Hk, FT, EA |- *. subst a.
  assert (G : exists v ss b, dict_item lr2 k = Ok v /\ assigned_attr ty v = Ok (ss, b) /\
    (if is_ndarray v then ss = lay' k (q_c q) /\ length ss = length (tp' k) else ~ In k (data_names_of t))).
  { unfold dict_item. destruct (dims_row _ _ Hk) as (ads & Hr).
    destruct (row_cases g t dims TF _ _ Hr) as [(ty' & c & A & _ & _ & N & _ & _)|(A & ty' & c & sds & A2 & _ & _ & N & _)]; fold F in A.
    - unfold field_type in FT. rewrite A in FT. apply ok_inj in FT as ->.
      assert (ND : ~ In k (data_names_of t)).
      { intros C. apply (at_data _ _ _ _ _ AT k Hk) in C. apply (tf_data _ _ _ TF) in C. apply many_in_ok in C as (_ & M & _). fold F in M. congruence. }
      destruct (one_get' q k ty Hq Hk A) as (v & V1 & V2 & _). destruct (assigned_one ty v V2 N) as (cc & E1 & E2 & E3).
      destruct (io_seen2 _ _ _ _ _ _ _ _ _ _ HI k v V1) as (vl & L1 & L2). rewrite L1.
      destruct (at_one _ _ _ _ _ AT k ty Hk A) as [Ka NS]. unfold like in L2. fold F in L2.
      assert (NA : array_string F k = false) by exact (at_attr _ _ _ _ _ AT k Ka).
      destruct (single_string F k) eqn:ESS.
      + destruct L2 as (s & -> & HA & [->|(-> & _ & C)]); [|exfalso; now apply NS].
        destruct E3 as [[_ E3]|(s' & -> & _ & _)]; [discriminate|].
        eexists. exists [], [CS (store_text s)]. split; [reflexivity|]. cbn [assigned_attr]. unfold ascii_text in HA. rewrite HA. split; [reflexivity|exact ND].
      + rewrite NA in L2. subst vl. assert (NB : ty <> BStr).
        { intros ->. unfold single_string in ESS. rewrite A in ESS. discriminate. }
        exists v, [], [cc]. split; [reflexivity|].
        replace (assigned_attr ty v) with (assigned ty v) by (clear - NB; destruct ty; try reflexivity; now destruct NB).
        rewrite E1, E2. split; [reflexivity|exact ND].
    - fold F in A2. unfold field_type in FT. rewrite A in FT. unfold dict_item in FT. rewrite A2 in FT. apply ok_inj in FT as ->.
      destruct (many_get' q k ty Hq Hk A A2) as (d & D1 & D2).
      destruct (at_many _ _ _ _ _ AT k Hk A) as [_ NX]. rewrite (seen_plain _ _ _ _ _ _ (io_seen2 _ _ _ _ _ _ _ _ _ _ HI) NX D1).
      exists (BArr ty (lay' k (q_c q)) d), (lay' k (q_c q)), d. split; [reflexivity|].
      replace (assigned_attr ty (BArr ty (lay' k (q_c q)) d)) with (assigned ty (BArr ty (lay' k (q_c q)) d)) by (clear; destruct ty; reflexivity).
      rewrite assigned_arr. cbn [is_ndarray]. split; [reflexivity|]. split; [reflexivity|].
      destruct (lay_fits' q k Hq Hk) as [LE _]. unfold tp. fold F. rewrite A. exact (forall2_length _ _ _ LE). }
  destruct G as (v & ss & b & G1 & G2 & G3). unfold file_temp_fill. cbn [ta_type ta_dims ta_data]. rewrite G1. cbn [rbind]. rewrite G2. cbn [rbind fst snd].
  split.
  - assert (LE : length (if is_ndarray v then ss else []) <= length (tpw k)).
    { rewrite tpw_length. destruct (is_ndarray v); [rewrite (proj2 G3); constructor|cbn [length]; lia]. }
    destruct (assign_error (tpw k) data rec _ ss b LE) as [(cells & ->)| ->]; [left|now right]. cbn [rbind].
    eexists. split; [reflexivity|]. split; [|reflexivity]. split; cbn [fst snd]; [exact Hk|eauto].
  - intros Hd HL. destruct (is_ndarray v); [|now destruct G3]. destruct G3 as [-> _].
    rewrite (data_lay q k Hd). unfold tp_first. rewrite (proj2 (str_mem_In _ _) Hd). now rewrite wide_fails.
Qed.

Lemma data_some : exists k, In k (data_names_of t).
Proof. unfold data_names_of. destruct t; eexists; left; reflexivity. Qed.

Lemma inits_any : exists mid, mapM (file_temp_init F n) (dims_of u tpw) = Ok mid /\ Forall wfw mid /\ map fst mid = u.
Proof.
  assert (G : forall x, In x dims -> exists p, file_temp_init F n (fst x, tpw (fst x)) = Ok p /\ (wfw p /\ fst p = fst x)).
  { intros [k ads] Hr. cbn [fst]. assert (Hk : In k u) by (apply in_map_iff; now exists (k, ads)).
    destruct (init_ok g t dims z HT TF Q HQ HQ0 HB f HP k ads Hr) as (p & _ & E & _). unfold file_temp_init in E |- *. cbn [fst snd] in *.
    fold F in E. destruct (field_type F k) as [ty|] eqn:EF; [|discriminate]. cbn [rbind] in E |- *.
    destruct (fill_cell ty) as [c|] eqn:EC; [|discriminate]. cbn [rbind]. eexists. split; [reflexivity|]. split; [|reflexivity]. split; cbn [fst snd]; [exact Hk|]. eauto. }
  destruct (choose_all _ dims G) as (mid & HM). exists mid. split; [|split].
  - unfold dims_of, u. rewrite map_map, mapM_of_map. apply mapM_Forall2. eapply forall2_weak; [|exact HM]. cbv beta. tauto.
  - apply (forall2_right _ _ _ _ HM). cbv beta. tauto.
  - assert (HK : Forall2 (fun (x : pystr * list adim) (p : pystr * temp_array) => fst p = fst x) dims mid) by (eapply forall2_weak; [|exact HM]; cbv beta; tauto).
    exact (forall2_keys _ _ HK).
Qed.

Lemma fills_any i q lr lr2 ds als rec l : item_of' i q lr lr2 ds als -> In q Q -> Forall wfw l -> map fst l = u ->
  ((exists l', mapM (file_temp_fill lr2 rec) l = Ok l' /\ Forall wfw l' /\ map fst l' = u) \/ mapM (file_temp_fill lr2 rec) l = Raise ValueError) /\
  (c_beam (q_c q0) < c_beam (q_c q) -> mapM (file_temp_fill lr2 rec) l = Raise ValueError).
Proof.
  intros HI Hq HW HK. rewrite Forall_forall in HW. split.
  - destruct (mapM_error (file_temp_fill lr2 rec) wfw l) as [(m & M1 & M2)|M]; [|left|now right].
    + intros p Hp. destruct (proj1 (fill_any i q lr lr2 ds als rec p HI Hq (HW p Hp))) as [(p' & P1 & P2 & _)|P]; [left; eauto|now right].
    + exists m. splits; auto. rewrite <- HK. apply mapM_inv in M1. apply forall2_keys. eapply forall2_weak; [|exact M1]. cbv beta. intros [k a] p' E. unfold file_temp_fill in E. inv_rbind E v. inv_rbind E sb. inv_rbind E cells.
      apply ok_inj in E as <-. reflexivity.
  - intros HL. destruct data_some as (k & Hd). pose proof (at_data_in _ _ _ _ _ AT k Hd) as Hu. rewrite <- HK in Hu. apply in_map_iff in Hu as (p & <- & Hp).
    apply (mapM_fails _ p); auto.
    + intros x Hx. destruct (proj1 (fill_any i q lr lr2 ds als rec x HI Hq (HW x Hx))) as [(p' & P1 & _)|P]; [left; eauto|now right].
    + exact (proj2 (fill_any i q lr lr2 ds als rec p HI Hq (HW p Hp)) Hd HL).
Qed.

Lemma rest_fails (dd : dict (list nat)) fi sh :
  (forall q, In q Q -> exists i lr lr2 ds als, dict_get (h_items fi) (q_name q) = Some i /\ item_of' i q lr lr2 ds als) ->
  forall Ql P temps, Q = P ++ Ql -> Forall wfw temps -> map fst temps = u ->
  (exists q, In q Ql /\ c_beam (q_c q0) < c_beam (q_c q)) ->
  build_loop F n dd fi (map q_name Ql) (length P) (Some (mk_building sh (map (spec_at' P) (fm_array_gen F)) temps)) = Raise ValueError.
Proof.
  intros HG. induction Ql as [|q Ql IH]; intros P temps EP HW HK (w & Hw & HL); [destruct Hw|]. cbn [map build_loop].
  assert (Hq : In q Q) by (rewrite EP; apply in_app_iff; right; now left).
  assert (HLn : length P < n) by (unfold n; rewrite EP, app_length; cbn [length]; lia).
  destruct (HG q Hq) as (i & lr & lr2 & ds & als & GI & HI). unfold dict_item. rewrite GI. cbn [rbind].
  destruct (fills_any i q lr lr2 ds als (length P) temps HI Hq HW HK) as [E1 E2].
  unfold build_record. replace (loaded_record F i) with (Ok lr) by (symmetry; exact (io_loaded _ _ _ _ _ _ _ _ _ _ HI)). cbn [rbind].
  replace (reshape_site_arrays F [(str "tmp", lr)]) with (Ok [(str "tmp", lr2)]) by (symmetry; exact (io_reshaped _ _ _ _ _ _ _ _ _ _ HI)). cbn [rbind bu_shared bu_spec bu_temps fst snd].
  rewrite mapM_of_map. rewrite (mapM_map _ (spec_at' (P ++ [q]))).
  2: { intros p Hp. exact (spec_fill_ok g t dims z HT TF sa sd AT Q HQ f HP HPH i q lr lr2 ds als P p HI Hq Hp HLn). }
  cbn [rbind]. destruct E1 as [(temps' & E1 & E3 & E4)|E1]; rewrite E1; [|reflexivity]. cbn [rbind].
  destruct Hw as [->|Hw]; [specialize (E2 HL); congruence|].
  assert (EL : length P + 1 = length (P ++ [q])) by (rewrite app_length; reflexivity). rewrite EL.
  apply IH; auto; [now rewrite <- app_assoc|eauto].
Qed.

Theorem build_fails fi records a : reshape_site_arrays F records = Ok rs2 -> site_to_array F records = Ok a ->
  (forall q, In q Q -> exists i lr lr2 ds als, dict_get (h_items fi) (q_name q) = Some i /\ item_of' i q lr lr2 ds als) ->
  (exists q, In q Q /\ c_beam (q_c q0) < c_beam (q_c q)) ->
  build_loop F n (dims_of u tpw) fi (map q_name Q) 0 None = Raise ValueError.
Proof.
  intros HR HA HG HW. assert (Hq0 : In q0 Q) by (rewrite EQ; now left).
  assert (ER : rs2 = (q_name q0, q_r2 q0) :: map q_rec2 Q') by (unfold rs2; rewrite EQ; reflexivity).
  rewrite (site_to_array_eq F records rs2 _ _ _ (tf_restr _ _ _ TF) HR ER) in HA.
  inv_rbind HA sh. clear HA.
  destruct inits_any as (mid & T2 & T3 & T4).
  assert (SH : mapM (fun f0 => rlet v := dict_item (q_r2 q0) f0 in Ok (f0, v)) (fm_shared F) = Ok sh) by assumption.
  pose proof (rest_fails (dims_of u tpw) fi sh HG Q [] mid eq_refl T3 T4 HW) as B. rewrite <- B. rewrite EQ. cbn [map build_loop length].
  destruct (HG q0 Hq0) as (i & lr & lr2 & ds & als & GI & HI). unfold dict_item. rewrite GI. cbn [rbind].
  rewrite <- EQ.
  assert (ES : build_record F n (dims_of u tpw) i 0 None =
    build_record F n (dims_of u tpw) i 0 (Some (mk_building sh (map (spec_at' []) (fm_array_gen F)) mid))).
  { unfold build_record. replace (loaded_record F i) with (Ok lr) by (symmetry; exact (io_loaded _ _ _ _ _ _ _ _ _ _ HI)). cbn [rbind].
    replace (reshape_site_arrays F [(str "tmp", lr)]) with (Ok [(str "tmp", lr2)]) by (symmetry; exact (io_reshaped _ _ _ _ _ _ _ _ _ _ HI)). cbn [rbind bu_shared bu_spec bu_temps fst snd].
    rewrite (mapM_ext (fun k => rlet v := first_shared F i lr2 k in Ok (k, v)) (fun f0 => rlet v := dict_item (q_r2 q0) f0 in Ok (f0, v)) (fm_shared F)).
    - rewrite SH. cbn [rbind]. rewrite (mapM_map (spec_init F n lr2) (spec_at' []) (fm_array_gen F)).
      + cbn [rbind fst snd]. rewrite T2. reflexivity.
      + intros p Hp. now apply (spec_init_ok g t dims sa sd AT).
    - intros k Hk. replace (first_shared F i lr2 k) with (dict_item (q_r2 q0) k) by (symmetry; exact (shared_same g t dims z HT TF sa sd Q HQ i q0 lr lr2 ds als k HI Hq0 Hk)). reflexivity. }
  rewrite ES. reflexivity.
Qed.
End Wide.

(** The file is left alone. *)
Theorem wide_never av fs i o f t g z cs rs c v :
  has_structures t -> i <> o -> holds fs i f -> site_layout (format_class g t) f -> read_records f = Ok rs ->
  (forall n r, In (n, r) rs -> BorealisSpec.site_record_ok (format_class g t) r /\ storable (format_class g t) r) ->
  consistent g t z cs rs -> records_version rs v -> supported v g ->
  t <> AntennasIq -> ~ widest_first cs ->
  (role_of g t (str "pulse_phase_offset") Varying -> forall n r, In (n, r) rs -> phases_of_pulses r) ->
  restructure av fs i o (type_name t) (str "array") c = (fs, Raise ValueError).
Proof.
  intros HT HIO HF HL HRR HOK HC HV HSup NT HW HPh.
  destruct (site_setup av fs i o f t g z cs rs c v HT HIO HF HL HRR HOK HC HV HSup HPh) as (ER & dims & sa & sd & Q & h & hh & n0 & r0 & ST).
  destruct ST as [TF AT EU Q1 Q2 Q3 Q4 Q0 HB HP HPH HM HGq ERN PR V1 V3 V4 HSH].
  rewrite ER. destruct (restructure_main g t z cs rs HT HC) as (a & A1 & A2 & _).
  unfold site_to_array_file, arrays_of_file. cbv zeta. rewrite EU. cbn [rbind].
  destruct (first_quad g t dims z Q Q4 Q0 HB h HP) as (q0 & Q' & EQ & Hq0).
  destruct (site_max_any g t dims z HT TF sa sd AT Q Q4 Q0 HB h HP HPH f q0 Q' HM EQ) as (m & M1 & M2).
  rewrite M1. cbn [rbind]. rewrite M2, ERN, map_length.
  rewrite (build_fails g t dims z HT TF sa sd AT Q Q4 Q0 HB h HP HPH NT q0 Q' EQ f rs a Q3 A1 HGq); [reflexivity|].
  assert (D : (exists q, In q Q /\ c_beam (q_c q0) < c_beam (q_c q)) \/ (forall q, In q Q -> c_beam (q_c q) <= c_beam (q_c q0))).
  { clear. induction Q as [|q l IH]; [right; intros q []|]. destruct IH as [(w & W1 & W2)|IH]; [left; exists w; split; [now right|exact W2]|].
    destruct (Nat.lt_ge_cases (c_beam (q_c q0)) (c_beam (q_c q))) as [H|H]; [left; exists q; split; [now left|exact H]|right].
    intros x [<-|Hx]; [exact H|now apply IH]. }
  destruct D as [D|D]; [exact D|exfalso]. apply HW. rewrite <- Q1, EQ. cbn [map widest_first]. intros x Hx. 
  replace (q_c q0 :: map q_c Q') with (map q_c Q) in Hx by now rewrite EQ. apply in_map_iff in Hx as (q & <- & Hq). now apply D.
Qed.

Lemma widest_dec cs : widest_first cs \/ ~ widest_first cs.
Proof.
  destruct cs as [|c0 cs]; [left; exact I|]. cbn [widest_first]. generalize (c0 :: cs) as l. intros l.
  induction l as [|c l IH]; [left; intros c []|]. destruct (Nat.le_gt_cases (c_beam c) (c_beam c0)) as [H|H].
  - destruct IH as [IH|IH]; [left; intros x [<-|Hx]; auto|right; intros C; apply IH; intros x Hx; apply C; now right].
  - right. intros C. specialize (C c (or_introl eq_refl)). lia.
Qed.

Theorem wide_exact av fs i o f t g z cs rs c v :
  has_structures t -> i <> o -> holds fs i f -> site_layout (format_class g t) f -> read_records f = Ok rs ->
  (forall n r, In (n, r) rs -> BorealisSpec.site_record_ok (format_class g t) r /\ storable (format_class g t) r) ->
  consistent g t z cs rs -> common_arrays g t rs -> records_version rs v -> supported v g ->
  (role_of g t (str "pulse_phase_offset") Varying -> forall n r, In (n, r) rs -> phases_of_pulses r) ->
  can_compress av c -> fs o = None ->
  (snd (restructure av fs i o (type_name t) (str "array") c) = Ok tt <-> t = AntennasIq \/ widest_first cs).
Proof.
  intros HT HIO HF HL HRR HOK HC HCA HV HSup HPh HCC HO. split.
  - intros HR. assert (DT : t = AntennasIq \/ t <> AntennasIq) by (destruct t; auto; right; discriminate).
    destruct DT as [DT|DT]; [now left|right]. destruct (widest_dec cs) as [W|W]; [exact W|exfalso].
    rewrite (wide_never av fs i o f t g z cs rs c v) in HR by assumption. discriminate HR.
  - intros HW. destruct (site_file_to_array av fs i o f t g z cs rs c v) as (fs' & a & ar & E & _); try assumption.
    + intros NT. destruct HW; [contradiction|assumption].
    + now rewrite E.
Qed.
