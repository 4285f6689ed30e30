(** Site to array and back, for consistent records; the field checks accept the
    results. *)
From Coq Require Import String ZArith List Bool Lia.
From Verif Require Import Base SDarnFormats BorealisTypes BorealisFormats BorealisChecks BorealisArrays
  BytesProofs DmapWriteProofs DmapWriteFacts DmapFileProofs SDarnChecks BorealisSpec BorealisCheckProofs
  BorealisCatalogue BorealisCatalogueProofs BorealisShapes BorealisNumpyProofs BorealisFillProofs
  BorealisRestructFacts BorealisToArrayProofs.
Import ListNotations.
Open Scope list_scope.
Open Scope nat_scope.

Lemma combine_forall2 {A B} (P : A -> B -> Prop) l m : Forall2 P l m ->
  map fst (combine l m) = l /\ map snd (combine l m) = m /\ Forall (fun x => P (fst x) (snd x)) (combine l m).
Proof.
  intros H. induction H as [|x y l m HP H (I1 & I2 & I3)]; cbn; [auto|]. rewrite I1, I2. splits; auto.
Qed.

Lemma forall2_unmap {A B C} (P : B -> C -> Prop) (h : A -> B) (k : A -> C) l : Forall2 P (map h l) (map k l) ->
  Forall (fun x => P (h x) (k x)) l.
Proof. induction l; cbn; intros H; constructor; inversion H; auto. Qed.

(** The name the first timestamp of a record gives. *)
Definition time_name (record_name : Z -> res pystr) (r : brecord) : pystr :=
  match dict_get r (str "sqn_timestamps") with
  | Some (BArr _ _ (CZ b :: _)) => match record_name b with Ok n => n | Raise _ => [] end
  | _ => []
  end.
Lemma time_name_ok record_name r b nm : first_time r b -> record_name b = Ok nm -> time_name record_name r = nm.
Proof. intros (ty & s & l & E) H. unfold time_name. now rewrite E, H. Qed.

Definition came_back (g : generation) (t : filetype) (r r' : brecord) : Prop :=
  same_record g t r r' /\ NoDup (keys r') /\
  forall k, In k (keys r') <-> exists ro, role_of g t k ro /\ ro <> MadeArray.

Theorem restructure_main g t z cs rs : has_structures t -> consistent g t z cs rs ->
  exists a, site_to_array (format_class g t) rs = Ok a /\ arrays_of g t z cs rs a /\
    forall record_name nms, names_of record_name rs nms ->
      exists rs', array_to_site record_name (format_class g t) a = Ok rs' /\ keys rs' = first_names nms /\
        forall i n r nm, nth_error rs i = Some (n, r) -> nth_error nms i = Some nm ->
          (forall j, i < j -> nth_error nms j <> Some nm) ->
          exists r', dict_get rs' nm = Some r' /\ came_back g t r r'.
Proof.
  intros HT HC. destruct (tables g t HT) as (dims & TF).
  destruct (combine_forall2 _ _ _ (co_records _ _ _ _ _ HC)) as (C1 & C2 & C3).
  destruct (reshape_ok g t dims z HT TF (combine cs rs)) as (Q & Q1 & Q2 & Q3 & Q4); [exact C3|].
  rewrite C1 in Q1. rewrite C2 in Q2, Q3.
  assert (Q0 : Q <> []) by (intros ->; cbn in Q2; apply (co_some _ _ _ _ _ HC); now symmetry).
  assert (IQ : forall q, In q Q -> In (q_name q, q_r q) rs).
  { intros q Hq. rewrite <- Q2. apply in_map_iff. exists q. split; [reflexivity|assumption]. }
  assert (HB : (forall c, In c (map q_c Q) -> c_blank c = 0) \/ (forall c, In c (map q_c Q) -> 1 <= c_blank c)).
  { rewrite Q1. apply (co_blank _ _ _ _ _ HC). }
  assert (GP : exists f, In s_ppo_name (map fst dims) -> ppo_shapes (map q_c Q) f /\
    Forall (fun q => exists data, dict_get (q_r q) s_ppo_name = Some (BArr BF32 (f (q_c q)) data) /\
      length data = size (f (q_c q))) Q).
  { assert (D : {In s_ppo_name (map fst dims)} + {~ In s_ppo_name (map fst dims)}).
    { apply in_dec. intros x y. destruct (str_eqb x y) eqn:EB; [left; now apply str_eqb_eq|right; intros C; apply str_eqb_eq in C; congruence]. }
    destruct D as [D|D]; [|exists (fun _ => []); intros C; contradiction].
    pose proof D as D'. apply (dims_role g t dims HT TF) in D'.
    destruct (co_ppo _ _ _ _ _ HC D') as (f & F1 & F2). exists f. intros _. rewrite Q1. split; [assumption|].
    rewrite <- Q1, <- Q2 in F2. apply forall2_unmap in F2. exact F2. }
  destruct GP as (f & HP).
  destruct (to_array_ok g t dims z HT TF Q Q4 Q0 HB f HP rs Q3) as (a & A1 & A2).
  exists a. split; [exact A1|].
  assert (HCom : forall k q q', role_of g t k Common -> In q Q -> In q' Q -> dict_get (q_r q) k = dict_get (q_r q') k).
  { intros k q q' HR H1 H2. exact (co_common _ _ _ _ _ HC k _ _ _ _ HR (IQ _ H1) (IQ _ H2)). }
  split.
  - pose proof (arrays_done g t dims z HT TF Q Q4 Q0 HB f HP a A2 HCom) as X. rewrite Q1, Q2 in X. exact X.
  - intros record_name nms HN.
    set (nm := fun q : quad => time_name record_name (q_r q)).
    assert (EN : map nm Q = nms).
    { rewrite <- Q2 in HN. clear - HN. unfold names_of in HN. revert nms HN. induction Q as [|q Q IH]; intros nms HN; inversion HN as [|? x ? ? (b & B1 & B2) HN']; subst; cbn [map]; [reflexivity|].
      f_equal; [|now apply IH]. unfold nm. now apply (time_name_ok _ _ b). }
    destruct (from_array_gen g t dims z HT TF Q Q4 Q0 HB f HP a A2 HCom record_name nm) as (rs' & R1 & R2 & R3).
    { intros q Hq. destruct (forall2_in _ _ _ _ HN (IQ q Hq)) as (x & _ & b & B1 & B2). cbn [snd] in B1.
      exists b. split; [assumption|]. unfold nm. now rewrite (time_name_ok _ _ b x). }
    exists rs'. split; [exact R1|]. split; [now rewrite <- EN|].
    intros i n r x Hr Hx HL.
    rewrite <- Q2, nth_error_map in Hr. destruct (nth_error Q i) as [q|] eqn:EQ; [|discriminate]. cbn in Hr. inversion Hr; subst n r.
    rewrite <- EN, nth_error_map, EQ in Hx. cbn in Hx. inversion Hx. subst x.
    apply nth_error_split in EQ as (pre & post & EQ & LP).
    destruct (R3 pre q post EQ) as (r' & X1 & X2); [|now exists r'].
    intros C. apply In_nth_error in C as (j & Hj). apply (HL (i + S j)); [lia|].
    rewrite <- EN, EQ, map_app. cbn [map]. rewrite nth_error_app2 by (rewrite map_length; lia). rewrite map_length.
    replace (i + S j - length pre) with (S j) by lia. exact Hj.
Qed.

(** When the first timestamps give the records' own names. *)
Theorem restructure_named g t z cs rs : has_structures t -> consistent g t z cs rs ->
  exists a, site_to_array (format_class g t) rs = Ok a /\ arrays_of g t z cs rs a /\
    forall record_name, named_by record_name rs ->
      exists rs', array_to_site record_name (format_class g t) a = Ok rs' /\ keys rs' = keys rs /\
        Forall2 (fun p p' => came_back g t (snd p) (snd p')) rs rs'.
Proof.
  intros HT HC. destruct (restructure_main g t z cs rs HT HC) as (a & A1 & A2 & A3). exists a. splits; auto.
  intros record_name [N1 N2]. destruct (A3 record_name (keys rs)) as (rs' & R1 & R2 & R3).
  { clear - N2. unfold names_of. induction rs as [|[n r] rs IH]; cbn; constructor.
    - apply (N2 n r). now left.
    - apply IH. intros n' r' H. apply N2. now right. }
  rewrite first_names_nodup in R2 by exact N1. exists rs'. splits; auto.
  assert (LL : length rs = length rs') by (apply (f_equal (@length _)) in R2; unfold keys in R2; rewrite !map_length in R2; lia).
  apply forall2_from_nth; [exact LL|]. intros i [n r] Hi.
  assert (Hn : nth_error (keys rs) i = Some n) by (unfold keys; now rewrite nth_error_map, Hi).
  destruct (R3 i n r n Hi Hn) as (r' & X1 & X2).
  { intros j Hj C. rewrite NoDup_nth_error in N1. apply (Nat.lt_neq i j Hj). apply N1; [|congruence].
    apply nth_error_Some. congruence. }
  assert (Hn' : nth_error (keys rs') i = Some n) by now rewrite R2.
  unfold keys in Hn'. rewrite nth_error_map in Hn'. destruct (nth_error rs' i) as [[n' r'']|] eqn:E; [|discriminate]. cbn in Hn'. inversion Hn'; subst n'.
  exists (n, r''). split; [reflexivity|]. cbn [snd].
  assert (D : dict_get rs' n = Some r'').
  { apply dict_get_nodup; [change (NoDup (keys rs')); rewrite R2; exact N1|]. eapply nth_error_In; eauto. }
  rewrite D in X1. inversion X1. subst. exact X2.
Qed.

(** ** The checks on the results *)

(** The made fields. *)
Definition made_fact (g : generation) (t : filetype) (r : field_row) : bool :=
  negb (fr_in r t g) ||
  match fr_role r g with
  | MadeArray => match fr_kind r with One => true | Many => false end && btype_eqb (fr_type r g) BU32 &&
      (str_eqb (fr_name r) (str "num_beams") ||
       (str_eqb (fr_name r) (str "num_blanked_samples") && negb (match g with G4 => true | _ => false end)))
  | MadeBoth => str_eqb (fr_name r) (names_field g t) && match fr_kind r with Many => true | One => false end &&
      btype_eqb (fr_type r g) (match g with G7 => BBytes | _ => BNpStr end)
  | MadeSite => str_eqb (fr_name r) (dims_field g t) && match fr_kind r with Many => true | One => false end &&
      btype_eqb (fr_type r g) BU32
  | _ => negb (str_eqb (fr_name r) (names_field g t)) && negb (str_eqb (fr_name r) (dims_field g t))
  end.

Lemma made_facts g t r : has_structures t -> In r catalogue -> made_fact g t r = true.
Proof.
  intros HT. revert r. apply forallb_forall. destruct g, t; try (exfalso; apply HT; reflexivity); vm_compute; reflexivity.
Qed.

Lemma made_cases g t k kd ty ro : has_structures t -> listed g t k kd ty ro ->
  match ro with
  | MadeArray => kd = One /\ ty = BU32 /\ (k = str "num_beams" \/ (k = str "num_blanked_samples" /\ g <> G4))
  | MadeBoth => k = names_field g t /\ kd = Many /\ ty = match g with G7 => BBytes | _ => BNpStr end
  | MadeSite => k = dims_field g t /\ kd = Many /\ ty = BU32
  | _ => k <> names_field g t /\ k <> dims_field g t
  end.
Proof.
  intros HT (r & Hc & Hn & Hk & Ht & Hi & Hr). pose proof (made_facts g t r HT Hc) as M. unfold made_fact in M.
  rewrite Hi, Hr, Hn, Ht, Hk in M. cbn [negb orb] in M.
  destruct ro; rewrite ?andb_true_iff, ?negb_true_iff in M.
  - destruct M as [M1 M2]. split; now apply str_eqb_neq.
  - destruct M as [M1 M2]. split; now apply str_eqb_neq.
  - destruct M as [[M1 M2] M3]. apply str_eqb_eq in M1. apply btype_eqb_eq in M3. destruct kd; [discriminate|]. auto.
  - destruct M as [[M0 M1] M2]. apply btype_eqb_eq in M1. destruct kd; [|discriminate]. split; [reflexivity|]. split; [assumption|].
    apply orb_true_iff in M2 as [M2|M2].
    + apply str_eqb_eq in M2. now left.
    + apply andb_true_iff in M2 as [M2 M3]. apply str_eqb_eq in M2. right. split; [assumption|]. intros ->. discriminate.
  - destruct M as [[M1 M2] M3]. apply str_eqb_eq in M1. apply btype_eqb_eq in M3. destruct kd; [discriminate|]. auto.
Qed.

(** The array fields that are equal in all records are arrays. *)
Definition common_arrays (g : generation) (t : filetype) (rs : brecords) : Prop :=
  forall k ty n r, listed g t k Many ty Common -> In (n, r) rs -> exists s l, dict_get r k = Some (BArr ty s l).

Theorem arrays_pass g t z cs rs a : has_structures t -> consistent g t z cs rs -> proper rs -> common_arrays g t rs ->
  check_site_records (format_class g t) rs = Ok tt -> arrays_of g t z cs rs a ->
  check_array_dict (format_class g t) a = Ok tt.
Proof.
  intros HT HC HP HCA HK HA. rewrite (site_check_iff g t rs HT HP) in HK.
  apply (arrays_ok_check g t a HT (ao_nodup _ _ _ _ _ _ HA)).
  destruct (spec_tables g t HT) as (S1 & S2 & S3 & S4 & S5).
  assert (GV : forall k v, In (k, v) a -> dict_get a k = Some v).
  { intros k v H. apply dict_get_nodup; [apply (ao_nodup _ _ _ _ _ _ HA)|assumption]. }
  assert (G0 : exists n r, In (n, r) rs).
  { destruct rs as [|[n r] rs']; [exfalso; now apply (co_some _ _ _ _ _ HC)|]. exists n, r. now left. }
  destruct G0 as (n0 & r0 & H0). destruct (HK n0 r0 H0) as (K1 & K2 & K3).
  split; [|split; [|split]].
  - intros k. rewrite (ao_fields _ _ _ _ _ _ HA). split.
    + intros (ro & (kd & ty & L) & N). exists ty. destruct kd.
      * destruct ro; [left; now apply S3|..]; right; apply S4; right; eexists; (split; [exact L|congruence]).
      * right. apply S4. left. now exists ro.
    + intros (ty & [L|L]).
      * apply S3 in L. exists Common. split; [now exists One, ty|discriminate].
      * apply S4 in L as [(ro & L & N)|(ro & L & N)]; exists ro; (split; [eexists; eexists; exact L|]); [assumption|].
        intros ->. apply (made_cases g t) in L; [|assumption]. destruct L as (_ & C & _). discriminate.
  - intros k v ty HI HT'. apply S3 in HT'. apply (K2 k v ty).
    + apply dict_get_In. rewrite <- (ao_common _ _ _ _ _ _ HA k n0 r0); [now apply GV|now exists One, ty|assumption].
    + apply S1. exists Common. split; [assumption|discriminate].
  - intros k v ty HI HD. apply GV in HI. apply S4 in HD as [(ro & L & N)|(ro & L & N)].
    + destruct ro; try congruence.
      * destruct (HCA k ty n0 r0 L H0) as (s & l & E).
        rewrite (ao_common _ _ _ _ _ _ HA k n0 r0), E in HI; [|now exists Many, ty|assumption]. inversion HI. constructor.
      * destruct (str_eqb k (str "pulse_phase_offset")) eqn:EP.
        -- apply str_eqb_eq in EP. subst k. destruct (ao_ppo _ _ _ _ _ _ HA) as (ms & data & E & _); [now exists Many, ty|].
           rewrite E in HI. inversion HI.
           assert (LP : ty = BF32).
           { destruct (co_ppo _ _ _ _ _ HC) as (f & _ & F2); [now exists Many, ty|].
             assert (GX : exists data' s, dict_get r0 (str "pulse_phase_offset") = Some (BArr BF32 s data')).
             { clear - F2 H0. induction F2 as [|c p cs rs (d & D & _) F2 IH]; [destruct H0|].
               destruct H0 as [->|H0]; [|now apply IH]. cbn [snd] in D. eauto. }
             destruct GX as (d & s & D). apply dict_get_In in D.
             assert (NT : np_type (BArr BF32 s d) ty) by (apply (K3 _ _ _ D); apply S2; now exists Varying).
             now inversion NT. }
           subst ty. constructor.
        -- apply str_eqb_neq in EP. destruct (ao_many _ _ _ _ _ _ HA k ty L EP) as (data & E & _).
           rewrite E in HI. inversion HI. constructor.
      * apply (made_cases g t) in L; [|assumption]. destruct L as (-> & _ & ->).
        destruct (ao_names _ _ _ _ _ _ HA) as (ty & E & ET). rewrite E in HI. inversion HI. subst ty.
        destruct g, t; constructor.
      * apply (made_cases g t) in L; [|assumption]. destruct L as (_ & -> & [->|[-> Hg]]).
        -- rewrite (ao_beams _ _ _ _ _ _ HA) in HI. inversion HI. constructor.
        -- rewrite (ao_blanked _ _ _ _ _ _ HA Hg) in HI. inversion HI. constructor.
    + destruct ro; try congruence.
      * destruct (ao_one _ _ _ _ _ _ HA k ty L) as (data & E & _). rewrite E in HI. inversion HI.
        destruct ty; constructor.
      * apply (made_cases g t) in L; [|assumption]. destruct L as (_ & C & _). discriminate.
      * apply (made_cases g t) in L; [|assumption]. destruct L as (_ & -> & [->|[-> Hg]]).
        -- rewrite (ao_beams _ _ _ _ _ _ HA) in HI. inversion HI. constructor.
        -- rewrite (ao_blanked _ _ _ _ _ _ HA Hg) in HI. inversion HI. constructor.
      * apply (made_cases g t) in L; [|assumption]. destruct L as (_ & C & _). discriminate.
  - exists (length rs). intros k v HI HR. apply GV in HI. apply S5 in HR. destruct HR as ([|] & ty & L).
    + destruct (ao_one _ _ _ _ _ _ HA k ty L) as (data & E & _). rewrite E in HI. inversion HI. eauto.
    + destruct (str_eqb k (str "pulse_phase_offset")) eqn:EP.
      * apply str_eqb_eq in EP. subst k. destruct (ao_ppo _ _ _ _ _ _ HA) as (ms & data & E & _); [now exists Many, ty|].
        rewrite E in HI. inversion HI. eauto.
      * apply str_eqb_neq in EP. destruct (ao_many _ _ _ _ _ _ HA k ty L EP) as (data & E & _).
        rewrite E in HI. inversion HI. eauto.
Qed.

(** The records given back pass the check, but for bfiq of version 0.7, whose
    names of dimensions come back with the wrong type. *)
Theorem sites_pass g t rs rs' : has_structures t -> proper rs ->
  check_site_records (format_class g t) rs = Ok tt -> keys rs' = keys rs -> rs <> [] ->
  Forall2 (fun p p' : pystr * brecord => came_back g t (snd p) (snd p')) rs rs' ->
  check_site_records (format_class g t) rs' = Ok tt <-> ~ (g = G7 /\ t = Bfiq).
Proof.
  intros HT HP HK EK HN H2. rewrite (site_check_iff g t rs HT HP) in HK.
  assert (HP' : proper rs').
  { split; [rewrite EK; apply HP|]. clear - H2. intros n r H. induction H2 as [|p p' rs rs' (_ & N & _) H2 IH]; [destruct H|].
    destruct H as [->|H]; [exact N|auto]. }
  rewrite (site_check_iff g t rs' HT HP').
  destruct (spec_tables g t HT) as (S1 & S2 & _).
  destruct (tables g t HT) as (dims & TF).
  assert (LN : listed g t (names_field g t) Many (match g with G7 => BBytes | _ => BNpStr end) MadeBoth).
  { destruct (catalogue_lists g t HT) as (_ & _ & _ & _ & _ & _ & H7).
    pose proof (tf_names _ _ _ TF) as X. apply H7 in X as [(kd & ty & L)|(kd & ty & L)]; pose proof L as L'; apply (made_cases g t) in L; try assumption.
    - destruct L as (C & _). exfalso. apply (tf_differ _ _ _ TF). assumption.
    - destruct L as (_ & -> & ->). exact L'. }
  split.
  - intros H [-> ->]. destruct H2 as [|[n r] [n' r'] rs rs' (S & _) H2]; [now apply HN|].
    destruct (H n' r' (or_introl eq_refl)) as (_ & _ & K3). cbn [snd] in S. destruct S as [_ S].
    apply dict_get_In in S. assert (D : np_type (names_value G7 Bfiq) BBytes).
    { apply (K3 _ _ _ S). apply S2. now exists MadeBoth. }
    inversion D.
  - intros NB n' r' HI.
    assert (GX : exists n r, In (n, r) rs /\ same_record g t r r' /\ NoDup (keys r') /\
      forall k, In k (keys r') <-> exists ro, role_of g t k ro /\ ro <> MadeArray).
    { clear - H2 HI. induction H2 as [|[n r] p' rs rs' H H2 IH]; [destruct HI|]. destruct HI as [->|HI].
      - exists n, r. split; [now left|exact H].
      - destruct (IH HI) as (n1 & r1 & X & Y). exists n1, r1. split; [now right|exact Y]. }
    destruct GX as (n & r & HR & [Sa Sb] & ND & KS). destruct (HK n r HR) as (K1 & K2 & K3).
    split; [|split].
    + intros k. rewrite KS. split.
      * intros (ro & (kd & ty & L) & N). exists ty. destruct kd; [left; apply S1; eauto|right; apply S2; eauto].
      * intros (ty & [L|L]).
        -- apply S1 in L as (ro & L & N). exists ro. split; [now exists One, ty|assumption].
        -- apply S2 in L as (ro & L). exists ro. split; [now exists Many, ty|]. intros ->.
           apply (made_cases g t) in L; [|assumption]. destruct L as (C & _). discriminate.
    + intros k v ty HI' L. assert (Hk : k <> names_field g t).
      { intros ->. apply S1 in L as (ro & L & _). destruct (listed_unique _ _ _ _ _ _ _ _ _ L LN) as (C & _). discriminate. }
      apply (K2 k v ty); [|assumption]. apply dict_get_In. rewrite <- (Sa k Hk). now apply dict_get_nodup.
    + intros k v ty HI' L. destruct (str_eqb k (names_field g t)) eqn:EN.
      * apply str_eqb_eq in EN. subst k. apply S2 in L as (ro & L). destruct (listed_unique _ _ _ _ _ _ _ _ _ L LN) as (_ & -> & _).
        assert (E : Some v = Some (names_value g t)) by (rewrite <- Sb; symmetry; now apply dict_get_nodup).
        inversion E. unfold names_value, names_type. destruct g; try constructor. destruct t; try constructor.
        -- exfalso. apply NB. split; reflexivity.
        -- exfalso. now apply HT.
      * apply str_eqb_neq in EN. apply (K3 k v ty); [|assumption]. apply dict_get_In. rewrite <- (Sa k EN). now apply dict_get_nodup.
Qed.

(** ** Names of the records made from any arrays *)
Lemma site_loop_names record_name F a : forall times rec out rs, site_loop record_name F a times rec out = Ok rs ->
  exists nms, Forall2 (fun row nm => exists b tl, row = CZ b :: tl /\ record_name b = Ok nm) times nms /\
    exists L : brecords, map fst L = nms /\ rs = dict_update out L.
Proof.
  induction times as [|row times IH]; intros rec out rs H; cbn [site_loop] in H.
  - apply ok_inj in H as <-. exists []. split; [constructor|]. exists []. auto.
  - destruct row as [|[b| |] tl]; try discriminate. apply rbind_ok in H as (nm & E1 & H). apply rbind_ok in H as (r & E2 & H).
    apply IH in H as (nms & H1 & L & H2 & H3). exists (nm :: nms). split.
    + constructor; eauto.
    + exists ((nm, r) :: L). cbn [map fst]. split; [now rewrite H2|exact H3].
Qed.

Lemma flatten_keys F d d' : flatten_site_arrays F d = Ok d' -> keys d' = keys d.
Proof.
  unfold flatten_site_arrays. destruct (fm_flat F) as [[df fs]|]; [|intros H; apply ok_inj in H; now subst].
  revert d'. induction d as [|[k r] d IH]; intros d' H; cbn [mapM] in H.
  - apply ok_inj in H. now subst.
  - apply rbind_ok in H as (x & E1 & H). apply rbind_ok in H as (y & E2 & H). apply ok_inj in H as <-.
    apply rbind_ok in E1 as (r' & E0 & E1). apply ok_inj in E1 as <-. cbn [fst]. unfold keys in *. cbn [map fst]. f_equal. now apply IH.
Qed.

Theorem site_names record_name F a rs ty n w data : array_to_site record_name F a = Ok rs ->
  dict_get a (str "sqn_timestamps") = Some (BArr ty [n; w] data) -> length data = n * w ->
  exists nms, length nms = n /\ keys rs = first_names nms /\
    forall i nm, nth_error nms i = Some nm -> exists b, nth_error data (i * w) = Some (CZ b) /\ record_name b = Ok nm.
Proof.
  intros H HT HL. unfold array_to_site in H. destruct (fm_restructureable F); [|discriminate]. cbn [negb] in H.
  unfold dict_item in H. rewrite HT in H. cbn [rbind] in H.
  assert (H' : (rlet out := site_loop record_name F a (rows n w data) 0 [] in flatten_site_arrays F out) = Ok rs).
  { destruct (negb (time_type ty)); [destruct n; discriminate|]. destruct n; exact H. }
  clear H. rename H' into H.
  apply rbind_ok in H as (out & E1 & H).
  apply site_loop_names in E1 as (nms & N1 & L & N2 & N3).
  pose proof (forall2_length _ _ _ N1) as LN. rewrite rows_length in LN. exists nms. splits.
  - now symmetry.
  - rewrite (flatten_keys _ _ _ H), N3, <- N2. apply dict_update_first.
  - intros i nm Hi. assert (HI : i < n) by (rewrite LN; apply nth_error_Some; congruence).
    pose proof (nth_error_rows n w data i HL HI) as HR.
    destruct (forall2_nth _ _ _ _ _ N1 HR) as (nm' & E & b & tl & ER & EN). rewrite Hi in E. inversion E; subst nm'.
    exists b. split; [|assumption].
    destruct w as [|w]; [cbn [firstn] in ER; discriminate|].
    pose proof (nth_error_split_row n (S w) data i 0 HL HI ltac:(lia)) as SR. rewrite Nat.add_0_r in SR. rewrite SR, ER. reflexivity.
Qed.
