(** What the Borealis writers refuse: proofs. *)
From Coq Require Import String ZArith List Bool Lia Permutation Sorted.
From Verif Require Import Base BytesProofs SDarnFormats SDarnChecks DmapFileProofs DmapWriteFacts DmapWriteProofs BorealisTypes BorealisFormats
  BorealisChecks BorealisArrays BorealisFile BorealisSpec BorealisFileSpec BorealisRefuseSpec BorealisCheckProofs BorealisProps BorealisFileProofs
  BorealisAppendProofs.
Import ListNotations.
Open Scope list_scope.

Lemma first_of rs n r rest : NoDup (keys rs) -> sort_dict rs = (n, r) :: rest -> first_record rs n r.
Proof.
  intros HN E. pose proof (sort_sorted rs HN) as HS. pose proof (sort_perm rs) as HP. rewrite E in HS, HP. split.
  - eapply Permutation_in; [exact HP|now left].
  - intros n' Hn. assert (K : In n' (keys ((n, r) :: rest))) by (eapply Permutation_in; [symmetry; apply keys_perm; exact HP|exact Hn]).
    destruct K as [K|K]; [left; symmetry; exact K|right]. inversion HS as [|? ? _ HF]; subst. rewrite Forall_forall in HF. now apply HF.
Qed.

Lemma first_sort rs n r : NoDup (keys rs) -> first_record rs n r -> exists rest, sort_dict rs = (n, r) :: rest.
Proof. intros HN [H1 H2]. now apply first_sorted. Qed.

Lemma type_known ft t : filetype_of ft = Some t -> ft = type_name t.
Proof.
  unfold filetype_of. intros H.
  destruct (str_eqb ft (str "bfiq")) eqn:E1; [apply str_eqb_eq in E1; injection H as <-; exact E1|].
  destruct (str_eqb ft (str "antennas_iq")) eqn:E2; [apply str_eqb_eq in E2; injection H as <-; exact E2|].
  destruct (str_eqb ft (str "rawacf")) eqn:E3; [apply str_eqb_eq in E3; injection H as <-; exact E3|].
  destruct (str_eqb ft (str "rawrf")) eqn:E4; [apply str_eqb_eq in E4; injection H as <-; exact E4|discriminate H].
Qed.

Lemma hash_attr g t : has_structures t -> site_attr (format_class g t) s_hash BStr /\ array_attr (format_class g t) s_hash BStr.
Proof.
  intros HT. assert (G : dict_get (fm_single (format_class g t)) s_hash = Some BStr) by (destruct g, t; vm_compute; reflexivity).
  apply dict_get_In in G. destruct (f_hash_site _ (format_facts g t HT)) as (ty & [_ A]). destruct (f_hash_array _ (format_facts g t HT)) as (ty' & [_ B]).
  split; split; assumption.
Qed.

Lemma text_judged v h : text_of v = Ok h -> attr_ok BStr v -> v = BText h.
Proof. intros H A. inversion A; subst; cbn in H; try discriminate. now injection H as <-. Qed.

Theorem site_checked av fs name rs ft c fs' r : proper rs -> site_write av fs name (DRecords rs) ft c = (fs', r) ->
  (fs' = fs /\ exists e, r = Raise e) \/
  exists t g v, ft = type_name t /\ has_structures t /\ records_version rs v /\ supported v g /\
    forall n r, In (n, r) rs -> site_record_ok (format_class g t) r.
Proof.
  intros HP H. unfold site_write in H. destruct (filetype_of ft) as [t|] eqn:ET.
  2: { injection H as <- <-. left. eauto. }
  destruct (rlet hash := records_hash (DRecords rs) in _) as [[g rs']|e] eqn:E.
  2: { injection H as <- <-. left. eauto. }
  right. apply rbind_ok in E as (h & E1 & E). apply rbind_ok in E as (g' & E2 & E). apply rbind_ok in E as (x & E3 & E). apply ok_inj in E. injection E as -> <-.
  destruct x. cbn [records_hash] in E1. destruct (sort_dict rs) as [|[n0 r0] rest] eqn:ES; [discriminate|].
  destruct (first_of rs n0 r0 rest (proj1 HP) ES) as [F1 F2].
  apply rbind_ok in E1 as (v & V1 & V2). unfold dict_item in V1. destruct (dict_get r0 s_hash) as [v'|] eqn:EV; [|discriminate]. apply ok_inj in V1 as ->.
  assert (HT : has_structures t).
  { intros ->. destruct rs as [|[n1 r1] rs1]; [destruct F1|]. destruct (C53_rawrf g n1 r1 rs1 []) as [C _]. rewrite C in E3. discriminate. }
  pose proof (proj1 (site_check_iff g t rs HT HP) E3) as OK.
  destruct (OK n0 r0 F1) as (_ & A & _). apply dict_get_In in EV as EI.
  assert (v = BText h) as ->.
  { apply (text_judged v h V2). apply (A s_hash v BStr EI). exact (proj1 (hash_attr g t HT)). }
  unfold generation_of in E2. destruct (version_generation (version_of h)) as [g2|] eqn:EG; [|discriminate]. apply ok_inj in E2 as ->.
  exists t, g, (version_of h). split; [now apply type_known|]. split; [exact HT|]. split; [|split; [now apply supported_gen|exact OK]].
  exists n0, r0, h. split; [exact F1|]. split; [exact F2|]. split; [exact EV|]. now apply version_iff.
Qed.

Theorem array_checked av fs name a ft c fs' r : NoDup (keys a) -> array_write av fs name (DArrays a) ft c = (fs', r) ->
  (fs' = fs /\ exists e, r = Raise e) \/
  exists t g h v, ft = type_name t /\ has_structures t /\ dict_get a (str "borealis_git_hash") = Some (BText h) /\ hash_version h v /\
    supported v g /\ arrays_ok (format_class g t) a.
Proof.
  intros HP H. unfold array_write in H. destruct (filetype_of ft) as [t|] eqn:ET.
  2: { injection H as <- <-. left. eauto. }
  destruct (rlet hash := arrays_hash (DArrays a) in _) as [[g a']|e] eqn:E.
  2: { injection H as <- <-. left. eauto. }
  right. apply rbind_ok in E as (h & E1 & E). apply rbind_ok in E as (g' & E2 & E). apply rbind_ok in E as (x & E3 & E). apply ok_inj in E. injection E as -> <-.
  destruct x. cbn [arrays_hash] in E1. destruct (dict_get a s_hash) as [v|] eqn:EV; [|discriminate].
  assert (HT : has_structures t).
  { intros ->. destruct (C53_rawrf g [] [] [] a) as [_ C]. rewrite C in E3. discriminate. }
  pose proof (proj1 (arrays_ok_check g t a HT HP) E3) as OK. pose proof OK as (_ & A & _). apply dict_get_In in EV as EI.
  assert (v = BText h) as ->.
  { apply (text_judged v h E1). apply (A s_hash v BStr EI). exact (proj2 (hash_attr g t HT)). }
  unfold generation_of in E2. destruct (version_generation (version_of h)) as [g2|] eqn:EG; [|discriminate]. apply ok_inj in E2 as ->.
  exists t, g, h, (version_of h). split; [now apply type_known|]. split; [exact HT|]. split; [exact EV|]. split; [now apply version_iff|].
  split; [now apply supported_gen|exact OK].
Qed.

(** ** The errors *)

Theorem site_refused av fs name rs t c : proper rs ->
  (rs = [] -> site_write av fs name (DRecords rs) (type_name t) c = (fs, Raise BorealisStructureError)) /\
  (forall n r, first_record rs n r -> ~ In (str "borealis_git_hash") (keys r) ->
     site_write av fs name (DRecords rs) (type_name t) c = (fs, Raise KeyError)) /\
  (forall n r v, first_record rs n r -> dict_get r (str "borealis_git_hash") = Some v -> not_text v ->
     site_write av fs name (DRecords rs) (type_name t) c = (fs, Raise AttributeError)) /\
  (forall v, records_version rs v -> (forall g, ~ supported v g) ->
     site_write av fs name (DRecords rs) (type_name t) c = (fs, Raise BorealisVersionError)) /\
  (forall v g n r, has_structures t -> records_version rs v -> supported v g -> In (n, r) rs -> ~ site_record_ok (format_class g t) r ->
     exists e, site_write av fs name (DRecords rs) (type_name t) c = (fs, Raise e) /\ refusal (format_class g t) rs e).
Proof.
  intros HP. pose proof (proj1 HP) as HN. split; [|split; [|split; [|split]]].
  - intros ->. unfold site_write. rewrite type_name_of. reflexivity.
  - intros n r HF HK. destruct (first_sort rs n r HN HF) as (rest & ES). unfold site_write. rewrite type_name_of. cbn [records_hash]. rewrite ES.
    unfold dict_item. rewrite (proj2 (dict_get_none r s_hash) HK). reflexivity.
  - intros n r v HF HV NT. destruct (first_sort rs n r HN HF) as (rest & ES). unfold site_write. rewrite type_name_of. cbn [records_hash]. rewrite ES.
    unfold dict_item. fold s_hash in HV. rewrite HV. cbn [rbind]. destruct NT; [|reflexivity|reflexivity].
    destruct t0; try reflexivity; exfalso; auto.
  - intros v (n & r & h & V1 & V2 & V3 & V4) NS. destruct (first_sort rs n r HN (conj V1 V2)) as (rest & ES).
    unfold site_write. rewrite type_name_of. cbn [records_hash]. rewrite ES. unfold dict_item. fold s_hash in V3. rewrite V3. cbn [rbind text_of].
    rewrite (proj2 (version_iff h v) V4). unfold generation_of. destruct (version_generation v) as [g|] eqn:EG; [|reflexivity].
    exfalso. apply (NS g). now apply supported_gen.
  - intros v g n r HT (n0 & r0 & h & V1 & V2 & V3 & V4) HS HI NO. destruct (first_sort rs n0 r0 HN (conj V1 V2)) as (rest & ES).
    unfold site_write. rewrite type_name_of. cbn [records_hash]. rewrite ES. unfold dict_item. fold s_hash in V3. rewrite V3. cbn [rbind text_of].
    rewrite (proj2 (version_iff h v) V4). unfold generation_of. rewrite (proj1 (supported_gen v g) HS). cbn [rbind].
    pose proof (C36_report g t rs HT HP) as HR. cbv zeta in HR. pose proof (site_check_iff g t rs HT HP) as HK.
    destruct (check_site_records (format_class g t) rs) as [[]|e].
    + exfalso. apply NO. exact (proj1 HK eq_refl n r HI).
    + exists e. split; [reflexivity|]. destruct e;
      first [destruct HR as (H1 & H2 & H3 & H4 & _); now constructor
            |destruct HR as (H1 & pre & n' & r' & post & H2 & H3 & H4); econstructor; eassumption].
Qed.

Theorem array_refused av fs name a t c : NoDup (keys a) ->
  (~ In (str "borealis_git_hash") (keys a) ->
     array_write av fs name (DArrays a) (type_name t) c = (fs, Raise BorealisStructureError)) /\
  (forall v, dict_get a (str "borealis_git_hash") = Some v -> not_text v ->
     array_write av fs name (DArrays a) (type_name t) c = (fs, Raise AttributeError)) /\
  (forall h v, dict_get a (str "borealis_git_hash") = Some (BText h) -> hash_version h v -> (forall g, ~ supported v g) ->
     array_write av fs name (DArrays a) (type_name t) c = (fs, Raise BorealisVersionError)) /\
  (forall h v g, has_structures t -> dict_get a (str "borealis_git_hash") = Some (BText h) -> hash_version h v -> supported v g ->
     ~ arrays_ok (format_class g t) a ->
     exists e, array_write av fs name (DArrays a) (type_name t) c = (fs, Raise e) /\ array_verdict (format_class g t) a (Raise e)).
Proof.
  intros HN. change (str "borealis_git_hash") with s_hash. split; [|split; [|split]].
  - intros HK. unfold array_write. rewrite type_name_of. cbn [arrays_hash]. rewrite (proj2 (dict_get_none a s_hash) HK). reflexivity.
  - intros v HV NT. unfold array_write. rewrite type_name_of. cbn [arrays_hash]. rewrite HV. destruct NT; [|reflexivity|reflexivity].
    destruct t0; try reflexivity; exfalso; auto.
  - intros h v V3 V4 NS. unfold array_write. rewrite type_name_of. cbn [arrays_hash]. rewrite V3. cbn [rbind text_of].
    rewrite (proj2 (version_iff h v) V4). unfold generation_of. destruct (version_generation v) as [g|] eqn:EG; [|reflexivity].
    exfalso. apply (NS g). now apply supported_gen.
  - intros h v g HT V3 V4 HS NO. unfold array_write. rewrite type_name_of. cbn [arrays_hash]. rewrite V3. cbn [rbind text_of].
    rewrite (proj2 (version_iff h v) V4). unfold generation_of. rewrite (proj1 (supported_gen v g) HS). cbn [rbind].
    pose proof (array_check_verdict g t a HT HN) as HR. pose proof (arrays_ok_check g t a HT HN) as HK.
    destruct (check_array_dict (format_class g t) a) as [[]|e]; [exfalso; apply NO; now apply HK|].
    exists e. split; [reflexivity|exact HR].
Qed.

(** ** BorealisWrite *)

(** A dictionary is handed over as one thing; whether it holds records or arrays, the
    file is only touched after the checks. *)
Theorem write_records_checked av fs name rs ft s c fs' r : proper rs -> ~ In (str "borealis_git_hash") (keys rs) ->
  s <> Some (str "array") -> borealis_write av fs name (DRecords rs) ft s c = (fs', r) ->
  (fs' = fs /\ exists e, r = Raise e) \/
  exists t g v, ft = type_name t /\ has_structures t /\ records_version rs v /\ supported v g /\
    forall n r, In (n, r) rs -> site_record_ok (format_class g t) r.
Proof.
  intros HP NH NS H.
  assert (G : forall fs' r, site_write av fs name (DRecords rs) ft (site_compression c) = (fs', r) ->
    (fs' = fs /\ exists e, r = Raise e) \/
    exists t g v, ft = type_name t /\ has_structures t /\ records_version rs v /\ supported v g /\
      forall n r, In (n, r) rs -> site_record_ok (format_class g t) r) by (intros x y X; exact (site_checked _ _ _ _ _ _ _ _ HP X)).
  assert (K : forall fs' (r : res written),
    match site_write av fs name (DRecords rs) ft (site_compression c) with
    | (fs'', Ok _) => (fs'', Ok WroteSite) | (fs'', Raise e) => (fs'', Raise e) end = (fs', r) ->
    (fs' = fs /\ exists e, r = Raise e) \/
    exists t g v, ft = type_name t /\ has_structures t /\ records_version rs v /\ supported v g /\
      forall n r, In (n, r) rs -> site_record_ok (format_class g t) r).
  { intros x y X. destruct (site_write _ _ _ _ _ _) as [fs2 [u|e]] eqn:E; injection X as <- <-; destruct (G _ _ eq_refl) as [[-> (e' & E')]|D]; auto.
    - discriminate E'.
    - left. eauto. }
  unfold borealis_write in H. destruct s as [s|].
  - destruct (str_eqb s (str "site")) eqn:E1; [now apply K|]. destruct (str_eqb s (str "array")) eqn:E2.
    + apply str_eqb_eq in E2. subst s. now destruct NS.
    + injection H as <- <-. left. eauto.
  - unfold return_writer, array_write in H. destruct (filetype_of ft); [|cbn [falls_back] in H; injection H as <- <-; left; eauto].
    cbn [arrays_hash] in H. change (str "borealis_git_hash") with s_hash in NH. rewrite (proj2 (dict_get_none rs s_hash) NH) in H. cbn [rbind falls_back] in H. now apply K.
Qed.

(** ** Data of the other structure *)

Lemma records_to_arrays av fs name rs t c : ~ In (str "borealis_git_hash") (keys rs) ->
  array_write av fs name (DRecords rs) (type_name t) c = (fs, Raise BorealisStructureError).
Proof.
  intros H. unfold array_write. rewrite type_name_of. cbn [arrays_hash]. fold s_hash in H. now rewrite (proj2 (dict_get_none rs s_hash) H).
Qed.

(** The first name of a field in array files of a format, and whether it is a dataset. *)
Definition least_field (g : generation) (t : filetype) : option (pystr * bool) :=
  match array_single_element_types (format_class g t), array_array_dtypes (format_class g t) with
  | Ok aa, Ok ad =>
      match sort_dict (aa ++ ad) with
      | (k, _) :: _ =>
          if forallb (fun k' => str_eqb k' k || str_leb k k') (keys aa ++ keys ad) then Some (k, str_mem k (keys ad)) else None
      | [] => None
      end
  | _, _ => None
  end.

Definition least_check (g : generation) (t : filetype) : bool :=
  match least_field g t with
  | Some (k, b) =>
      match g, t with
      | G5, BRawacf => negb b && str_eqb k (str "averaging_method")
      | _, Rawrf => true
      | _, _ => b
      end
  | None => false
  end.
Lemma least_checked g t : has_structures t -> least_check g t = true.
Proof. intros HT. destruct t; [| | |exfalso; apply HT; reflexivity]; destruct g; vm_compute; reflexivity. Qed.

Lemma least_all g t : has_structures t -> exists k b, least_field g t = Some (k, b) /\
  (~ (g = G5 /\ t = BRawacf) -> b = true) /\ (g = G5 -> t = BRawacf -> b = false /\ k = str "averaging_method").
Proof.
  intros HT. pose proof (least_checked g t HT) as H. unfold least_check in H. destruct (least_field g t) as [[k b]|]; [|discriminate H].
  exists k, b. split; [reflexivity|]. split.
  - intros N. destruct t; [| | |exfalso; apply HT; reflexivity]; destruct g; try exact H. exfalso. apply N. split; reflexivity.
  - intros -> ->. apply andb_prop in H as [H1 H2]. split; [now destruct b|now apply str_eqb_eq].
Qed.

Lemma first_array g t a k b : has_structures t -> NoDup (keys a) -> arrays_ok (format_class g t) a -> least_field g t = Some (k, b) ->
  exists v rest, sort_dict a = (k, v) :: rest /\ dict_get a k = Some v /\ (b = true -> exists ty s l, v = BArr ty s l).
Proof.
  intros HT HN (K & _ & HD & _) HL. unfold least_field in HL.
  destruct (array_tables g t HT) as (aa & ad & u & E1 & E2 & _ & _ & _ & _ & A1 & A2 & _). rewrite E1, E2 in HL.
  destruct (sort_dict (aa ++ ad)) as [|[k0 ty0] rest] eqn:ES; [discriminate HL|].
  destruct (forallb _ (keys aa ++ keys ad)) eqn:EF; [|discriminate HL]. injection HL as <- <-.
  assert (HF : forall k', array_field (format_class g t) k' <-> In k' (keys aa ++ keys ad)).
  { intros k'. rewrite in_app_iff. split.
    - intros (ty & [F|F]); [left; apply A1 in F|right; apply A2 in F]; apply keys_in; eauto.
    - intros [F|F]; apply keys_in in F as (ty & F); exists ty; [left; now apply A1|right; now apply A2]. }
  assert (K0 : In k0 (keys a)).
  { apply K, HF. assert (P : In k0 (keys (aa ++ ad))).
    { eapply Permutation_in; [apply keys_perm, (sort_perm (aa ++ ad))|]. rewrite ES. now left. }
    unfold keys in *. now rewrite map_app in P. }
  destruct (proj1 (keys_in a k0) K0) as (v & HV).
  destruct (first_sorted a k0 v HN HV) as (rest' & E').
  { intros n' H. apply K, HF in H. rewrite forallb_forall in EF. apply EF in H. apply orb_true_iff in H as [H|H]; [left; now apply str_eqb_eq|].
    apply str_leb_lt in H as [H|H]; [left; now symmetry|now right]. }
  exists v, rest'. split; [exact E'|]. split; [now apply dict_get_nodup|].
  intros HB. apply str_mem_In in HB. apply keys_in in HB as (ty & HB). apply A2 in HB. destruct (HD _ _ _ HV HB); eauto.
Qed.

Theorem arrays_to_site av fs name a g t t' c : has_structures t -> NoDup (keys a) -> arrays_ok (format_class g t) a ->
  (~ (g = G5 /\ t = BRawacf) -> site_write av fs name (DArrays a) (type_name t') c = (fs, Raise BorealisStructureError)) /\
  (g = G5 -> t = BRawacf -> forall m, dict_get a (str "averaging_method") = Some (BText m) ->
     site_write av fs name (DArrays a) (type_name t') c = (fs, Raise TypeError)).
Proof.
  intros HT HN HA. destruct (least_all g t HT) as (k & b & L & L1 & L2). destruct (first_array g t a k b HT HN HA L) as (v & rest & ES & EG & EV).
  unfold site_write. rewrite type_name_of. cbn [records_hash]. rewrite ES. split.
  - intros N. destruct (EV (L1 N)) as (ty & s & l & ->). reflexivity.
  - intros G T m HM. destruct (L2 G T) as [_ ->]. rewrite EG in HM. injection HM as ->. reflexivity.
Qed.
