(** Restructuring a site file gives the arrays of its records. *)
From Coq Require Import String ZArith List Bool Lia Permutation Sorted.
From Verif Require Import Base Utf8 BytesProofs Utf8Proofs DmapFileProofs DmapWriteProofs DmapWriteFacts SDarnChecks SDarnFormats
  BorealisTypes BorealisFormats BorealisChecks BorealisArrays BorealisTime BorealisFile BorealisRestructure BorealisSpec
  BorealisFileSpec BorealisRestructureSpec BorealisShapes BorealisRestructureFileSpec BorealisCheckProofs BorealisCatalogue
  BorealisCatalogueProofs BorealisNumpyProofs BorealisFillProofs BorealisRestructFacts BorealisToArrayProofs
  BorealisRestructProofs BorealisFileProofs BorealisRestructureProofs BorealisRestructureFileProofs.
Import ListNotations.
Open Scope list_scope.
Open Scope nat_scope.

(** ** Facts about the tables *)

Definition no_text (F : format) (k : pystr) : bool := negb (single_string F k) && negb (array_string F k).

Definition to_array_facts (g : generation) (t : filetype) : bool :=
  let F := format_class g t in
  match site_single_element_types F, site_array_dtypes F, unshared_fields F with
  | Ok sa, Ok sd, Ok u =>
      forallb (fun k => str_mem k (keys sa)) (bool_fields F) &&
      forallb (fun k => negb (array_string F k) && match dict_get (fm_single F) k with Some _ => true | None => false end) (keys sa) &&
      forallb (fun k => negb (single_string F k)) (keys sd) &&
      str_mem (dims_field g t) (keys sd) && no_text F (dims_field g t) &&
      forallb (fun k => if str_mem k (keys (fm_single F)) then str_mem k (keys sa) && negb (str_mem k (fm_shared F))
                        else str_mem k (keys sd) && no_text F k) u &&
      forallb (fun p => match snd p with
                        | GCounts k => match dict_get (fm_single F) (fst p) with Some BU32 => true | _ => false end && no_text F k &&
                                       (str_eqb k (str "beam_nums") || str_eqb k (str "blanked_samples"))
                        | GNames _ _ => true
                        end) (fm_array_gen F) &&
      forallb (fun k => Bool.eqb (data_field t k)
         (str_mem k (match t with BRawacf => acf_fields | _ => [str "data"] end))) u &&
      forallb (fun k => str_mem k u) (match t with BRawacf => acf_fields | _ => [str "data"] end) &&
      (if str_mem s_ppo u then
         str_eqb (dims_field g t) (str "data_dimensions") && str_mem (str "pulses") (keys sd) && no_text F (str "pulses") &&
         match t with BRawacf => false | _ => true end
       else true) &&
      nodupb (keys (fm_single F)) && nodupb (keys (fm_array F)) &&
      forallb (fun k => negb (str_eqb k s_hash)) (keys sd)
  | _, _, _ => false
  end.
Lemma all_to_array g t : has_structures t -> to_array_facts g t = true.
Proof. unfold has_structures. destruct t; [| | |congruence]; intros _; destruct g; vm_compute; reflexivity. Qed.

Record array_tables_facts (g : generation) (t : filetype) (sa sd : dict btype) (u : list pystr) : Prop := mk_atf {
  at_bool : forall k, In k (bool_fields (format_class g t)) -> In k (keys sa);
  at_attr : forall k, In k (keys sa) -> array_string (format_class g t) k = false;
  at_dset : forall k, In k (keys sd) -> single_string (format_class g t) k = false;
  at_dims : In (dims_field g t) (keys sd) /\ no_text (format_class g t) (dims_field g t) = true;
  at_one : forall k ty, In k u -> dict_get (fm_single (format_class g t)) k = Some ty -> In k (keys sa) /\ ~ In k (fm_shared (format_class g t));
  at_many : forall k, In k u -> dict_get (fm_single (format_class g t)) k = None -> In k (keys sd) /\ no_text (format_class g t) k = true;
  at_gen : forall k kf, In (k, GCounts kf) (fm_array_gen (format_class g t)) ->
    dict_get (fm_single (format_class g t)) k = Some BU32 /\ no_text (format_class g t) kf = true /\
    (kf = str "beam_nums" \/ kf = str "blanked_samples");
  at_data : forall k, In k u -> (data_field t k = true <-> In k (match t with BRawacf => acf_fields | _ => [str "data"] end));
  at_data_in : forall k, In k (match t with BRawacf => acf_fields | _ => [str "data"] end) -> In k u;
  at_ppo : In s_ppo u -> dims_field g t = str "data_dimensions" /\ In (str "pulses") (keys sd) /\
    no_text (format_class g t) (str "pulses") = true /\ t <> BRawacf;
  at_text : forall k, text_name (format_class g t) k <-> single_string (format_class g t) k = true \/ array_string (format_class g t) k = true
}.

Lemma string_dict (d : dict btype) k : NoDup (keys d) ->
  (match dict_get d k with Some ty => is_text_type ty | None => false end = true <->
   exists ty, In (k, ty) d /\ (ty = BStr \/ ty = BNpStr)).
Proof.
  intros HN. split.
  - destruct (dict_get d k) as [ty|] eqn:E; [|discriminate]. intros H. exists ty. split; [now apply dict_get_In|].
    destruct ty; try discriminate; auto.
  - intros (ty & HI & HT). apply (dict_get_nodup _ _ _ HN) in HI. rewrite HI. destruct HT; subst; reflexivity.
Qed.

Lemma array_facts_ok g t sa sd u : has_structures t ->
  site_single_element_types (format_class g t) = Ok sa -> site_array_dtypes (format_class g t) = Ok sd ->
  unshared_fields (format_class g t) = Ok u -> array_tables_facts g t sa sd u.
Proof.
  intros HT E1 E2 E3. pose proof (all_to_array g t HT) as H. unfold to_array_facts in H. cbv zeta in H.
  rewrite E1, E2, E3 in H.
  apply andb_true_iff in H as [H H13]. apply andb_true_iff in H as [H H12]. apply andb_true_iff in H as [H H11].
  apply andb_true_iff in H as [H H10]. apply andb_true_iff in H as [H H9]. apply andb_true_iff in H as [H H8].
  apply andb_true_iff in H as [H H7]. apply andb_true_iff in H as [H H6]. apply andb_true_iff in H as [H H5].
  apply andb_true_iff in H as [H H4]. apply andb_true_iff in H as [H H3]. apply andb_true_iff in H as [H1 H2].
  rewrite forallb_forall in H1, H2, H3, H6, H7, H8, H9.
  apply nodupb_ok in H11, H12. apply str_mem_In in H4.
  constructor.
  - intros k Hk. apply str_mem_In, H1, Hk.
  - intros k Hk. apply H2 in Hk. apply andb_true_iff in Hk as [Hk _]. now apply negb_true_iff in Hk.
  - intros k Hk. apply H3 in Hk. now apply negb_true_iff in Hk.
  - now split.
  - intros k ty Hk E. apply H6 in Hk. replace (str_mem k (keys (fm_single (format_class g t)))) with true in Hk.
    + apply andb_true_iff in Hk as [A B]. split; [now apply str_mem_In|]. apply negb_true_iff in B. intros C. apply str_mem_In in C. congruence.
    + symmetry. apply str_mem_In, keys_in. exists ty. now apply dict_get_In.
  - intros k Hk E. apply H6 in Hk. apply no_mem_get in E. rewrite E in Hk. apply andb_true_iff in Hk as [A B]. split; [now apply str_mem_In|exact B].
  - intros k kf Hk. apply H7 in Hk. cbn [fst snd] in Hk. apply andb_true_iff in Hk as [Hk C]. apply andb_true_iff in Hk as [A B].
    apply orb_true_iff in C. split; [|split; [exact B|]].
    + destruct (dict_get _ k) as [[]|]; congruence.
    + destruct C as [C|C]; apply str_eqb_eq in C; auto.
  - intros k Hk. apply H8 in Hk. apply eqb_prop in Hk. rewrite Hk. apply str_mem_In.
  - intros k Hk. apply str_mem_In, H9, Hk.
  - intros Hk. apply str_mem_In in Hk. rewrite Hk in H10. rewrite !andb_true_iff in H10. destruct H10 as [[[A B] C] D].
    apply str_eqb_eq in A. apply str_mem_In in B. splits; auto. intros ->. discriminate.
  - intros k. unfold text_name, single_string, array_string. rewrite !string_dict by assumption. split.
    + intros (ty & [HI|HI] & HY); [right|left]; eauto.
    + intros [(ty & HI & HY)|(ty & HI & HY)]; exists ty; auto.
Qed.

(** ** One record *)

Lemma dget {A} (d : dict A) k v : NoDup (keys d) -> In (k, v) d -> dict_get d k = Some v.
Proof. intros N. apply (dict_get_nodup _ _ _ N). Qed.

Definition ascii_text (s : pystr) : bool := forallb (fun c => (0 <=? c)%Z && (c <? 128)%Z) s.

(** The value [vl] that BorealisRestructure loads for a value [v]. *)
Definition like (F : format) (i : hitem) (k : pystr) (vl v : bval) : Prop :=
  if single_string F k then
    exists s, v = BText s /\ ascii_text s = true /\
      (vl = BScalar BBytes (CS s) \/ (vl = BEmpty BBytes /\ s = [] /\ In k (fm_shared F)))
  else if array_string F k then
    exists ds als d, i = HGroup ds als /\ dict_get ds k = Some d /\ texts d = Ok v
  else vl = v.
Definition seen (F : format) (i : hitem) (lr r : brecord) : Prop :=
  forall k v, dict_get r k = Some v -> exists vl, dict_get lr k = Some vl /\ like F i k vl v.

Lemma like_plain F i k vl v : no_text F k = true -> like F i k vl v -> vl = v.
Proof.
  unfold no_text, like. rewrite andb_true_iff, !negb_true_iff. intros [-> ->]. auto.
Qed.
Lemma seen_plain F i lr r k v : seen F i lr r -> no_text F k = true -> dict_get r k = Some v -> dict_get lr k = Some v.
Proof. intros H N E. destruct (H k v E) as (vl & L1 & L2). apply like_plain in L2; [now subst|assumption]. Qed.

Lemma ascii_bytes b s : utf8_dec b = Some s -> plain_text s -> b = s /\ ascii_text s = true.
Proof.
  intros E [HA _]. pose proof (utf8_enc_dec _ _ E) as E2. split.
  - rewrite utf8_enc_ascii in E2; [congruence|]. exact HA.
  - unfold ascii_text. apply forallb_forall. rewrite Forall_forall in HA. intros c Hc. apply HA in Hc.
    rewrite andb_true_iff, Z.leb_le, Z.ltb_lt. exact Hc.
Qed.

(** What is in a group, as read and as loaded. *)
Lemma group_read ds als r : NoDup (keys ds) -> NoDup (keys als) -> (forall k, In k (keys ds) -> ~ In k (keys als)) ->
  read_record (HGroup ds als) = Ok r ->
  NoDup (keys r) /\
  (forall k x, dict_get als k = Some x -> str_mem k hidden_attrs = false -> exists v, read_attr x = Ok v /\ dict_get r k = Some v) /\
  (forall k d, dict_get ds k = Some d -> exists v, read_dset d = Ok v /\ dict_get r k = Some v).
Proof.
  intros N1 N2 N3 H. cbn [read_record] in H. apply rbind_ok in H as (dv & E1 & H). apply rbind_ok in H as (av & E2 & H).
  apply ok_inj in H as <-. unfold read_attrs in E2.
  pose proof (mapM_keys read_dset _ _ E1) as K1. pose proof (mapM_keys read_attr _ _ E2) as K2.
  assert (ND : NoDup (keys dv)) by now rewrite K1.
  assert (NA : NoDup (keys av)) by (rewrite K2; now apply filter_keys_nodup).
  splits.
  - apply dict_update_nodup, dict_update_nodup. constructor.
  - intros k x G HH. rewrite dict_get_update by exact NA.
    rewrite <- (filter_get (fun k => negb (str_mem k hidden_attrs)) als k) in G by (now rewrite HH).
    destruct (mapM_get read_attr _ _ _ _ E2 G) as (v & V1 & V2). exists v. now rewrite V2.
  - intros k d G. rewrite !dict_get_update by assumption.
    assert (NK : dict_get av k = None).
    { apply dict_get_none. fold (keys av). rewrite K2. intros C. apply filter_keys_in in C. apply (N3 k); [|exact C]. apply keys_in. eexists. apply dict_get_In, G. }
    rewrite NK. destruct (mapM_get read_dset _ _ _ _ E1 G) as (v & V1 & V2). exists v. now rewrite V2.
Qed.

Lemma group_loaded F ds als : NoDup (keys ds) -> NoDup (keys als) -> (forall k, In k (keys ds) -> ~ In k (keys als)) ->
  (forall k d, dict_get ds k = Some d -> hd_shape d <> []) ->
  NoDup (bool_fields F) -> (forall k, In k (bool_fields F) -> In k (keys als)) ->
  exists lr, loaded_record F (HGroup ds als) = Ok lr /\
  (forall k x, dict_get als k = Some x -> str_mem k hidden_attrs = false -> dict_get lr k = Some (attr_value x)) /\
  (forall k d, dict_get ds k = Some d -> dict_get lr k = Some (BArr (hd_type d) (hd_shape d) (hd_data d))).
Proof.
  intros N1 N2 N3 HS NB HB. cbn [loaded_record].
  destruct (mapM_pairs (fun p : pystr * hdset => fst p) (fun p => dset_value (snd p)) ds) as (dv & D1 & D2 & D3).
  { intros [k d] HI. apply (dict_get_nodup _ _ _ N1) in HI. apply HS in HI. cbn [snd]. unfold dset_value.
    destruct (hd_shape d); [contradiction|]. eauto. }
  rewrite D1. cbn [rbind].
  destruct (mapM_pairs (fun k : pystr => k) (fun k => rlet a := dict_item als k in Ok (attr_value a)) (bool_fields F)) as (bv & B1 & B2 & B3).
  { intros k Hk. apply HB in Hk. apply keys_in in Hk as (x & Hx). unfold dict_item. rewrite (dget _ _ _ N2 Hx). cbn [rbind]. eauto. }
  replace (mapM (fun k => rlet a := dict_item als k in Ok (k, attr_value a)) (bool_fields F)) with
    (mapM (fun p => rlet v := (rlet a := dict_item als p in Ok (attr_value a)) in Ok (p, v)) (bool_fields F)).
  2:{ clear. induction (bool_fields F) as [|k l IH]; cbn [mapM]; [reflexivity|]. rewrite IH. destruct (dict_item als k); reflexivity. }
  rewrite B1. cbn [rbind]. rewrite map_id in B2.
  set (av := map (fun p : pystr * hattr => (fst p, attr_value (snd p))) _).
  eexists. split; [reflexivity|].
  assert (NAV : map fst av = keys (filter (fun p : pystr * hattr => negb (str_mem (fst p) (class_attrs ++ bool_fields F))) als)).
  { unfold av, keys. rewrite map_map. reflexivity. }
  assert (NA : NoDup (map fst av)) by (rewrite NAV; now apply filter_keys_nodup).
  assert (ND : NoDup (map fst dv)) by (rewrite D2; exact N1).
  assert (NBV : NoDup (map fst bv)) by (rewrite B2; exact NB).
  split.
  - intros k x G HH. rewrite !dict_get_update by assumption.
    destruct (in_dec (list_eq_dec Z.eq_dec) k (bool_fields F)) as [HI|HI].
    + assert (I : In (k, attr_value x) bv) by (apply (B3 k); [exact HI|]; unfold dict_item; rewrite G; reflexivity).
      now rewrite (dget _ _ _ NBV I).
    + replace (dict_get bv k) with (@None bval) by (symmetry; apply dict_get_none; now rewrite B2).
      assert (I : In (k, attr_value x) av).
      { unfold av. apply in_map_iff. exists (k, x). split; [reflexivity|]. apply filter_In. split; [now apply dict_get_In|].
        cbn [fst]. apply negb_true_iff. destruct (str_mem k (class_attrs ++ bool_fields F)) eqn:E; [|reflexivity].
        apply str_mem_In, in_app_iff in E as [E|E]; [|contradiction]. exfalso.
        assert (C : str_mem k hidden_attrs = true); [|congruence]. apply str_mem_In. unfold class_attrs in E. unfold hidden_attrs.
        cbn [In] in *. tauto. }
      now rewrite (dget _ _ _ NA I).
  - intros k d G. rewrite !dict_get_update by assumption.
    assert (HK : In k (keys ds)) by (apply keys_in; eexists; apply dict_get_In, G).
    replace (dict_get bv k) with (@None bval) by (symmetry; apply dict_get_none; rewrite B2; intros C; apply HB in C; now apply (N3 k)).
    replace (dict_get av k) with (@None bval).
    2:{ symmetry. apply dict_get_none. rewrite NAV. intros C. apply filter_keys_in in C. now apply (N3 k). }
    assert (I : In (k, BArr (hd_type d) (hd_shape d) (hd_data d)) dv).
    { apply (D3 (k, d)); [now apply dict_get_In|]. cbn [snd]. apply HS in G. unfold dset_value. destruct (hd_shape d); [contradiction|reflexivity]. }
    now rewrite (dget _ _ _ ND I).
Qed.

(** The datasets and attributes of a record, as both see them. *)
Lemma loaded_like g t sa sd u i r : has_structures t -> array_tables_facts g t sa sd u ->
  (forall k ty, In (k, ty) sa <-> site_attr (format_class g t) k ty) ->
  (forall k ty, In (k, ty) sd <-> site_dset (format_class g t) k ty) ->
  NoDup (map fst (fm_single (format_class g t))) ->
  group_layout (format_class g t) i -> read_record i = Ok r ->
  BorealisSpec.site_record_ok (format_class g t) r -> storable (format_class g t) r ->
  NoDup (keys r) /\
  exists lr, loaded_record (format_class g t) i = Ok lr /\ seen (format_class g t) i lr r /\
  exists ds als, i = HGroup ds als /\
    (forall k, In k (keys sa) -> exists x v, dict_get als k = Some x /\ dict_get r k = Some v /\
       (no_text (format_class g t) k = true -> attr_value x = v) /\ read_attr x = Ok v) /\
    (forall k, In k (keys sd) -> exists d v, dict_get als k = None /\ dict_get ds k = Some d /\ dict_get r k = Some v /\
       (no_text (format_class g t) k = true -> v = BArr (hd_type d) (hd_shape d) (hd_data d))).
Proof.
  intros HT AT HA HD NS (ds & als & -> & N1 & N2 & N3 & LA & LD) HR (K1 & K2 & K3) (S1 & S2).
  pose proof (format_facts g t HT) as FF.
  destruct (group_read ds als r N1 N2 N3 HR) as (NR & RA & RD). split; [exact NR|].
  set (F := format_class g t) in *.
  assert (AK : forall k, In k (keys sa) -> exists x ty, dict_get als k = Some x /\ attr_stored F k x /\ site_attr F k ty /\ str_mem k hidden_attrs = false).
  { intros k Hk. apply keys_in in Hk as (ty & Hk). apply HA in Hk. destruct (LA k ty Hk) as (x & X1 & X2). exists x, ty. splits; auto.
    - now apply dget.
    - apply (f_site_hidden _ FF). exists ty. now left. }
  assert (DK : forall k, In k (keys sd) -> exists d ty, dict_get ds k = Some d /\ (hd_item d <> None <-> text_name F k) /\ site_dset F k ty).
  { intros k Hk. apply keys_in in Hk as (ty & Hk). apply HD in Hk. destruct (LD k ty Hk) as (d & X1 & X2). exists d, ty. splits; auto.
    now apply dget. }
  assert (SH : forall k d, dict_get ds k = Some d -> hd_shape d <> []).
  { intros k d G C. destruct (RD k d G) as (v & V & _). unfold read_dset in V. rewrite C in V. discriminate. }
  assert (NB : NoDup (bool_fields F)).
  { unfold bool_fields. clear - NS. induction (fm_single F) as [|[k ty] l IH]; cbn [filter map]; [constructor|].
    inversion NS; subst. cbn [snd]. destruct (btype_eqb ty BBool); cbn [map fst]; auto. constructor; auto.
    intros C. apply in_map_iff in C as ([k' ty'] & C1 & C2). cbn in C1. subst. apply filter_In in C2 as [C2 _].
    apply H1. apply in_map_iff. now exists (k, ty'). }
  destruct (group_loaded F ds als N1 N2 N3 SH NB) as (lr & L1 & LoA & LoD).
  { intros k Hk. apply (at_bool _ _ _ _ _ AT) in Hk. destruct (AK k Hk) as (x & _ & X & _). apply keys_in. exists x. now apply dict_get_In. }
  exists lr. split; [exact L1|].
  assert (AX : forall k, text_name F k <-> single_string F k = true \/ array_string F k = true) by exact (at_text _ _ _ _ _ AT).
  assert (TXA : forall k x v ty, dict_get als k = Some x -> attr_stored F k x -> site_attr F k ty -> read_attr x = Ok v -> dict_get r k = Some v ->
    array_string F k = false -> like F (HGroup ds als) k (attr_value x) v /\ (no_text F k = true -> attr_value x = v)).
  { intros k x v ty G1 [T1 T2] HS' RV G2 NA. pose proof (S1 k v ty (dict_get_In _ _ _ G2) HS') as KV.
    unfold like, no_text. rewrite NA. destruct (single_string F k) eqn:ES; cbn [negb andb].
    - split; [|discriminate]. assert (TN : text_name F k) by (apply (at_text _ _ _ _ _ AT); now left).
      pose proof (K2 k v ty (dict_get_In _ _ _ G2) HS') as KO.
      destruct (T1 TN) as [(b & ->)|[-> HI]].
      + cbn [read_attr] in RV. destruct (utf8_dec b) as [s|] eqn:EU; [|discriminate]. apply ok_inj in RV as <-.
        exists s. inversion KV as [s' P|]; subst. destruct (ascii_bytes b s EU P) as [-> P2]. splits; auto.
      + cbn in RV. apply ok_inj in RV as <-. exists []. splits; auto.
    - assert (TN : ~ text_name F k) by (rewrite AX, ES, NA; intros [C|C]; discriminate).
      destruct (T2 TN) as (v' & ->). cbn [read_attr] in RV. apply ok_inj in RV as <-. cbn [attr_value]. auto. }
  assert (TXD : forall k d v, dict_get ds k = Some d -> (hd_item d <> None <-> text_name F k) -> read_dset d = Ok v ->
    single_string F k = false -> like F (HGroup ds als) k (BArr (hd_type d) (hd_shape d) (hd_data d)) v /\
    (no_text F k = true -> v = BArr (hd_type d) (hd_shape d) (hd_data d))).
  { intros k d v G1 T RV NSg. destruct (read_dset_array d v RV) as (ty & s & l & _ & _ & E). unfold like, no_text. rewrite NSg. cbn [negb andb].
    rewrite AX, NSg in T. destruct (array_string F k) eqn:EA; cbn [negb].
    - split; [|discriminate]. exists ds, als, d. splits; auto. unfold texts.
      destruct (hd_item d) eqn:EI; [exact RV|]. exfalso. apply T; [now right|reflexivity].
    - assert (HN : hd_item d = None). { destruct (hd_item d) eqn:EI; [|reflexivity]. exfalso. assert (C : false = true \/ false = true) by (apply T; discriminate). destruct C; discriminate. }
      split; [symmetry|intros _]; auto. }
  split.
  - intros k v G. assert (HK : In k (keys r)) by (apply keys_in; eexists; apply dict_get_In, G).
    apply K1 in HK as (ty & [HS'|HS']).
    + assert (Hk : In k (keys sa)) by (apply keys_in; exists ty; now apply HA).
      destruct (AK k Hk) as (x & ty' & X1 & X2 & X3 & X4). destruct (RA k x X1 X4) as (v' & V1 & V2). assert (v' = v) by congruence. subst v'.
      exists (attr_value x). split; [now apply LoA|]. apply (TXA k x v ty'); auto. now apply (at_attr _ _ _ _ _ AT).
    + assert (Hk : In k (keys sd)) by (apply keys_in; exists ty; now apply HD).
      destruct (DK k Hk) as (d & ty' & X1 & X2 & X3). destruct (RD k d X1) as (v' & V1 & V2). assert (v' = v) by congruence. subst v'.
      exists (BArr (hd_type d) (hd_shape d) (hd_data d)). split; [now apply LoD|]. apply (TXD k d v); auto. now apply (at_dset _ _ _ _ _ AT).
  - exists ds, als. split; [reflexivity|]. split.
    + intros k Hk. destruct (AK k Hk) as (x & ty' & X1 & X2 & X3 & X4). destruct (RA k x X1 X4) as (v & V1 & V2).
      exists x, v. splits; auto. apply (TXA k x v ty'); auto. now apply (at_attr _ _ _ _ _ AT).
    + intros k Hk. destruct (DK k Hk) as (d & ty' & X1 & X2 & X3). destruct (RD k d X1) as (v & V1 & V2).
      exists d, v. splits; auto.
      * apply dict_get_none. apply N3. apply keys_in. exists d. now apply dict_get_In.
      * apply (TXD k d v); auto. now apply (at_dset _ _ _ _ _ AT).
Qed.
