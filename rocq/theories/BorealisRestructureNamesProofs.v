(** Proofs about the groups that restructuring an array file makes. *)
From Coq Require Import String ZArith List Bool Lia.
From Verif Require Import Base BytesProofs SDarnFormats BorealisTypes BorealisFormats BorealisChecks BorealisArrays
  BorealisTime BorealisFile BorealisRestructure BorealisSpec BorealisFileSpec BorealisRestructureSpec BorealisAppendSpec BorealisRestructureNamesSpec
  BorealisCheckProofs BorealisFileProofs BorealisRestructureProofs DmapFileProofs SDarnChecks BorealisNumpyProofs BorealisRestructProofs
  BorealisRestructureToSiteProofs DmapWriteProofs DmapWriteFacts BorealisFillProofs.
Import ListNotations.
Open Scope list_scope.
Open Scope Z_scope.

Definition row_name (row : list cell) (n : pystr) : Prop := exists b tl, row = CZ b :: tl /\ record_name b = Ok n.

Lemma ppo_fix_keys rs rs' : ppo_site_fix rs = Ok rs' -> keys rs' = keys rs.
Proof.
  revert rs'. induction rs as [|[n r] rs IH]; intros rs' H; cbn [ppo_site_fix] in H; [apply ok_inj in H as <-; reflexivity|].
  apply rbind_ok in H as (r' & _ & H). apply rbind_ok in H as (rs'' & E & H). apply ok_inj in H as <-. unfold keys in *. cbn [map fst]. f_equal. exact (IH _ E).
Qed.
Lemma record_of_row F sa f row rec rs : site_record_of_file F sa f row rec = Ok rs -> exists n x, rs = [(n, x)] /\ row_name row n.
Proof.
  unfold site_record_of_file. intros H. destruct row as [|[b| |] tl]; try discriminate H.
  apply rbind_ok in H as (n & N & H). apply rbind_ok in H as (r & _ & H). apply rbind_ok in H as (rs1 & F1 & H).
  apply rbind_ok in H as (rs2 & F2 & H). apply rbind_ok in H as (u & _ & H). apply ok_inj in H as <-.
  apply flatten_keys in F1. apply ppo_fix_keys in F2. rewrite F1 in F2. destruct rs2 as [|[n' x] [|]]; try discriminate F2.
  injection F2 as ->. exists n, x. split; [reflexivity|]. exists b, tl. auto.
Qed.

(** What [write_records] does with one record. *)
Lemma write_one av F fs o n x c f0 fs' r : h5_append fs o = Ok f0 -> group_name n -> write_records av F fs o [(n, x)] c = (fs', r) ->
  (exists i, is_group i /\ ~ In n (keys (h_items f0)) /\ fs' = h5_close fs o (mk_hfile (h_items f0 ++ [(n, i)]) (h_attrs f0))) \/
  (r <> Ok tt /\ (fs' = fs \/ In n (keys (h_items f0)) /\ fs' = h5_close fs o f0)).
Proof.
  intros HA HG H. unfold write_records in H. rewrite HA in H.
  destruct (site_single_element_types F) as [sa|e]; [|injection H as <- <-; right; split; [discriminate|now left]].
  destruct (site_array_dtypes F) as [sd|e]; [|injection H as <- <-; right; split; [discriminate|now left]].
  cbn [write_groups] in H. rewrite (plain_name_ok n HG) in H. cbn [negb] in H.
  destruct (dict_get (h_items f0) n) as [i|] eqn:EG.
  - injection H as <- <-. right. split; [discriminate|right]. split; [|reflexivity]. apply keys_in. exists i. now apply dict_get_In.
  - assert (NI : ~ In n (keys (h_items f0))).
    { intros C. apply keys_in in C as (i & C). apply dict_get_none in EG. apply EG. change n with (fst (n, i)). now apply in_map. }
    destruct (write_fields av (map fst sa) c x [] []) as [[gd ga] e] eqn:EW. left. exists (HGroup gd ga). split; [now exists gd, ga|]. split; [exact NI|].
    rewrite dict_set_fresh in H by exact NI. destruct e as [[]|e]; injection H as <- _; reflexivity.
Qed.

Lemma close_close fs o f1 f2 n : h5_close (h5_close fs o f1) o f2 n = h5_close fs o f2 n.
Proof. unfold h5_close. destruct (str_eqb n o); reflexivity. Qed.

Lemma loop_groups av F sa f o c : forall times rec fs f0 fs' r, h5_append fs o = Ok f0 ->
  site_file_loop av F sa f o c times rec fs = (fs', r) ->
  exists its, (holds fs' o (mk_hfile (h_items f0 ++ its) (h_attrs f0)) \/ (its = [] /\ fs' o = fs o)) /\
    Forall (fun p => is_group (snd p)) its /\ NoDup (keys its) /\ (forall n, In n (keys its) -> ~ In n (keys (h_items f0))) /\
    (forall j n, nth_error (keys its) j = Some n -> exists row, nth_error times j = Some row /\ row_name row n) /\
    (r = Ok tt -> length its = length times).
Proof.
  induction times as [|row times IH]; intros rec fs f0 fs' r HA H; cbn [site_file_loop] in H.
  - injection H as <- <-. exists []. split; [right; split; reflexivity|]. split; [apply Forall_nil|]. split; [apply NoDup_nil|]. split; [intros n []|]. split; [intros [|j] n E; discriminate E|]. reflexivity.
  - destruct (site_record_of_file F sa f row rec) as [rs|e] eqn:ER.
    2: { injection H as <- <-. exists []. split; [right; split; reflexivity|]. split; [apply Forall_nil|]. split; [apply NoDup_nil|]. split; [intros n []|]. split; [intros [|j] n E; discriminate E|]. discriminate. }
    destruct (record_of_row _ _ _ _ _ _ ER) as (n & x & -> & RN). assert (GN : group_name n).
    { destruct RN as (b & tl & _ & N). exact (record_name_group b n N). }
    destruct (write_records av F fs o [(n, x)] c) as [fs1 r1] eqn:EW.
    destruct (write_one _ _ _ _ _ _ _ _ _ _ HA GN EW) as [(i & GI & NI & ->)|[NE W]].
    + destruct r1 as [u|e].
      * assert (HA1 : h5_append (h5_close fs o (mk_hfile (h_items f0 ++ [(n, i)]) (h_attrs f0))) o = Ok (mk_hfile (h_items f0 ++ [(n, i)]) (h_attrs f0))) by apply append_close.
        destruct (IH _ _ _ _ _ HA1 H) as (its & I1 & I2 & I3 & I4 & I5 & I6). cbn [h_items h_attrs] in *. exists ((n, i) :: its).
        split; [|split; [|split; [|split; [|split]]]].
        -- left. rewrite <- app_assoc in I1. cbn [app] in I1. destruct I1 as [I1|[-> I1]]; [exact I1|]. unfold holds. rewrite I1. unfold h5_close. now rewrite str_eqb_refl.
        -- constructor; [exact GI|exact I2].
        -- unfold keys in *. cbn [map fst]. constructor; [|exact I3]. intros C. apply I4 in C. apply C. rewrite map_app. apply in_or_app. right. now left.
        -- intros m [<-|C]; [exact NI|]. intros D. apply (I4 m C). unfold keys in *. rewrite map_app. apply in_or_app. now left.
        -- intros [|j] m E; [cbn in E; injection E as <-; exists row; split; [reflexivity|exact RN]|]. exact (I5 j m E).
        -- intros E. cbn [length]. now rewrite (I6 E).
      * injection H as <- <-. exists [(n, i)]. split; [|split; [|split; [|split; [|split]]]].
        -- left. unfold holds, h5_close. now rewrite str_eqb_refl.
        -- constructor; [exact GI|constructor].
        -- constructor; [intros []|constructor].
        -- intros m [<-|[]]. exact NI.
        -- intros [|j] m E; [cbn in E; injection E as <-; exists row; split; [reflexivity|exact RN]|]. destruct j; discriminate E.
        -- discriminate.
    + destruct r1 as [[]|e]; [congruence|]. injection H as <- <-. exists []. split; [|split; [apply Forall_nil|split; [apply NoDup_nil|split; [|split; [|discriminate]]]]].
      * destruct W as [-> |[NI ->]]; [right; split; reflexivity|]. left. rewrite app_nil_r. destruct f0. unfold holds, h5_close. now rewrite str_eqb_refl.
      * intros m [].
      * intros [|j] m E; discriminate E.
Qed.

Lemma nth_skip {A} w (l : list A) j : nth_error (skipn w l) j = nth_error l (w + j).
Proof. revert l. induction w as [|w IH]; intros l; [reflexivity|]. destruct l as [|x l]; [destruct j; reflexivity|]. exact (IH l). Qed.
Lemma rows_first {A} k w (l : list A) j row (x : A) tl : nth_error (rows k w l) j = Some row -> row = x :: tl -> nth_error l (j * w) = Some x.
Proof.
  revert l j. induction k as [|k IH]; intros l j H E; [destruct j; discriminate H|]. destruct j as [|j]; cbn [rows nth_error] in H.
  - injection H as <-. destruct l as [|y l]; [destruct w; discriminate E|]. destruct w; [discriminate E|]. cbn in E. injection E as -> _. reflexivity.
  - specialize (IH _ _ H E). cbn [Nat.mul]. rewrite nth_skip in IH. exact IH.
Qed.

Lemma rows_of_times F sa f times : NoDup (keys (h_items f)) -> timestamp_rows F sa f = Ok times ->
  (forall j row n, nth_error times j = Some row -> row_name row n -> exists b, row_time f j b /\ record_name b = Ok n) /\
  (forall n, time_rows f n -> length times = n).
Proof.
  intros ND H. unfold timestamp_rows in H. apply rbind_ok in H as (x1 & _ & H). apply rbind_ok in H as (x2 & _ & H). apply rbind_ok in H as (x3 & _ & H).
  apply rbind_ok in H as (d & RD & H). apply rbind_ok in H as (v & W & H).
  unfold root_dset in RD. destruct (dict_get (h_items f) (str "sqn_timestamps")) as [[ds als|d' al]|] eqn:ED; try discriminate RD. apply ok_inj in RD. subst d'.
  unfold whole in W. destruct (hd_shape d) as [|n ds] eqn:ES; [discriminate W|]. apply ok_inj in W as <-.
  assert (TR : forall n', time_rows f n' -> n' = n).
  { intros n' (d' & al' & ds' & I & E). apply (dict_in_get _ _ _ ND) in I. rewrite ED in I. injection I as <- <-. rewrite ES in E. now injection E as ->. }
  apply dict_get_In in ED.
  destruct ds as [|w [|]].
  - destruct n; [|discriminate H]. apply ok_inj in H as <-. split; [intros [|j] row m E; discriminate E|]. intros m T. now rewrite (TR m T).
  - assert (times = rows n w (hd_data d)) as -> by (destruct (time_type _); [|destruct n; discriminate H]; destruct n; apply ok_inj in H; now subst). split.
    + intros j row m E (b & tl & -> & N). exists b. split; [|exact N]. exists d, al, n, w. split; [exact ED|]. split; [exact ES|].
      split; [|exact (rows_first _ _ _ _ _ _ _ E eq_refl)]. rewrite <- (rows_length n w (hd_data d)). apply nth_error_Some. congruence.
    + intros m T. now rewrite rows_length, (TR m T).
  - destruct n; discriminate H.
Qed.

Lemma restructure_groups av fs i o f ft c f0 fs' r : holds fs i f -> NoDup (keys (h_items f)) -> array_file f -> output_before fs o f0 ->
  restructure av fs i o ft (str "site") c = (fs', r) ->
  exists its, (holds fs' o (mk_hfile (h_items f0 ++ its) (h_attrs f0)) \/ (its = [] /\ fs' o = fs o)) /\
    Forall (fun p => is_group (snd p)) its /\ NoDup (keys its) /\ (forall n, In n (keys its) -> ~ In n (keys (h_items f0))) /\
    (forall j n, nth_error (keys its) j = Some n -> exists b, row_time f j b /\ record_name b = Ok n) /\
    (r = Ok tt -> forall n, time_rows f n -> length its = n).
Proof.
  intros HF ND HA HO H.
  assert (NOTHING : r <> Ok tt -> fs' = fs ->
    exists its : dict hitem, (holds fs' o (mk_hfile (h_items f0 ++ its) (h_attrs f0)) \/ (its = [] /\ fs' o = fs o)) /\
    Forall (fun p => is_group (snd p)) its /\ NoDup (keys its) /\ (forall n, In n (keys its) -> ~ In n (keys (h_items f0))) /\
    (forall j n, nth_error (keys its) j = Some n -> exists b, row_time f j b /\ record_name b = Ok n) /\
    (r = Ok tt -> forall n, time_rows f n -> length its = n)).
  { intros NE ->. exists []. split; [auto|]. split; [apply Forall_nil|]. split; [apply NoDup_nil|]. split; [intros n []|]. split; [intros [|j] n E; discriminate E|]. congruence. }
  unfold restructure in H. destruct (restructured_type ft) as [t|]; [|injection H as <- <-; apply NOTHING; [discriminate|reflexivity]].
  destruct (negb _); [injection H as <- <-; apply NOTHING; [discriminate|reflexivity]|].
  destruct (str_eqb i o); [injection H as <- <-; apply NOTHING; [discriminate|reflexivity]|].
  unfold h5_open in H. unfold holds in HF. rewrite HF in H. cbn [rbind] in H.
  assert (BS : borealis_structure (record_names f) = str "array") by (apply structure_iff; left; split; [reflexivity|exact HA]).
  destruct (input_format f) as [[have g]|e] eqn:EI; [|injection H as <- <-; apply NOTHING; [discriminate|reflexivity]]. cbn [rbind] in H.
  assert (have = str "array") as ->.
  { unfold input_format in EI. cbv zeta in EI. rewrite BS in EI. apply rbind_ok in EI as (v & _ & EI). destruct (version_generation v); [|discriminate EI].
    apply ok_inj in EI. now injection EI as <- _. }
  change (str_eqb (str "array") (str "site")) with false in H. cbv beta iota zeta in H.
  destruct (negb _); [injection H as <- <-; apply NOTHING; [discriminate|reflexivity]|].
  change (str_eqb (str "site") (str "site")) with true in H. cbv iota in H. unfold array_to_site_file in H.
  destruct (site_single_element_types _) as [sa|e]; [|injection H as <- <-; apply NOTHING; [discriminate|reflexivity]].
  destruct (timestamp_rows _ _ _) as [times|e] eqn:ET; [|injection H as <- <-; apply NOTHING; [destruct e; discriminate|reflexivity]].
  destruct (site_file_loop _ _ _ _ _ _ _ _ _) as [fs1 r1] eqn:EL. injection H as <- <-.
  assert (AP : h5_append fs o = Ok f0) by (unfold h5_append; destruct HO as [HO|[HO ->]]; [unfold holds in HO|]; now rewrite HO).
  destruct (loop_groups _ _ _ _ _ _ _ _ _ _ _ _ AP EL) as (its & I1 & I2 & I3 & I4 & I5 & I6).
  destruct (rows_of_times _ _ _ _ ND ET) as [R1 R2].
  exists its. split; [exact I1|]. split; [exact I2|]. split; [exact I3|]. split; [exact I4|]. split.
  - intros j n E. destruct (I5 j n E) as (row & E1 & E2). exact (R1 j row n E1 E2).
  - intros E n T. rewrite <- (R2 n T). apply I6. destruct r1 as [[]|e]; [reflexivity|destruct e; discriminate E].
Qed.

Lemma row_time_det f j b b' : NoDup (keys (h_items f)) -> row_time f j b -> row_time f j b' -> b = b'.
Proof.
  intros ND (d & al & n & w & I & S & _ & E) (d' & al' & n' & w' & I' & S' & _ & E').
  apply (dict_in_get _ _ _ ND) in I, I'. rewrite I in I'. injection I' as <- <-. rewrite S in S'. injection S' as <- <-. congruence.
Qed.

Lemma wrapped r : wrap_restructure (A := unit) r = Ok tt \/ wrap_restructure r = Raise BorealisRestructureError \/ wrap_restructure r = Raise OutOfModel.
Proof. destruct r as [[]|[]]; cbn; auto. Qed.

Lemma site_types_ok g t : has_structures t -> exists sa, site_single_element_types (format_class g t) = Ok sa.
Proof. intros HT. destruct g, t; try (now elim HT); eexists; vm_compute; reflexivity. Qed.

Lemma restructure_errors av fs i o f t c v g fs' r : has_structures t -> i <> o -> holds fs i f -> NoDup (keys (h_items f)) -> array_file f ->
  has_version f v -> supported v g -> restructure av fs i o (type_name t) (str "site") c = (fs', r) ->
  r = Ok tt \/ r = Raise BorealisRestructureError \/ r = Raise OutOfModel.
Proof.
  intros HT HO HF ND HA HV HG H. rewrite (restructure_start av fs i o f t (str "site") c v HT (or_introl eq_refl) HO HF ND HV) in H.
  apply supported_gen in HG. rewrite HG in H.
  assert (BS : borealis_structure (record_names f) = str "array") by (apply structure_iff; left; split; [reflexivity|exact HA]).
  rewrite BS in H. change (str_eqb (str "array") (str "site")) with false in H. change (str_eqb (str "site") (str "site")) with true in H. cbv iota in H.
  unfold array_to_site_file in H. destruct (site_types_ok g t HT) as (sa & SA). rewrite SA in H.
  destruct (timestamp_rows _ _ _) as [times|e].
  - destruct (site_file_loop _ _ _ _ _ _ _ _ _) as [fs1 r1]. injection H as _ <-. apply wrapped.
  - injection H as _ <-. exact (wrapped (Raise e)).
Qed.

(** Two rows with the same name, or a name that is there already. *)
Lemma restructure_clash av fs i o f t c v g f0 n j b nm fs' r : has_structures t -> i <> o -> holds fs i f -> NoDup (keys (h_items f)) -> array_file f ->
  has_version f v -> supported v g -> output_before fs o f0 -> time_rows f n -> row_time f j b -> record_name b = Ok nm ->
  (In nm (keys (h_items f0)) \/ exists k b', k <> j /\ row_time f k b' /\ record_name b' = Ok nm) ->
  restructure av fs i o (type_name t) (str "site") c = (fs', r) ->
  r = Raise BorealisRestructureError \/ r = Raise OutOfModel.
Proof.
  intros HT HO HF ND HA HV HG OB TR RT RN CL H.
  destruct (restructure_errors _ _ _ _ _ _ _ _ _ _ _ HT HO HF ND HA HV HG H) as [-> |E]; [exfalso|exact E].
  destruct (restructure_groups _ _ _ _ _ _ _ _ _ _ HF ND HA OB H) as (its & _ & _ & I3 & I4 & I5 & I6). specialize (I6 eq_refl n TR).
  assert (LN : forall k b', row_time f k b' -> record_name b' = Ok nm -> nth_error (keys its) k = Some nm).
  { intros k b' R N. assert (k < length (keys its))%nat.
    { unfold keys. rewrite map_length, I6. destruct R as (d & al & n' & w & I & S & L & _). destruct TR as (d' & al' & ds & I' & S').
      apply (dict_in_get _ _ _ ND) in I, I'. rewrite I in I'. injection I' as <- <-. rewrite S in S'. injection S' as <- _. exact L. }
    destruct (nth_error (keys its) k) as [m|] eqn:E; [|apply nth_error_None in E; lia].
    destruct (I5 k m E) as (b2 & R2 & N2). rewrite (row_time_det f k b' b2 ND R R2) in N. congruence. }
  pose proof (LN j b RT RN) as LJ. destruct CL as [C|(k & b' & NE & RK & NK)].
  - apply (I4 nm); [now apply nth_error_In in LJ|exact C].
  - pose proof (LN k b' RK NK) as LK. apply NE. rewrite NoDup_nth_error in I3. apply I3; [apply nth_error_Some; congruence|congruence].
Qed.

(** Without timestamps nothing is written. *)
Lemma restructure_empty av fs i o f ft c fs' r : holds fs i f -> NoDup (keys (h_items f)) -> array_file f -> time_rows f 0 ->
  restructure av fs i o ft (str "site") c = (fs', r) -> fs' = fs.
Proof.
  intros HF ND HA HT H. unfold restructure in H. destruct (restructured_type ft) as [t|]; [|now injection H as <- _].
  destruct (negb _); [now injection H as <- _|]. destruct (str_eqb i o); [now injection H as <- _|].
  unfold h5_open in H. unfold holds in HF. rewrite HF in H. cbn [rbind] in H.
  assert (BS : borealis_structure (record_names f) = str "array") by (apply structure_iff; left; split; [reflexivity|exact HA]).
  destruct (input_format f) as [[have g]|e] eqn:EI; [|now injection H as <- _]. cbn [rbind] in H.
  assert (have = str "array") as ->.
  { unfold input_format in EI. cbv zeta in EI. rewrite BS in EI. apply rbind_ok in EI as (v & _ & EI). destruct (version_generation v); [|discriminate EI].
    apply ok_inj in EI. now injection EI as <- _. }
  change (str_eqb (str "array") (str "site")) with false in H. cbv beta iota zeta in H.
  destruct (negb _); [now injection H as <- _|].
  change (str_eqb (str "site") (str "site")) with true in H. cbv iota in H. unfold array_to_site_file in H.
  destruct (site_single_element_types _) as [sa|e]; [|now injection H as <- _].
  destruct (timestamp_rows _ _ _) as [times|e] eqn:ET; [|now injection H as <- _].
  destruct (rows_of_times _ _ _ _ ND ET) as [_ R2]. specialize (R2 _ HT). destruct times; [|discriminate R2]. now injection H as <- _.
Qed.
