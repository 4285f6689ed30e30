(** Site to array, for consistent records. *)
From Coq Require Import String ZArith List Bool Lia.
From Verif Require Import Base SDarnFormats BorealisTypes BorealisFormats BorealisChecks BorealisArrays
  BytesProofs DmapWriteProofs DmapWriteFacts DmapFileProofs SDarnChecks BorealisSpec BorealisCheckProofs
  BorealisCatalogue BorealisCatalogueProofs BorealisShapes BorealisNumpyProofs BorealisFillProofs
  BorealisRestructFacts.
Import ListNotations.
Open Scope list_scope.
Open Scope nat_scope.

(** ** Reshaping the flat data *)

Lemma reshape_field_ok ty s data n sh : length data = size sh ->
  reshape_field (BArr BU32 [n] (map (fun d => CZ (Z.of_nat d)) sh)) (BArr ty s data) = Ok (BArr ty sh data).
Proof.
  intros H. unfold reshape_field. cbn [is_int_type].
  assert (E : mapM (fun c => match c with CZ z => reshape_dim z | _ => Raise OutOfModel end)
     (map (fun d => CZ (Z.of_nat d)) sh) = Ok sh).
  { apply mapM_Forall2. induction sh as [|d sh IH] in |- *; cbn [map]; constructor; [|exact IH].
    unfold reshape_dim. destruct (Z.ltb_spec (Z.of_nat d) 0); [lia|]. now rewrite Nat2Z.id. }
  rewrite E. cbn [rbind]. now rewrite H, Nat.eqb_refl.
Qed.

Definition with_shape (sh : list nat) (o : option bval) : option bval :=
  match o with Some (BArr ty _ data) => Some (BArr ty sh data) | o => o end.

Lemma reshape_record_ok n sh fs : NoDup fs -> forall r,
  (forall f, In f fs -> exists ty s data, dict_get r f = Some (BArr ty s data) /\ length data = size sh) ->
  exists r2, reshape_record (BArr BU32 [n] (map (fun d => CZ (Z.of_nat d)) sh)) fs r = Ok r2 /\
    (forall k, In k fs -> dict_get r2 k = with_shape sh (dict_get r k)) /\
    (forall k, ~ In k fs -> dict_get r2 k = dict_get r k).
Proof.
  induction 1 as [|f fs Hf HN IH]; intros r H; cbn [reshape_record].
  - exists r. splits; auto; intros k [].
  - destruct (H f) as (ty & s & data & E & L); [now left|]. unfold dict_item. rewrite E. cbn [rbind].
    rewrite reshape_field_ok by assumption. cbn [rbind].
    destruct (IH (dict_set r f (BArr ty sh data))) as (r2 & E2 & H2 & H3).
    { intros k Hk. destruct (H k) as (ty' & s' & d' & Ek & Lk); [now right|].
      rewrite dict_get_set. destruct (str_eqb f k) eqn:EQ; [|eauto]. apply str_eqb_eq in EQ. now subst. }
    exists r2. rewrite E2. splits; auto.
    + intros k [<-|Hk].
      * rewrite H3 by assumption. rewrite dict_get_set, str_eqb_refl, E. reflexivity.
      * rewrite H2 by assumption. rewrite dict_get_set. destruct (str_eqb f k) eqn:EQ; [|reflexivity].
        apply str_eqb_eq in EQ. now subst.
    + intros k Hk. rewrite H3 by (intros C; apply Hk; now right). rewrite dict_get_set.
      destruct (str_eqb f k) eqn:EQ; [|reflexivity]. apply str_eqb_eq in EQ. subst. exfalso. apply Hk. now left.
Qed.

(** ** Records with their sizes and their reshaped form *)

Record quad : Type := mk_quad { q_c : counts; q_name : pystr; q_r : brecord; q_r2 : brecord }.

Definition q_rec (q : quad) : pystr * brecord := (q_name q, q_r q).
Definition q_rec2 (q : quad) : pystr * brecord := (q_name q, q_r2 q).

Definition reshaped (g : generation) (t : filetype) (z : sizes) (q : quad) : Prop :=
  (forall k, flat g t k = false -> dict_get (q_r2 q) k = dict_get (q_r q) k) /\
  (forall k, flat g t k = true -> dict_get (q_r2 q) k = with_shape (shape_of t z (q_c q) k) (dict_get (q_r q) k)).

Lemma flat_layout g t k : flat g t k = true -> layout t k = data_layout t.
Proof.
  unfold flat. rewrite andb_true_iff. intros [H _]. apply data_field_names in H.
  unfold data_names in H. cbn [In] in H. repeat destruct H as [H|H]; try contradiction; subst; vm_compute; reflexivity.
Qed.

Lemma many_in_ok g t dims k ty : many_in g t dims k ty = true ->
  In k (map fst dims) /\ dict_get (fm_single (format_class g t)) k = None /\
  dict_get (fm_array (format_class g t)) k = Some ty.
Proof.
  unfold many_in. cbv zeta. rewrite !andb_true_iff. intros [[H1 H2] H3]. apply str_mem_In in H1. splits; auto.
  - destruct (dict_get (fm_single _) k); congruence.
  - destruct (dict_get (fm_array _) k); [|discriminate]. apply btype_eqb_eq in H3. now subst.
Qed.

(** Maxima. *)
Lemma list_max_in l x : In x l -> x <= list_max l.
Proof. intros H. pose proof (proj1 (list_max_le l (list_max l)) (Nat.le_refl _)) as G. rewrite Forall_forall in G. now apply G. Qed.

Lemma list_max_const l x : l <> [] -> (forall y, In y l -> y = x) -> list_max l = x.
Proof.
  induction l as [|a l IH]; intros H0 H; [contradiction|]. cbn [list_max fold_right] in *.
  change (fold_right Nat.max 0 l) with (list_max l). rewrite (H a) by now left.
  destruct l as [|b l]; [cbn; lia|]. rewrite IH; [lia|discriminate|]. intros; apply H; now right.
Qed.

(** The shapes of pulse_phase_offset. *)
Lemma ppo_cases cs f : ppo_shapes cs f ->
  (forall c, f c = [0]) \/
  (exists p, (forall c, f c = [p]) /\ 1 <= p /\ forall c, In c cs -> p <= c_seq c <= length cs * p) \/
  (exists q, (forall c, f c = [c_seq c; q]) /\ 1 <= q).
Proof. intros H. destruct H; [left; reflexivity|right; left; eauto|right; right; eauto]. Qed.

Lemma choose_all {A B} (R : A -> B -> Prop) l : (forall x, In x l -> exists y, R x y) -> exists l', Forall2 R l l'.
Proof.
  induction l as [|x l IH]; intros H; [exists []; constructor|]. destruct (H x) as (y & Hy); [now left|].
  destruct IH as (l' & HL); [intros; apply H; now right|]. exists (y :: l'). now constructor.
Qed.

Lemma forall2_map_l {A B C} (R : B -> C -> Prop) (u : A -> B) l m : Forall2 (fun x y => R (u x) y) l m -> Forall2 R (map u l) m.
Proof. induction 1; cbn; constructor; auto. Qed.
Lemma forall2_nth {A B} (R : A -> B -> Prop) l m i x : Forall2 R l m -> nth_error l i = Some x ->
  exists y, nth_error m i = Some y /\ R x y.
Proof.
  intros H. revert i. induction H as [|a b l m HR H IH]; intros [|i] Hi; cbn [nth_error] in *; try discriminate.
  - inversion Hi; subst. eauto.
  - auto.
Qed.
Lemma forall2_in {A B} (R : A -> B -> Prop) l m x : Forall2 R l m -> In x l -> exists y, In y m /\ R x y.
Proof.
  induction 1 as [|a b l m HR H IH]; intros Hx; [contradiction|]. destruct Hx as [->|Hx].
  - exists b. split; [now left|assumption].
  - destruct (IH Hx) as (y & Y1 & Y2). exists y. split; [now right|assumption].
Qed.
Lemma forall2_weak {A B} (R S : A -> B -> Prop) l m : (forall x y, R x y -> S x y) -> Forall2 R l m -> Forall2 S l m.
Proof. induction 2; constructor; auto. Qed.
Lemma forall2_mid {A B C} (R : A -> B -> Prop) (S : B -> C -> Prop) l m :
  Forall2 (fun x y => exists p, R x p /\ S p y) l m -> exists mid, Forall2 R l mid /\ Forall2 S mid m.
Proof.
  induction 1 as [|x y l m (p & A1 & A2) H (mid & M1 & M2)]; [exists []; auto|]. exists (p :: mid). auto.
Qed.
Lemma forall2_fst {A B C} (l : list (A * B)) (m : list (A * C)) :
  Forall2 (fun x y => fst x = fst y) l m -> map fst l = map fst m.
Proof. induction 1; cbn; congruence. Qed.

Lemma site_to_array_eq (F : format) records rs nm first rest : fm_restructureable F = true ->
  reshape_site_arrays F records = Ok rs -> rs = (nm, first) :: rest ->
  site_to_array F records =
  rlet shared := mapM (fun f => rlet v := dict_item first f in Ok (f, v)) (fm_shared F) in
  rlet spec := mapM (fun p => rlet v := agen_eval rs (snd p) in Ok (fst p, v)) (fm_array_gen F) in
  rlet dims := fm_dims_array F in
  rlet temps := mapM (temp_init F rs) dims in
  rlet temps := fill_loop first rs 0 temps in
  let arrays := map (fun p => (fst p, temp_value (length rs) (snd p))) temps in
  Ok (dict_update (dict_update (dict_update [] shared) spec) arrays).
Proof. intros H1 H2 ->. unfold site_to_array. rewrite H1, H2. reflexivity. Qed.

Lemma concat_single {A B} (h : A -> B) l : concat (map (fun x => [h x]) l) = map h l.
Proof. induction l as [|x l IH]; cbn; [reflexivity|now rewrite IH]. Qed.

Lemma layout_cons t k : layout t k <> [].
Proof. unfold layout. repeat destruct (is_one_of k _); try discriminate; destruct t; discriminate. Qed.

Lemma forall2_from_nth {A B} (P : A -> B -> Prop) l m : length l = length m ->
  (forall i x, nth_error l i = Some x -> exists y, nth_error m i = Some y /\ P x y) -> Forall2 P l m.
Proof.
  revert m. induction l as [|x l IH]; intros [|y m] HL H; try discriminate; constructor.
  - destruct (H 0 x eq_refl) as (y' & E & HP). cbn in E. inversion E; subst. exact HP.
  - apply IH; [now inversion HL|]. intros i x' Hi. apply (H (S i) x' Hi).
Qed.

(** Cells of a row. *)
Lemma row_cell {A} ds n i (data : list A) idx : length data = n * size ds -> i < n -> Forall2 lt idx ds ->
  nth_error data (offset (n :: ds) (i :: idx)) = nth_error (row_of ds i data) (offset ds idx).
Proof.
  intros HL Hi HX. unfold row_of. cbn [offset]. pose proof (offset_lt _ _ HX) as HO.
  now apply (nth_error_split_row n).
Qed.

Lemma blank_of ty c : fill_cell ty = Ok c -> c = blank_cell ty.
Proof. destruct ty; cbn; intros H; inversion H; reflexivity. Qed.

Lemma array_names_tables g t : has_structures t -> exists ty,
  In (names_field g t, GNames ty (array_dim_names t)) (fm_array_gen (format_class g t)) /\
  ty = match g, t with G7, BRawacf => BBytes | _, _ => BNpStr end.
Proof.
  intros H. assert (G : forall ty, dict_get (fm_array_gen (format_class g t)) (names_field g t) = Some (GNames ty (array_dim_names t)) ->
    In (names_field g t, GNames ty (array_dim_names t)) (fm_array_gen (format_class g t))) by (intros; now apply dict_get_In).
  destruct g, t; try (exfalso; apply H; reflexivity); eexists; (split; [apply G; vm_compute; reflexivity|reflexivity]).
Qed.

(** Flattening all records. *)
Definition flatten_one (F : format) (r : brecord) : res brecord :=
  match fm_flat F with
  | None => Ok r
  | Some (_, fs) => flatten_record fs r
  end.

Lemma flatten_all F (d : brecords) : (forall k r, In (k, r) d -> exists r', flatten_one F r = Ok r') ->
  exists d', flatten_site_arrays F d = Ok d' /\ keys d' = keys d /\
    forall k r r', dict_get d k = Some r -> flatten_one F r = Ok r' -> dict_get d' k = Some r'.
Proof.
  unfold flatten_one, flatten_site_arrays. destruct (fm_flat F) as [[df fs]|].
  - induction d as [|[k r] d IH]; intros H; cbn [mapM].
    + exists []. splits; auto. intros; discriminate.
    + destruct IH as (d' & D1 & D2 & D3); [intros k' r' HI; apply (H k' r'); now right|].
      destruct (H k r (or_introl eq_refl)) as (r' & E). cbn [fst snd]. rewrite E. cbn [rbind]. rewrite D1. cbn [rbind].
      exists ((k, r') :: d'). splits; [reflexivity|unfold keys in *; cbn [map fst]; now rewrite D2|].
      intros k1 r1 r1' G1 G2. cbn [dict_get] in *. destruct (str_eqb k k1); [congruence|eauto].
  - intros _. exists d. splits; auto. intros k r r' G1 G2. congruence.
Qed.

(** Updates with colliding keys. *)
Lemma dict_set_in {A} (d : dict A) k v p : In p (dict_set d k v) -> p = (k, v) \/ In p d.
Proof.
  induction d as [|[k' v'] d IH]; cbn [dict_set]; [intros [<-|[]]; auto|].
  destruct (str_eqb k' k) eqn:E.
  - apply str_eqb_eq in E. subst. intros [<-|H]; [now left|right; now right].
  - intros [<-|H]; [right; now left|]. destruct (IH H); [now left|right; now right].
Qed.
Lemma dict_update_in {A} (e d : dict A) p : In p (dict_update d e) -> In p e \/ In p d.
Proof.
  unfold dict_update. revert d. induction e as [|[k v] e IH]; intros d H; cbn [fold_left] in H; [now right|].
  apply IH in H as [H|H]; [left; now right|]. apply dict_set_in in H as [->|H]; [left; now left|now right].
Qed.
Lemma dict_update_app {A} (d e e' : dict A) : dict_update d (e ++ e') = dict_update (dict_update d e) e'.
Proof. apply fold_left_app. Qed.
Lemma dict_update_get {A} (e d : dict A) k : ~ In k (map fst e) -> dict_get (dict_update d e) k = dict_get d k.
Proof.
  unfold dict_update. revert d. induction e as [|[k' v] e IH]; intros d H; cbn [fold_left]; [reflexivity|].
  rewrite IH by (intros C; apply H; now right). cbn [fst snd]. rewrite dict_get_set.
  destruct (str_eqb k' k) eqn:E; [|reflexivity]. apply str_eqb_eq in E. subst. exfalso. apply H. now left.
Qed.
Lemma dict_update_last {A} (e e' d : dict A) k v : ~ In k (map fst e') -> dict_get (dict_update d (e ++ (k, v) :: e')) k = Some v.
Proof.
  intros H. rewrite dict_update_app. change ((k, v) :: e') with ([(k, v)] ++ e'). rewrite dict_update_app, dict_update_get by assumption.
  cbn. now rewrite dict_get_set, str_eqb_refl.
Qed.

Lemma first_names_in l k : In k (first_names l) <-> In k l.
Proof.
  induction l as [|x l IH]; cbn [first_names In]; [tauto|]. rewrite filter_In, IH. split.
  - intros [H|[H _]]; auto.
  - intros [H|H]; [now left|]. destruct (str_eqb k x) eqn:E; [apply str_eqb_eq in E; left; congruence|right]. now split.
Qed.
Lemma filter_filter {A} (p q : A -> bool) l : filter p (filter q l) = filter (fun x => p x && q x) l.
Proof. induction l as [|x l IH]; cbn; [reflexivity|]. destruct (q x); cbn; destruct (p x); cbn; now rewrite IH. Qed.
Lemma dict_update_firsts {A} (e d : dict A) : map fst (dict_update d e) =
  map fst d ++ filter (fun k => negb (str_mem k (map fst d))) (first_names (map fst e)).
Proof.
  unfold dict_update. revert d. induction e as [|[k v] e IH]; intros d; cbn [fold_left map first_names filter]; [now rewrite app_nil_r|].
  rewrite IH. cbn [fst snd]. destruct (str_mem k (map fst d)) eqn:E.
  - cbn [negb]. rewrite dict_set_keys, E. f_equal. rewrite filter_filter. apply filter_ext.
    intros x. destruct (str_eqb x k) eqn:EX; [|now rewrite andb_true_r]. apply str_eqb_eq in EX. subst. now rewrite E.
  - cbn [negb]. assert (N : ~ In k (keys d)) by (intros C; apply str_mem_In in C; unfold keys in C; congruence).
    rewrite dict_set_fresh by exact N. rewrite map_app. cbn [map fst]. rewrite <- app_assoc. cbn [app]. do 2 f_equal.
    rewrite filter_filter. apply filter_ext. intros x.
    destruct (str_mem x (map fst d ++ [k])) eqn:EX; cbn [negb].
    + apply str_mem_In in EX. rewrite in_app_iff in EX. destruct EX as [EX|[->|[]]].
      * apply str_mem_In in EX. now rewrite EX.
      * rewrite str_eqb_refl. now rewrite andb_false_r.
    + assert (N1 : ~ In x (map fst d ++ [k])) by (intros C; apply str_mem_In in C; congruence).
      rewrite in_app_iff in N1. destruct (str_mem x (map fst d)) eqn:E1; [exfalso; apply N1; left; now apply str_mem_In|].
      destruct (str_eqb x k) eqn:E2; [apply str_eqb_eq in E2; exfalso; apply N1; right; left; now symmetry|reflexivity].
Qed.
Lemma dict_update_first {A} (e : dict A) : map fst (dict_update [] e) = first_names (map fst e).
Proof.
  rewrite dict_update_firsts. cbn [map app str_mem existsb]. clear. induction (first_names (map fst e)) as [|x l IH]; cbn [filter negb str_mem]; [reflexivity|]. f_equal. exact IH.
Qed.
Lemma first_names_nodup l : NoDup l -> first_names l = l.
Proof.
  induction 1 as [|x l HN H IH]; cbn [first_names]; [reflexivity|]. rewrite IH. f_equal. clear - HN.
  induction l as [|y l IH]; cbn; [reflexivity|]. destruct (str_eqb y x) eqn:E.
  - apply str_eqb_eq in E. subst. exfalso. apply HN. now left.
  - cbn [negb]. rewrite IH; [reflexivity|]. intros C. apply HN. now right.
Qed.

Lemma forall2_in_r {A B} (P : A -> B -> Prop) l m y : Forall2 P l m -> In y m -> exists x, In x l /\ P x y.
Proof.
  induction 1 as [|x y' l m HP H IH]; intros HI; [destruct HI|]. destruct HI as [->|HI]; [exists x; split; [now left|assumption]|].
  destruct (IH HI) as (x' & X1 & X2). exists x'. split; [now right|assumption].
Qed.
Lemma forall2_split {A B} (P : A -> B -> Prop) l m pre x post : Forall2 P l m -> l = pre ++ x :: post ->
  exists pre' y post', m = pre' ++ y :: post' /\ P x y /\ Forall2 P post post'.
Proof.
  intros H -> . apply Forall2_app_inv_l in H as (p1 & p2 & _ & H & ->). inversion H; subst. exists p1. eexists. eexists. splits; eauto.
Qed.

(** The names of the dimensions. *)
Lemma combine_eq (l m : list pystr) : length l = length m ->
  forallb (fun q => str_eqb (fst q) (snd q)) (combine l m) = true -> l = m.
Proof.
  revert m. induction l as [|x l IH]; intros [|y m] HL H; try discriminate; [reflexivity|]. cbn in H.
  apply andb_true_iff in H as [H1 H2]. apply str_eqb_eq in H1. subst. f_equal. apply IH; auto.
Qed.

(** Flattening. *)
Definition flattened (o : option bval) : option bval :=
  match o with Some (BArr ty _ data) => Some (BArr ty [length data] data) | o => o end.

Lemma flatten_record_ok fs : NoDup fs -> forall r,
  (forall k, In k fs -> exists ty s data, dict_get r k = Some (BArr ty s data)) ->
  exists r2, flatten_record fs r = Ok r2 /\ map fst r2 = map fst r /\
    (forall k, In k fs -> dict_get r2 k = flattened (dict_get r k)) /\
    (forall k, ~ In k fs -> dict_get r2 k = dict_get r k).
Proof.
  induction 1 as [|k0 fs Hf HN IH]; intros r H; cbn [flatten_record].
  - exists r. splits; auto; intros k [].
  - destruct (H k0) as (ty & s & data & E); [now left|]. unfold dict_item. rewrite E. cbn [rbind].
    destruct (IH (dict_set r k0 (BArr ty [length data] data))) as (r2 & E2 & K2 & H2 & H3).
    { intros k Hk. destruct (H k) as (ty' & s' & d' & Ek); [now right|].
      rewrite dict_get_set. destruct (str_eqb k0 k) eqn:EQ; eauto. }
    exists r2. rewrite E2. splits; auto.
    + rewrite K2, dict_set_keys. replace (str_mem k0 (map fst r)) with true; [reflexivity|]. symmetry. apply str_mem_In.
      apply dict_get_In in E. apply in_map_iff. now exists (k0, BArr ty s data).
    + intros k [<-|Hk].
      * rewrite H3 by assumption. rewrite dict_get_set, str_eqb_refl, E. reflexivity.
      * rewrite H2 by assumption. rewrite dict_get_set. destruct (str_eqb k0 k) eqn:EQ; [|reflexivity].
        apply str_eqb_eq in EQ. now subst.
    + intros k Hk. rewrite H3 by (intros C; apply Hk; now right). rewrite dict_get_set.
      destruct (str_eqb k0 k) eqn:EQ; [|reflexivity]. apply str_eqb_eq in EQ. subst. exfalso. apply Hk. now left.
Qed.

Section Restructure.
Variables (g : generation) (t : filetype) (dims : dict (list adim)) (z : sizes).
Hypothesis HT : has_structures t.
Hypothesis TF : table_facts g t dims.
Let F := format_class g t.

(** The tables and the catalogue. *)
Lemma dims_role k : In k (map fst dims) <-> role_of g t k Varying.
Proof.
  destruct (catalogue_lists g t HT) as (_ & _ & _ & (u & s & a & Eu & _ & _ & Hu & _) & _).
  rewrite <- Hu. unfold unshared_fields in Eu. rewrite (tf_dims _ _ _ TF) in Eu. cbn [rbind] in Eu.
  apply ok_inj in Eu as <-. reflexivity.
Qed.

Lemma many_listed k ty : In k (map fst dims) -> dict_get (fm_array F) k = Some ty -> listed g t k Many ty Varying.
Proof.
  intros Hk E. destruct (catalogue_lists g t HT) as (_ & H2 & _). apply dict_get_In in E.
  apply H2 in E as (ro & L). apply dims_role in Hk.
  assert (ro = Varying) by (apply (role_unique g t k); [now exists Many, ty|assumption]). now subst.
Qed.

Lemma one_listed k ty : In k (map fst dims) -> dict_get (fm_single F) k = Some ty -> listed g t k One ty Varying.
Proof.
  intros Hk E. destruct (catalogue_lists g t HT) as (H1 & _). apply dict_get_In in E.
  apply H1 in E as (ro & L). apply dims_role in Hk.
  assert (ro = Varying) by (apply (role_unique g t k); [now exists One, ty|assumption]). now subst.
Qed.

(** What a row of the tables says. *)
Lemma row_cases k ads : In (k, ads) dims ->
  (exists ty c, dict_get (fm_single F) k = Some ty /\ ads = [] /\ fill_cell ty = Ok c /\ ty <> BNpStr /\
     flat g t k = false /\ k <> s_ppo_name) \/
  (dict_get (fm_single F) k = None /\ exists ty c sds, dict_get (fm_array F) k = Some ty /\
     dict_get (fm_dims_site F) k = Some sds /\ fill_cell ty = Ok c /\ ty <> BStr /\
     ((k = s_ppo_name /\ ads = [AMaxPpo] /\ sds = [SPpo] /\ ty = BF32) \/
      (k <> s_ppo_name /\ Forall2 (fun d s => adim_sym g t d = Some s) ads (layout t k) /\
       Forall2 (fun d s => sdim_sym g t d = Some s) sds (layout t k)))).
Proof.
  intros H. pose proof (tf_rows _ _ _ TF _ H) as R. unfold row_facts in R. cbv zeta in R. fold F in R.
  destruct (dict_get (fm_single F) k) as [ty|].
  - left. rewrite !andb_true_iff, !negb_true_iff in R. destruct R as [[[[R1 R2] R3] R4] R5].
    destruct (fill_cell ty) as [c|] eqn:EF; [|discriminate]. exists ty, c. splits; auto.
    + destruct ads; [reflexivity|discriminate].
    + intros ->. discriminate.
    + intros ->. rewrite str_eqb_refl in R5. discriminate.
  - right. split; [reflexivity|]. destruct (dict_get (fm_array F) k) as [ty|]; [|discriminate].
    destruct (dict_get (fm_dims_site F) k) as [sds|]; [|discriminate].
    rewrite !andb_true_iff, !negb_true_iff in R. destruct R as [[R1 R2] R3].
    destruct (fill_cell ty) as [c|] eqn:EF; [|discriminate]. exists ty, c, sds. splits; auto.
    + intros ->. discriminate.
    + destruct (str_eqb k s_ppo_name) eqn:E.
      * left. apply str_eqb_eq in E. rewrite !andb_true_iff in R3. destruct R3 as [[A1 A2] A3]. apply btype_eqb_eq in A3.
        splits; auto.
        -- destruct ads as [|[] [|]]; congruence.
        -- destruct sds as [|[] [|]]; congruence.
      * right. rewrite andb_true_iff in R3. destruct R3 as [A1 A2].
        splits; [intros ->; rewrite str_eqb_refl in E; discriminate|now apply syms_are_ok..].
Qed.

Lemma dims_row k : In k (map fst dims) -> exists ads, In (k, ads) dims.
Proof. intros H. apply in_map_iff in H as ([k' ads] & <- & H). now exists ads. Qed.

(** ** Reshaping all records *)

Lemma reshape_ok (L : list (counts * (pystr * brecord))) :
  Forall (fun x => record_fits g t z (fst x) (snd (snd x))) L ->
  exists Q, map q_c Q = map fst L /\ map q_rec Q = map snd L /\
    reshape_site_arrays F (map snd L) = Ok (map q_rec2 Q) /\
    Forall (fun q => record_fits g t z (q_c q) (q_r q) /\ reshaped g t z q) Q.
Proof.
  intros HL. unfold reshape_site_arrays. pose proof (tf_flat _ _ _ TF) as HFl. fold F in HFl.
  destruct (fm_flat F) as [[df fs]|].
  - destruct HFl as (-> & HN & HI).
    induction HL as [|[c [n r]] L Hr HL IH]; [exists []; splits; auto|]. destruct IH as (Q & E1 & E2 & E3 & E4).
    cbn [fst snd] in Hr.
    destruct (reshape_record_ok (length (data_layout t)) (map (dim_val z c) (data_layout t)) fs HN r) as (r2 & R1 & R2 & R3).
    { intros f Hf. apply HI in Hf as Hf'. pose proof Hf' as Hfl. unfold flat in Hf'. apply andb_true_iff in Hf' as [Hd _].
      pose proof (tf_data _ _ _ TF _ Hd) as M. apply many_in_ok in M as (M1 & M2 & M3). fold F in M3.
      pose proof (many_listed _ _ M1 M3) as ML.
      assert (NP : f <> str "pulse_phase_offset").
      { intros ->. apply data_field_names in Hd. unfold data_names in Hd. clear - Hd. cbn [In] in Hd.
        repeat destruct Hd as [Hd|Hd]; try contradiction; vm_compute in Hd; discriminate. }
      destruct (rf_many _ _ _ _ _ Hr _ _ ML NP) as (data & D1 & D2).
      exists BC64, (stored_shape g t z c f), data. split; [assumption|]. rewrite D2. unfold shape_of. now rewrite (flat_layout g t f Hfl). }
    exists (mk_quad c n r r2 :: Q). cbn [map q_c q_rec q_rec2 q_name q_r q_r2 fst snd mapM].
    splits; [now rewrite E1|unfold q_rec at 1; cbn; now rewrite E2| |].
    + unfold dict_item at 1. cbn [snd]. rewrite (rf_dims _ _ _ _ _ Hr). cbn [rbind].
      rewrite map_map in R1. rewrite R1. cbn [rbind fst snd]. rewrite E3. reflexivity.
    + constructor; [|assumption]. cbn [q_c q_r]. split; [assumption|]. split; cbn [q_c q_r q_r2]; intros k Hk.
      * apply R3. rewrite HI. congruence.
      * rewrite R2 by now apply HI. f_equal. unfold shape_of. now rewrite (flat_layout g t k Hk).
  - exists (map (fun x => mk_quad (fst x) (fst (snd x)) (snd (snd x)) (snd (snd x))) L).
    rewrite !map_map. unfold q_rec, q_rec2. cbn [q_c q_name q_r q_r2]. splits.
    + apply map_ext. reflexivity.
    + apply map_ext. now intros [c [n r]].
    + f_equal. apply map_ext. now intros [c [n r]].
    + rewrite Forall_map. eapply Forall_impl; [|exact HL]. cbn [q_c q_r q_r2]. intros [c [n r]] H. split; [exact H|].
      split; cbn [q_c q_r q_r2 fst snd]; intros k Hk; [reflexivity|]. rewrite HFl in Hk. discriminate.
Qed.

(** ** The dimensions *)
Variable Q : list quad.
Hypothesis HQ : Forall (fun q => record_fits g t z (q_c q) (q_r q) /\ reshaped g t z q) Q.
Hypothesis HQ0 : Q <> [].
Hypothesis HB : (forall c, In c (map q_c Q) -> c_blank c = 0) \/ (forall c, In c (map q_c Q) -> 1 <= c_blank c).
Variable f : counts -> list nat.
Hypothesis HP : In s_ppo_name (map fst dims) -> ppo_shapes (map q_c Q) f /\
  Forall (fun q => exists data, dict_get (q_r q) s_ppo_name = Some (BArr BF32 (f (q_c q)) data) /\
    length data = size (f (q_c q))) Q.

Let n := length Q.
Let rs2 := map q_rec2 Q.
Definition mx (d : dim) : nat := list_max (map (fun q => dim_val z (q_c q) d) Q).

Lemma mx_le q d : In q Q -> dim_val z (q_c q) d <= mx d.
Proof. intros H. apply list_max_in. apply in_map_iff. now exists q. Qed.

Lemma fixed_val d c c' : fixed_dim d = true -> dim_val z c d = dim_val z c' d.
Proof. destruct d; cbn; congruence. Qed.

Lemma mx_fixed d c : fixed_dim d = true -> mx d = dim_val z c d.
Proof.
  intros H. apply list_max_const.
  - destruct Q; [now destruct HQ0|discriminate].
  - intros y Hy. apply in_map_iff in Hy as (q & <- & _). now apply fixed_val.
Qed.

Lemma fits q : In q Q -> record_fits g t z (q_c q) (q_r q).
Proof. intros H. rewrite Forall_forall in HQ. now apply HQ. Qed.
Lemma shaped q : In q Q -> reshaped g t z q.
Proof. intros H. rewrite Forall_forall in HQ. now apply HQ. Qed.

Definition ppo_top : list nat := match find_max_ppo rs2 with Ok ds => ds | Raise _ => [] end.
Definition top (k : pystr) : list nat := if str_eqb k s_ppo_name then ppo_top else map mx (layout t k).
Definition lay (k : pystr) (c : counts) : list nat := if str_eqb k s_ppo_name then f c else shape_of t z c k.

(** The value of a varying array field. *)
Lemma many_get q k ty : In q Q -> In k (map fst dims) -> dict_get (fm_single F) k = None ->
  dict_get (fm_array F) k = Some ty ->
  exists data, dict_get (q_r2 q) k = Some (BArr ty (lay k (q_c q)) data) /\ length data = size (lay k (q_c q)).
Proof.
  intros Hq Hk H1 H2. unfold lay. destruct (str_eqb k s_ppo_name) eqn:E.
  - apply str_eqb_eq in E. subst k. destruct (HP Hk) as [_ G]. rewrite Forall_forall in G.
    destruct (G q Hq) as (data & D1 & D2).
    destruct (dims_row _ Hk) as (ads & Hr). destruct (row_cases _ _ Hr) as [(ty' & c & A & _)|(_ & ty' & c & sds & A & _ & _ & _ & [(_ & _ & _ & ->)|(N & _)])]; [congruence| |congruence].
    assert (ty = BF32) by congruence. subst ty.
    exists data. split; [|assumption]. rewrite <- D1. apply (shaped q Hq). vm_compute. destruct t, g; reflexivity.
  - assert (NP : k <> str "pulse_phase_offset") by (intros ->; unfold s_ppo_name in E; rewrite str_eqb_refl in E; discriminate).
    destruct (rf_many _ _ _ _ _ (fits q Hq) k ty (many_listed _ _ Hk H2) NP) as (data & D1 & D2).
    exists data. split; [|assumption]. destruct (shaped q Hq) as [S1 S2]. unfold stored_shape in D1.
    destruct (flat g t k) eqn:EF.
    + rewrite S2 by assumption. rewrite D1. reflexivity.
    + rewrite S1 by assumption. exact D1.
Qed.

(** The value of a varying single field. *)
Lemma one_get q k ty : In q Q -> In k (map fst dims) -> dict_get (fm_single F) k = Some ty ->
  exists v, dict_get (q_r2 q) k = Some v /\ one_ok ty v /\ dict_get (q_r q) k = Some v.
Proof.
  intros Hq Hk H1. destruct (rf_one _ _ _ _ _ (fits q Hq) k ty (one_listed _ _ Hk H1)) as (v & V1 & V2).
  exists v. splits; auto. rewrite <- V1. apply (shaped q Hq).
  destruct (dims_row _ Hk) as (ads & Hr). destruct (row_cases _ _ Hr) as [(ty' & c & _ & _ & _ & _ & A & _)|(A & _)]; congruence.
Qed.

Lemma beams_get q : In q Q -> exists data, dict_get (q_r2 q) (str "beam_nums") = Some (BArr BU32 [c_beam (q_c q)] data).
Proof.
  intros Hq. destruct (many_in_ok _ _ _ _ _ (tf_beam _ _ _ TF)) as (M1 & M2 & M3).
  destruct (many_get q _ _ Hq M1 M2 M3) as (data & D & _). exists data. exact D.
Qed.
Lemma blanks_get q : g <> G4 -> In q Q ->
  exists data, dict_get (q_r2 q) (str "blanked_samples") = Some (BArr BU32 [c_blank (q_c q)] data).
Proof.
  intros Hg Hq. destruct (many_in_ok _ _ _ _ _ (tf_blank _ _ _ TF Hg)) as (M1 & M2 & M3).
  destruct (many_get q _ _ Hq M1 M2 M3) as (data & D & _). exists data. exact D.
Qed.
Lemma seq_get q : In q Q ->
  dict_get (q_r2 q) (str "num_sequences") = Some (BScalar BI64 (CZ (Z.of_nat (c_seq (q_c q))))).
Proof.
  intros Hq. destruct (one_get q _ _ Hq (tf_seq _ _ _ TF) (tf_seq_type _ _ _ TF)) as (v & V1 & _ & V2).
  rewrite (rf_seq _ _ _ _ _ (fits q Hq)) in V2. congruence.
Qed.

Lemma find_max_len_ok k (h : counts -> nat) l : incl l Q ->
  (forall q, In q Q -> exists ty s data, dict_get (q_r2 q) k = Some (BArr ty (h (q_c q) :: s) data)) ->
  forall m, find_max_len k (map q_rec2 l) m = Ok (Nat.max m (list_max (map (fun q => h (q_c q)) l))).
Proof.
  intros Hl H. induction l as [|q l IH]; intros m; cbn [map find_max_len q_rec2].
  - cbn. f_equal. lia.
  - destruct (H q) as (ty & s & data & E); [apply Hl; now left|]. unfold dict_item. rewrite E. cbn [rbind blen].
    rewrite IH by (intros x Hx; apply Hl; now right). f_equal. cbn [map list_max fold_right].
    change (fold_right Nat.max 0) with list_max.
    destruct (Nat.ltb_spec m (h (q_c q))); lia.
Qed.

Lemma find_max_seq_ok l : incl l Q -> forall m, find_max_sequences (map q_rec2 l) (Z.of_nat m) =
  Ok (Z.of_nat (Nat.max m (list_max (map (fun q => c_seq (q_c q)) l)))).
Proof.
  intros Hl. induction l as [|q l IH]; intros m; cbn [map find_max_sequences q_rec2].
  - cbn. do 2 f_equal. lia.
  - unfold dict_item. rewrite seq_get by (apply Hl; now left). cbn [rbind scalar_int is_int_type].
    replace (if (Z.of_nat m <? Z.of_nat (c_seq (q_c q)))%Z then Z.of_nat (c_seq (q_c q)) else Z.of_nat m)
      with (Z.of_nat (Nat.max m (c_seq (q_c q)))) by (destruct (Z.ltb_spec (Z.of_nat m) (Z.of_nat (c_seq (q_c q)))); lia).
    rewrite IH by (intros x Hx; apply Hl; now right). do 2 f_equal. cbn [map list_max fold_right].
    change (fold_right Nat.max 0) with list_max. lia.
Qed.

Lemma first_quad : exists q0 Q', Q = q0 :: Q' /\ In q0 Q.
Proof. destruct Q as [|q0 Q'] eqn:E; [now destruct HQ0|]. exists q0, Q'. split; [reflexivity|now left]. Qed.

Lemma to_dim_nat m : to_dim (Z.of_nat m) = Ok m.
Proof. unfold to_dim. destruct (Z.ltb_spec (Z.of_nat m) 0); [lia|]. now rewrite Nat2Z.id. Qed.

(** The layouts in use. *)
Lemma blank_gen k : In k (map fst dims) -> In DBlank (layout t k) -> g <> G4.
Proof.
  intros Hk HL E. apply dims_role in Hk. destruct Hk as (kd & ty & r & Hc & Hn & _ & _ & _ & Hr). rewrite E in Hr.
  assert (C : forallb (fun r => negb (is_one_of (fr_name r) ["blanked_samples"%string] && role_eqb (fr_role r G4) Varying)) catalogue = true)
    by (vm_compute; reflexivity).
  rewrite forallb_forall in C. specialize (C r Hc). rewrite Hn in C. apply role_eqb_eq in Hr. rewrite Hr in C.
  unfold layout in HL. destruct (is_one_of k ["blanked_samples"%string]); [discriminate|].
  repeat destruct (is_one_of k _); destruct t; cbn in HL; intuition discriminate.
Qed.

Lemma layout_blank k : In DBlank (layout t k) -> layout t k = [DBlank].
Proof.
  unfold layout. repeat destruct (is_one_of k _); auto; try (destruct t; cbn; intuition discriminate); cbn; intuition discriminate.
Qed.

Lemma adim_ok d s : (s = DBlank -> g <> G4) ->
  adim_sym g t d = Some s -> adim_eval rs2 d = Ok [mx s].
Proof.
  intros Hg E. destruct first_quad as (q0 & Q' & EQ & Hq0).
  destruct d as [| |kf| |kf i|kf i]; cbn [adim_sym] in E.
  - inversion E; subst s. cbn [adim_eval]. change 0%Z with (Z.of_nat 0). unfold rs2.
    rewrite (find_max_seq_ok Q (incl_refl _) 0). cbn [rbind].
    rewrite to_dim_nat. reflexivity.
  - inversion E; subst s. cbn [adim_eval]. unfold rs2. rewrite (find_max_len_ok _ c_beam Q (incl_refl _)).
    + reflexivity.
    + intros q Hq. destruct (beams_get q Hq) as (data & D). eauto.
  - destruct (str_eqb kf (str "blanked_samples")) eqn:EK; [|discriminate]. apply str_eqb_eq in EK. subst kf.
    inversion E; subst s. cbn [adim_eval]. unfold rs2. rewrite (find_max_len_ok _ c_blank Q (incl_refl _)).
    + reflexivity.
    + intros q Hq. destruct (blanks_get q (Hg eq_refl) Hq) as (data & D). eauto.
  - discriminate.
  - destruct (str_eqb kf (dims_field g t)) eqn:EK; [|discriminate]. apply str_eqb_eq in EK. subst kf.
    unfold fixed_at in E. destruct (nth_error (data_layout t) i) as [d|] eqn:EN; [|discriminate].
    destruct (fixed_dim d) eqn:EF; [|discriminate]. inversion E; subst s.
    cbn [adim_eval]. unfold rs2. rewrite EQ. cbn [map q_rec2]. unfold dict_item.
    destruct (shaped q0 Hq0) as [S1 _]. rewrite S1 by apply (tf_dims_flat _ _ _ TF).
    rewrite (rf_dims _ _ _ _ _ (fits q0 Hq0)). cbn [rbind array_int is_int_type negb].
    assert (Hi : i < length (data_layout t)) by (apply nth_error_Some; congruence).
    apply Nat.ltb_lt in Hi. rewrite Hi. rewrite nth_error_map, EN. cbn [option_map rbind]. rewrite to_dim_nat. cbn [rbind].
    now rewrite (mx_fixed d (q_c q0) EF).
  - destruct i; [|discriminate]. unfold tx_dim in E.
    assert (G : kf = str "tx_antenna_phases" /\ s = DPhase /\ tx_dim g t (str "tx_antenna_phases") = Some DPhase /\ t <> AntennasIq).
    { destruct g; try discriminate; destruct t; try discriminate; destruct (str_eqb kf (str "tx_antenna_phases")) eqn:EK;
        try discriminate; apply str_eqb_eq in EK; inversion E; splits; auto; discriminate. }
    destruct G as (-> & -> & G & Gt). destruct (many_in_ok _ _ _ _ _ (tf_tx _ _ _ TF _ G)) as (M1 & M2 & M3).
    destruct (many_get q0 _ _ Hq0 M1 M2 M3) as (data & D & _).
    cbn [adim_eval]. unfold rs2. rewrite EQ. cbn [map q_rec2]. unfold dict_item. rewrite D. cbn [rbind get_shape bshape].
    rewrite (mx_fixed DPhase (q_c q0) eq_refl).
    unfold lay. replace (str_eqb (str "tx_antenna_phases") s_ppo_name) with false by reflexivity.
    unfold shape_of. replace (layout t (str "tx_antenna_phases")) with [DPhase] by (destruct t; [now destruct Gt|reflexivity..]).
    reflexivity.
Qed.

(** *** pulse_phase_offset *)

Lemma ppo_flat : flat g t s_ppo_name = false.
Proof. destruct t, g; vm_compute; reflexivity. Qed.

Lemma ppo_get q : In s_ppo_name (map fst dims) -> In q Q ->
  exists data, dict_get (q_r2 q) s_ppo = Some (BArr BF32 (f (q_c q)) data) /\ length data = size (f (q_c q)).
Proof.
  intros Hk Hq. destruct (HP Hk) as [_ G]. rewrite Forall_forall in G. destruct (G q Hq) as (data & D1 & D2).
  exists data. split; [|assumption]. rewrite <- D1. apply (shaped q Hq). exact ppo_flat.
Qed.

Lemma max_ppo_loop_ok (h : counts -> list nat) l : incl l Q -> In s_ppo_name (map fst dims) ->
  forall m M, (fold_left (fun acc q => rlet a := acc in max_shape (f (q_c q)) a) l (Ok m) = Ok M) ->
  max_ppo_loop (map q_rec2 l) m = Ok M.
Proof.
  intros Hl Hk. induction l as [|q l IH]; intros m M H; cbn [map max_ppo_loop q_rec2]; [exact H|].
  destruct (ppo_get q Hk) as (data & D & _); [apply Hl; now left|]. unfold dict_item. rewrite D.
  cbn [rbind get_shape bshape]. cbn [fold_left rbind] in H.
  destruct (max_shape (f (q_c q)) m) as [m'|e] eqn:EM; cbn [rbind].
  - apply IH; [intros x Hx; apply Hl; now right|exact H].
  - exfalso. clear - H. induction l as [|x l IH]; cbn [fold_left rbind] in H; [discriminate|auto].
Qed.

Lemma ppo_top_ok : In s_ppo_name (map fst dims) -> find_max_ppo rs2 = Ok ppo_top /\
  (((forall c, f c = [0]) /\ ppo_top = [0]) \/
   (exists p, (forall c, f c = [p]) /\ ppo_top = [p] /\ 1 <= p /\
      forall q, In q Q -> p <= c_seq (q_c q) <= length Q * p) \/
   (exists p, (forall c, f c = [c_seq c; p]) /\ ppo_top = [mx DSeq; p] /\ 1 <= p)).
Proof.
  intros Hk. destruct (HP Hk) as [HS _]. apply ppo_cases in HS.
  assert (G : exists ds, find_max_ppo rs2 = Ok ds /\
    (((forall c, f c = [0]) /\ ds = [0]) \/
     (exists p, (forall c, f c = [p]) /\ ds = [p] /\ 1 <= p /\
      forall q, In q Q -> p <= c_seq (q_c q) <= length Q * p) \/
     (exists p, (forall c, f c = [c_seq c; p]) /\ ds = [mx DSeq; p] /\ 1 <= p))).
  { destruct first_quad as (q0 & Q' & EQ & Hq0). unfold find_max_ppo, rs2.
    destruct (ppo_get q0 Hk Hq0) as (data & D & _).
    destruct HS as [HS|[(p & HS & Hp & Hc)|(p & HS & Hp)]].
    - exists [0]. split; [|left; auto]. rewrite EQ. cbn [map q_rec2]. unfold dict_item. rewrite D, HS. reflexivity.
    - exists [p]. split.
      + rewrite EQ at 1. cbn [map q_rec2]. unfold dict_item. rewrite D, HS. cbn [rbind get_shape bshape].
        destruct p as [|p]; [lia|]. apply (max_ppo_loop_ok f); [apply incl_refl|assumption|].
        clear - HS. induction Q as [|q l IH]; cbn [fold_left rbind]; [reflexivity|]. rewrite HS. cbn [max_shape rbind].
        rewrite Nat.max_id. exact IH.
      + right. left. exists p. splits; auto. intros q Hq. rewrite map_length in Hc. apply Hc. now apply in_map.
    - exists [mx DSeq; p]. split.
      + rewrite EQ at 1. cbn [map q_rec2]. unfold dict_item. rewrite D, HS. cbn [rbind get_shape bshape].
        assert (P0 : 1 <= c_seq (q_c q0)) by (apply (rf_pos _ _ _ _ _ (fits q0 Hq0) DSeq); discriminate).
        destruct (c_seq (q_c q0)) as [|m] eqn:EM; [lia|]. rewrite <- EM in *.
        apply (max_ppo_loop_ok f); [apply incl_refl|assumption|].
        assert (G : forall l m, fold_left (fun acc q => rlet a := acc in max_shape (f (q_c q)) a) l (Ok [m; p]) =
          Ok [Nat.max m (list_max (map (fun q => c_seq (q_c q)) l)); p]).
        { clear - HS. induction l as [|q l IH]; intros m; cbn [fold_left rbind map].
          - cbn. do 2 f_equal. lia.
          - rewrite HS. cbn [max_shape rbind]. rewrite Nat.max_id, IH. cbn [list_max fold_right].
            change (fold_right Nat.max 0) with list_max. do 2 f_equal. lia. }
        rewrite G. do 2 f_equal. pose proof (mx_le q0 DSeq Hq0) as M. cbn [dim_val] in M. unfold mx in *. cbn [dim_val] in *. lia.
      + right. right. exists p. splits; auto. }
  destruct G as (ds & G1 & G2). unfold ppo_top. rewrite G1. split; [reflexivity|exact G2].
Qed.

Lemma top_dims k ads : In (k, ads) dims -> dict_get (fm_single F) k = None ->
  exists dd, mapM (adim_eval rs2) ads = Ok dd /\ concat dd = top k.
Proof.
  intros Hr H1. destruct (row_cases _ _ Hr) as [(ty & c & A & _)|(_ & ty & c & sds & _ & _ & _ & _ & [(-> & -> & _ & _)|(N & HA & _)])]; [congruence|..].
  - assert (Hk : In s_ppo_name (map fst dims)) by (apply in_map_iff; now exists (s_ppo_name, [AMaxPpo])).
    destruct (ppo_top_ok Hk) as [E _]. exists [ppo_top]. cbn [mapM adim_eval]. rewrite E. cbn [rbind concat].
    split; [reflexivity|]. unfold top. now rewrite str_eqb_refl, app_nil_r.
  - exists (map (fun s => [mx s]) (layout t k)).
    assert (Hk : In k (map fst dims)) by (apply in_map_iff; now exists (k, ads)).
    assert (NE : str_eqb k s_ppo_name = false) by (destruct (str_eqb k s_ppo_name) eqn:E; [apply str_eqb_eq in E; contradiction|reflexivity]).
    split; [|unfold top; rewrite NE; clear; induction (layout t k) as [|x l IH]; cbn; [reflexivity|now rewrite IH]].
    apply mapM_Forall2.
    assert (HG : In DBlank (layout t k) -> g <> G4) by now apply blank_gen.
    clear Hr. revert HG. induction HA as [|d s l m E HA IH]; intros HG; cbn [map]; constructor.
    + apply adim_ok; [|assumption]. intros ->. apply HG. now left.
    + apply IH. intros HI. apply HG. now right.
Qed.

(** ** Blocks *)

Lemma filter_pos l : (forall x, In x l -> 1 <= x) -> filter nonzero l = l.
Proof.
  induction l as [|x l IH]; intros H; [reflexivity|]. cbn [filter]. rewrite IH by (intros; apply H; now right).
  specialize (H x (or_introl eq_refl)). unfold nonzero. destruct x; [lia|reflexivity].
Qed.

Lemma forall2_map {A B C} (R : B -> C -> Prop) (u : A -> B) (v : A -> C) l : (forall x, In x l -> R (u x) (v x)) ->
  Forall2 R (map u l) (map v l).
Proof. intros H. induction l as [|x l IH]; cbn; constructor; [apply H; now left|apply IH; intros; apply H; now right]. Qed.

Lemma lay_fits q k : In q Q -> In k (map fst dims) ->
  Forall2 le (lay k (q_c q)) (top k) /\ region (top k) (filter nonzero (lay k (q_c q))) = Ok (lay k (q_c q)).
Proof.
  intros Hq Hk. unfold lay, top. destruct (str_eqb k s_ppo_name) eqn:E.
  - apply str_eqb_eq in E. subst k. pose proof (fits q Hq) as FQ.
    destruct (ppo_top_ok Hk) as [_ [(HS & ->)|[(p & HS & -> & Hp & Hc)|(p & HS & -> & Hp)]]]; rewrite HS.
    + split; [repeat constructor|reflexivity].
    + split; [repeat constructor|]. rewrite filter_pos by (intros x [<-|[]]; assumption). apply region_le. repeat constructor.
    + assert (LE : Forall2 le [c_seq (q_c q); p] [mx DSeq; p]) by (repeat constructor; apply (mx_le q DSeq Hq)).
      split; [assumption|]. rewrite filter_pos.
      * now apply region_le.
      * intros x [<-|[<-|[]]]; [|assumption]. apply (rf_pos _ _ _ _ _ FQ DSeq); discriminate.
  - assert (LE : Forall2 le (shape_of t z (q_c q) k) (map mx (layout t k))).
    { unfold shape_of. apply forall2_map. intros d _. now apply mx_le. }
    split; [assumption|].
    assert (D : {In DBlank (layout t k)} + {~ In DBlank (layout t k)}).
    { apply in_dec. intros a b. destruct (dim_eqb a b) eqn:EB; [left; now apply dim_eqb_eq|right; intros C; apply dim_eqb_eq in C; congruence]. }
    destruct D as [HD|HD].
    + apply layout_blank in HD. unfold shape_of in *. rewrite HD in *. cbn [map dim_val] in *.
      destruct HB as [H0|H1].
      * rewrite (H0 (q_c q)) by now apply in_map. cbn [filter nonzero Nat.eqb negb region].
        assert (mx DBlank = 0) as ->; [|reflexivity]. apply list_max_const.
        -- destruct Q; [now destruct HQ0|discriminate].
        -- intros y Hy. apply in_map_iff in Hy as (q' & <- & Hq'). cbn [dim_val]. apply H0. now apply in_map.
      * rewrite filter_pos by (intros x [<-|[]]; apply H1; now apply in_map). now apply region_le.
    + rewrite filter_pos; [now apply region_le|]. intros x Hx. unfold shape_of in Hx. apply in_map_iff in Hx as (d & <- & Hd).
      apply (rf_pos _ _ _ _ _ (fits q Hq)). intros ->. contradiction.
Qed.

(** ** The arrays *)

(** The type in the array file; the shape of one row. *)
Definition np (ty : btype) : btype := match ty with BStr => BNpStr | ty => ty end.
Definition tp (k : pystr) : list nat := match dict_get (fm_single F) k with Some _ => [] | None => top k end.

(** What row [i] of a field's array is, for the record [q]. *)
Definition row_done (k : pystr) (ty : btype) (c : cell) (data : list cell) (i : nat) (q : quad) : Prop :=
  exists v ss b, dict_get (q_r2 q) k = Some v /\ assigned ty v = Ok (ss, b) /\ length b = size ss /\
    Forall2 le ss (tp k) /\ row_of (tp k) i data = paste (tp k) ss (repeat c (size (tp k))) b /\
    match dict_get (fm_single F) k with
    | Some _ => one_ok ty v /\ ss = []
    | None => v = BArr ty ss b /\ ss = lay k (q_c q)
    end.

Lemma assigned_one ty v : one_ok ty v -> ty <> BNpStr -> exists c, assigned ty v = Ok ([], [c]) /\ is_ndarray v = false /\
  ((ty <> BStr /\ v = BScalar ty c) \/ (exists s, ty = BStr /\ v = BText s /\ c = CS s)).
Proof.
  intros [c0 Hn|s -> H1 H2] N.
  - exists c0. splits; auto. unfold assigned. destruct ty; try reflexivity; congruence.
  - exists (CS s). splits; eauto. cbn [assigned]. now rewrite store_text_id.
Qed.

Lemma assigned_arr ty ss b : assigned ty (BArr ty ss b) = Ok (ss, b).
Proof. destruct ty; reflexivity. Qed.

Lemma field_done k ads first : In (k, ads) dims -> (exists q0 Q', Q = q0 :: Q' /\ first = q_r2 q0) ->
  exists ty c data p, field_type F k = Ok ty /\ fill_cell ty = Ok c /\
    temp_init F rs2 (k, ads) = Ok p /\
    fill_field first rs2 0 p = Ok (k, mk_temp ty (tp k) data) /\
    length data = n * size (tp k) /\
    forall i q, nth_error Q i = Some q -> row_done k ty c data i q.
Proof.
  intros Hr (q0 & Q' & EQ & ->).
  assert (Hq0 : In q0 Q) by (rewrite EQ; now left).
  assert (Hk : In k (map fst dims)) by (apply in_map_iff; now exists (k, ads)).
  assert (G : exists ty c, field_type F k = Ok ty /\ fill_cell ty = Ok c /\
    temp_init F rs2 (k, ads) = Ok (k, mk_temp ty (tp k) (repeat c (n * size (tp k)))) /\
    exists v0, dict_get (q_r2 q0) k = Some v0 /\
    forall q, In q Q -> exists v ss b, dict_get (q_r2 q) k = Some v /\ block ty v0 v (tp k) ss b /\
      match dict_get (fm_single F) k with
      | Some _ => one_ok ty v /\ ss = []
      | None => v = BArr ty ss b /\ ss = lay k (q_c q)
      end).
  { destruct (row_cases _ _ Hr) as [(ty & c & A & -> & EF & N & _ & _)|(A & ty & c & sds & A2 & _ & EF & N & _)].
    - exists ty, c. unfold temp_init, field_type. cbn [fst snd mapM rbind]. unfold tp. rewrite A. cbn [rbind]. rewrite EF.
      cbn [rbind concat]. unfold rs2. rewrite map_length. splits; auto.
      destruct (one_get q0 k ty Hq0 Hk A) as (v0 & V1 & V2 & _). exists v0. split; [assumption|].
      intros q Hq. destruct (one_get q k ty Hq Hk A) as (v & W1 & W2 & _).
      destruct (assigned_one ty v W2 N) as (cc & E1 & E2 & _). destruct (assigned_one ty v0 V2 N) as (c0 & _ & E3 & _).
      exists v, [], [cc]. splits; auto. unfold block, needs_shape. rewrite E3. splits; auto.
    - exists ty, c. destruct (top_dims k ads Hr A) as (dd & E1 & E2). unfold temp_init, field_type. cbn [fst snd].
      rewrite E1. cbn [rbind]. unfold tp. rewrite A. unfold dict_item. rewrite A2. cbn [rbind]. rewrite EF. cbn [rbind].
      rewrite E2. unfold rs2. rewrite map_length. splits; auto.
      destruct (many_get q0 k ty Hq0 Hk A A2) as (d0 & D0 & L0). exists (BArr ty (lay k (q_c q0)) d0). split; [assumption|].
      intros q Hq. destruct (many_get q k ty Hq Hk A A2) as (data & D & LD).
      destruct (lay_fits q k Hq Hk) as [LE RG].
      exists (BArr ty (lay k (q_c q)) data), (lay k (q_c q)), data. splits; auto.
      unfold block. cbn [is_ndarray]. splits; auto. apply assigned_arr. }
  destruct G as (ty & c & G1 & G2 & G3 & v0 & G4' & G5).
  destruct (choose_all (fun q x => exists v, dict_get (q_r2 q) k = Some v /\ block ty v0 v (tp k) (fst x) (snd x) /\
      match dict_get (fm_single F) k with
      | Some _ => one_ok ty v /\ fst x = []
      | None => v = BArr ty (fst x) (snd x) /\ fst x = lay k (q_c q)
      end) Q) as (vs & HV).
  { intros q Hq. destruct (G5 q Hq) as (v & ss & b & X). exists (ss, b), v. exact X. }
  destruct (fill_field_ok (q_r2 q0) k v0 ty (tp k) n G4' rs2 vs 0 (repeat c (n * size (tp k)))) as (data & E & L & R & _).
  - unfold rs2. apply forall2_map_l. eapply forall2_weak; [|exact HV]. cbv beta. intros q x (v & H1 & H2 & _). exists v. auto.
  - apply repeat_length.
  - unfold rs2, n. rewrite map_length. lia.
  - exists ty, c, data. eexists. splits; eauto.
    intros i q Hi.
    assert (GX : exists x, nth_error vs i = Some x /\ exists v, dict_get (q_r2 q) k = Some v /\ block ty v0 v (tp k) (fst x) (snd x) /\
      match dict_get (fm_single F) k with
      | Some _ => one_ok ty v /\ fst x = []
      | None => v = BArr ty (fst x) (snd x) /\ fst x = lay k (q_c q)
      end).
    { exact (forall2_nth _ _ _ _ _ HV Hi). }
    destruct GX as ([ss b] & X1 & v & X2 & (X3 & X4 & X5 & X6) & X7). cbn [fst snd] in *.
    exists v, ss, b. splits; auto. specialize (R i _ X1). cbn [fst snd Nat.add] in R.
    rewrite R. rewrite row_of_repeat; [reflexivity|]. unfold n. apply nth_error_Some. congruence.
Qed.

(** The array dictionary. *)
Record array_facts (a : brecord) : Prop := {
  af_nodup : NoDup (map fst a);
  af_keys : forall k, In k (map fst a) <-> In k (fm_shared F) \/ In k (map fst (fm_array_gen F)) \/ In k (map fst dims);
  af_common : forall k q0 Q', Q = q0 :: Q' -> In k (fm_shared F) -> ~ In k (map fst dims) ->
    dict_get a k = dict_get (q_r2 q0) k;
  af_gen : forall k e, In (k, e) (fm_array_gen F) -> exists v, agen_eval rs2 e = Ok v /\ dict_get a k = Some v;
  af_vary : forall k, In k (map fst dims) -> exists ty c data, field_type F k = Ok ty /\ fill_cell ty = Ok c /\
    dict_get a k = Some (BArr (np ty) (n :: tp k) data) /\ length data = n * size (tp k) /\
    forall i q, nth_error Q i = Some q -> row_done k ty c data i q
}.

Lemma shared_get q k : In q Q -> In k (fm_shared F) -> exists v, dict_get (q_r2 q) k = Some v.
Proof.
  intros Hq Hk. destruct (shaped q Hq) as [S1 _]. rewrite S1 by apply (tf_shared_flat _ _ _ TF k Hk).
  destruct (catalogue_lists g t HT) as (_ & _ & H3 & _). apply H3 in Hk.
  assert (G : In k (keys (q_r q))).
  { apply (rf_fields _ _ _ _ _ (fits q Hq)). destruct Hk as [R|[_ R]]; eexists; (split; [exact R|discriminate]). }
  destruct (dict_get (q_r q) k) as [v|] eqn:E; [now exists v|]. exfalso. apply dict_get_none in E. now apply E.
Qed.

Lemma gen_ok e k : In (k, e) (fm_array_gen F) -> exists v, agen_eval rs2 e = Ok v.
Proof.
  intros H. pose proof (tf_agen _ _ _ TF _ H) as HA. destruct e as [kf|ty l]; cbn [agen_eval]; [|eauto].
  cbn [array_gen_fact] in HA. apply orb_true_iff in HA.
  assert (G : exists h : counts -> nat, forall q, In q Q -> exists ty s data, dict_get (q_r2 q) kf = Some (BArr ty (h (q_c q) :: s) data)).
  { destruct HA as [HA|HA]; rewrite !andb_true_iff in HA.
    - destruct HA as [_ HA]. apply str_eqb_eq in HA. subst. exists c_beam. intros q Hq. destruct (beams_get q Hq) as (d & D). eauto.
    - destruct HA as [[_ HA] Hg]. apply str_eqb_eq in HA. subst. exists c_blank. intros q Hq.
      destruct (blanks_get q) as (d & D); eauto. destruct g; [discriminate|discriminate..]. }
  destruct G as (h & G). unfold rs2.
  rewrite (mapM_Forall2 _ (map q_rec2 Q) (map (fun q => h (q_c q)) Q)); [cbn [rbind]; eauto|].
  apply (forall2_map _ q_rec2 (fun q => h (q_c q)) Q). intros q Hq. cbn [q_rec2 snd]. unfold dict_item.
  destruct (G q Hq) as (ty & s & data & D). now rewrite D.
Qed.

Lemma to_array_ok records : reshape_site_arrays F records = Ok rs2 ->
  exists a, site_to_array F records = Ok a /\ array_facts a.
Proof.
  intros HR. destruct first_quad as (q0 & Q' & EQ & Hq0).
  assert (ER : rs2 = (q_name q0, q_r2 q0) :: map q_rec2 Q') by (unfold rs2; rewrite EQ; reflexivity).
  rewrite (site_to_array_eq F records rs2 _ _ _ (tf_restr _ _ _ TF) HR ER).
  destruct (mapM_pairs (fun k => k) (fun k => dict_item (q_r2 q0) k) (fm_shared F)) as (sh & S1 & S2 & S3).
  { intros k Hk. unfold dict_item. destruct (shared_get q0 k Hq0 Hk) as (v & ->). eauto. }
  rewrite S1. cbn [rbind].
  destruct (mapM_pairs (fun p : pystr * agen => fst p) (fun p => agen_eval rs2 (snd p)) (fm_array_gen F)) as (sp & P1 & P2 & P3).
  { intros [k e] Hk. cbn [snd]. eapply gen_ok; eauto. }
  rewrite P1. cbn [rbind]. unfold F at 1. rewrite (tf_dims _ _ _ TF). cbn [rbind].
  destruct (choose_all (fun x y => exists ty c data p, field_type F (fst x) = Ok ty /\ fill_cell ty = Ok c /\
    temp_init F rs2 x = Ok p /\ fill_field (q_r2 q0) rs2 0 p = Ok y /\ y = (fst x, mk_temp ty (tp (fst x)) data) /\
    length data = n * size (tp (fst x)) /\
    forall i q, nth_error Q i = Some q -> row_done (fst x) ty c data i q) dims) as (out & HO).
  { intros [k ads] Hx. destruct (field_done k ads (q_r2 q0) Hx) as (ty & c & data & p & A1 & A2 & A3 & A4 & A5 & A6); [eauto|].
    cbn [fst]. eexists. exists ty, c, data, p. splits; eauto. }
  assert (GI : exists mid, Forall2 (fun x p => temp_init F rs2 x = Ok p) dims mid /\
    Forall2 (fun p y => fill_field (q_r2 q0) rs2 0 p = Ok y) mid out).
  { apply forall2_mid. eapply forall2_weak; [|exact HO]. cbv beta. intros x y (ty & c & data & p & _ & _ & A & B & _). eauto. }
  destruct GI as (mid & M1 & M2). rewrite (mapM_Forall2 _ _ _ M1). cbn [rbind].
  rewrite (fill_loop_fields _ _ _ _ _ M2). cbn [rbind]. eexists. split; [reflexivity|].
  set (arr := map (fun p : pystr * temp_array => (fst p, temp_value (length rs2) (snd p))) out).
  assert (KA : map fst arr = map fst dims).
  { unfold arr. rewrite map_map. cbn [fst]. symmetry. apply forall2_fst. eapply forall2_weak; [|exact HO].
    cbv beta. intros x y (ty & c & data & p & _ & _ & _ & _ & -> & _). reflexivity. }
  assert (S2' : map fst sh = fm_shared F) by (rewrite S2; apply map_id).
  assert (N1 : NoDup (map fst sh)) by (rewrite S2'; apply (tf_nd_shared _ _ _ TF)).
  assert (N2 : NoDup (map fst sp)) by (rewrite P2; apply (tf_nd_agen _ _ _ TF)).
  assert (N3 : NoDup (map fst arr)) by (rewrite KA; apply (tf_nd_dims _ _ _ TF)).
  constructor.
  - repeat apply dict_update_nodup. constructor.
  - intros k. rewrite !dict_update_keys, KA, P2, S2'. cbn [map In]. tauto.
  - intros k q Q'' E Hk Hn. rewrite EQ in E. inversion E; subst q Q''.
    rewrite !dict_get_update by assumption.
    replace (dict_get arr k) with (@None bval) by (symmetry; apply dict_get_none; now rewrite KA).
    replace (dict_get sp k) with (@None bval)
      by (symmetry; apply dict_get_none; rewrite P2; now apply (tf_shared_agen _ _ _ TF)).
    destruct (shared_get q0 k Hq0 Hk) as (v & Ev). rewrite Ev.
    assert (In (k, v) sh) as HI by (apply (S3 k); [assumption|]; unfold dict_item; now rewrite Ev).
    apply (dict_get_nodup _ _ _ N1) in HI. now rewrite HI.
  - intros k e He. destruct (gen_ok e k He) as (v & Ev). exists v. split; [assumption|].
    rewrite !dict_get_update by assumption.
    replace (dict_get arr k) with (@None bval).
    + assert (In (k, v) sp) as HI by (apply (P3 (k, e)); assumption). apply (dict_get_nodup _ _ _ N2) in HI. now rewrite HI.
    + symmetry. apply dict_get_none. rewrite KA. intros C. apply (tf_dims_agen _ _ _ TF _ C). apply in_map_iff. now exists (k, e).
  - intros k Hk. apply in_map_iff in Hk as ([k' ads] & <- & Hx). cbn [fst].
    assert (GX : exists y, In y out /\ exists ty c data p, field_type F k' = Ok ty /\ fill_cell ty = Ok c /\
      temp_init F rs2 (k', ads) = Ok p /\ fill_field (q_r2 q0) rs2 0 p = Ok y /\ y = (k', mk_temp ty (tp k') data) /\
      length data = n * size (tp k') /\
      forall i q, nth_error Q i = Some q -> row_done k' ty c data i q).
    { exact (forall2_in _ _ _ _ HO Hx). }
    destruct GX as (y & Y1 & ty & c & data & p & A1 & A2 & _ & _ & -> & A5 & A6). exists ty, c, data. splits; auto.
    rewrite dict_get_update by assumption.
    assert (In (k', BArr (np ty) (n :: tp k') data) arr) as HI.
    { unfold arr. apply in_map_iff. exists (k', mk_temp ty (tp k') data). split; [|assumption]. cbn [fst snd].
      unfold temp_value, rs2. cbn [ta_type ta_dims ta_data]. rewrite map_length. now destruct ty. }
    apply (dict_get_nodup _ _ _ N3) in HI. now rewrite HI.
Qed.

(** ** Back to records *)
Variable a : brecord.
Hypothesis HA : array_facts a.

Lemma nth_in i q : nth_error Q i = Some q -> In q Q.
Proof. apply nth_error_In. Qed.
Lemma nth_lt i q : nth_error Q i = Some q -> i < n.
Proof. intros H. unfold n. apply nth_error_Some. congruence. Qed.

(** A single-element field of record [i]. *)
Lemma single_at k ty i q : In k (map fst dims) -> dict_get (fm_single F) k = Some ty -> nth_error Q i = Some q ->
  exists data v c, dict_get a k = Some (BArr (np ty) [n] data) /\ dict_get (q_r2 q) k = Some v /\
    nth_error data i = Some c /\
    ((ty <> BStr /\ v = BScalar ty c) \/ (exists s, ty = BStr /\ v = BText s /\ c = CS s)).
Proof.
  intros Hk E Hi. destruct (af_vary _ HA k Hk) as (ty' & c & data & A1 & A2 & A3 & A4 & A5).
  unfold field_type in A1. rewrite E in A1. apply ok_inj in A1. subst ty'.
  destruct (A5 i q Hi) as (v & ss & b & B1 & B2 & B3 & B4 & B5 & B6). rewrite E in B6. destruct B6 as [B6 ->].
  assert (ET : tp k = []) by (unfold tp; now rewrite E). rewrite ET in *.
  destruct (dims_row _ Hk) as (ads & Hr).
  destruct (row_cases _ _ Hr) as [(ty' & c' & C1 & _ & _ & N & _)|(C1 & _)]; [|congruence].
  assert (ty' = ty) by congruence. subst ty'.
  destruct (assigned_one ty v B6 N) as (cc & D1 & _ & D2). rewrite B2 in D1. inversion D1; subst b.
  cbn [paste] in B5. apply row_of_single in B5. exists data, v, cc. splits; auto.
Qed.

Lemma single_item_ok k ty i q : In k (map fst dims) -> dict_get (fm_single F) k = Some ty -> nth_error Q i = Some q ->
  exists v, site_item F a i k = Ok v /\ dict_get (q_r2 q) k = Some v.
Proof.
  intros Hk E Hi. destruct (single_at k ty i q Hk E Hi) as (data & v & c & A1 & A2 & A3 & A4).
  exists v. split; [|assumption]. unfold site_item. rewrite E. unfold dict_item. rewrite A1. cbn [rbind single_item].
  pose proof (nth_lt _ _ Hi) as Hn. apply Nat.ltb_lt in Hn. rewrite Hn, A3.
  destruct A4 as [[N ->]|(s & -> & -> & ->)]; [|reflexivity].
  destruct ty, c; try reflexivity; congruence.
Qed.

Lemma seq_at i q : nth_error Q i = Some q -> exists data,
  dict_get a (str "num_sequences") = Some (BArr BI64 [n] data) /\ nth_error data i = Some (CZ (Z.of_nat (c_seq (q_c q)))).
Proof.
  intros Hi. destruct (single_at _ _ i q (tf_seq _ _ _ TF) (tf_seq_type _ _ _ TF) Hi) as (data & v & c & A1 & A2 & A3 & A4).
  exists data. split; [exact A1|]. rewrite A3. rewrite (seq_get q (nth_in _ _ Hi)) in A2.
  destruct A4 as [[_ ->]|(s & C & _)]; [congruence|discriminate].
Qed.

Lemma count_at k kf (h : counts -> nat) : dict_get (fm_array_gen F) k = Some (GCounts kf) ->
  (forall q, In q Q -> exists ty s data, dict_get (q_r2 q) kf = Some (BArr ty (h (q_c q) :: s) data)) ->
  (forall q, In q Q -> (Z.of_nat (h (q_c q)) < 2 ^ 32)%Z) ->
  dict_get a k = Some (BArr BU32 [n] (map (fun q => CZ (Z.of_nat (h (q_c q)))) Q)).
Proof.
  intros E G S. apply dict_get_In in E. destruct (af_gen _ HA _ _ E) as (v & V1 & V2). rewrite V2. f_equal.
  cbn [agen_eval] in V1. unfold rs2 in V1.
  rewrite (mapM_Forall2 _ (map q_rec2 Q) (map (fun q => h (q_c q)) Q)) in V1.
  - cbn [rbind] in V1. apply ok_inj in V1. subst v. rewrite map_map, map_length. f_equal.
    apply map_ext_in. intros q Hq. f_equal. apply Z.mod_small. split; [lia|now apply S].
  - apply (forall2_map _ q_rec2 (fun q => h (q_c q)) Q). intros q Hq. cbn [q_rec2 snd]. unfold dict_item.
    destruct (G q Hq) as (ty & s & data & D). now rewrite D.
Qed.

Lemma beams_at : dict_get a (str "num_beams") = Some (BArr BU32 [n] (map (fun q => CZ (Z.of_nat (c_beam (q_c q)))) Q)).
Proof.
  apply (count_at _ _ c_beam (tf_nbeams _ _ _ TF)).
  - intros q Hq. destruct (beams_get q Hq) as (d & D). eauto.
  - intros q Hq. apply (rf_small _ _ _ _ _ (fits q Hq) DBeam).
Qed.
Lemma blanks_at : g <> G4 ->
  dict_get a (str "num_blanked_samples") = Some (BArr BU32 [n] (map (fun q => CZ (Z.of_nat (c_blank (q_c q)))) Q)).
Proof.
  intros Hg. apply (count_at _ _ c_blank (tf_nblank _ _ _ TF Hg)).
  - intros q Hq. destruct (blanks_get q Hg Hq) as (d & D). eauto.
  - intros q Hq. apply (rf_small _ _ _ _ _ (fits q Hq) DBlank).
Qed.

Lemma array_int_map ty (h : quad -> Z) i q : is_int_type ty = true -> nth_error Q i = Some q ->
  array_int (BArr ty [n] (map (fun q => CZ (h q)) Q)) i = Ok (h q).
Proof.
  intros HI Hi. cbn [array_int]. rewrite HI. cbn [negb]. pose proof (nth_lt _ _ Hi) as Hn. apply Nat.ltb_lt in Hn.
  rewrite Hn, nth_error_map, Hi. reflexivity.
Qed.

Lemma data_layout_of k : data_field t k = true -> layout t k = data_layout t /\ str_eqb k s_ppo_name = false.
Proof.
  intros H. apply data_field_names in H.
  unfold data_names in H. cbn [In] in H. repeat destruct H as [H|H]; try contradiction; subst; split; vm_compute; reflexivity.
Qed.

Lemma tp_many k ty : many_in g t dims k ty = true -> str_eqb k s_ppo_name = false -> tp k = map mx (layout t k).
Proof. intros M N. apply many_in_ok in M as (_ & M & _). unfold tp. fold F in M. rewrite M. unfold top. now rewrite N. Qed.

Lemma sdim_ok i q d s : nth_error Q i = Some q -> (s = DBlank -> g <> G4) -> sdim_sym g t d = Some s ->
  sdim_eval a i d = Ok [Z.of_nat (dim_val z (q_c q) s)].
Proof.
  intros Hi Hg E. destruct d as [kf|kf j|kf|]; cbn [sdim_sym] in E; try discriminate.
  - cbn [sdim_eval]. unfold dict_item. destruct (str_eqb kf (str "num_sequences")) eqn:E1.
    { apply str_eqb_eq in E1. subst kf. inversion E; subst s. destruct (seq_at i q Hi) as (data & D1 & D2). rewrite D1.
      cbn [rbind array_int is_int_type negb]. pose proof (nth_lt _ _ Hi) as Hn. apply Nat.ltb_lt in Hn. now rewrite Hn, D2. }
    destruct (str_eqb kf (str "num_beams")) eqn:E2.
    { apply str_eqb_eq in E2. subst kf. inversion E; subst s. rewrite beams_at. cbn [rbind].
      now rewrite (array_int_map _ (fun q => Z.of_nat (c_beam (q_c q))) i q). }
    destruct (str_eqb kf (str "num_blanked_samples")) eqn:E3; [|discriminate].
    apply str_eqb_eq in E3. subst kf. inversion E; subst s. rewrite blanks_at by now apply Hg. cbn [rbind].
    now rewrite (array_int_map _ (fun q => Z.of_nat (c_blank (q_c q))) i q).
  - destruct j as [|j]; [discriminate|]. cbn [sdim_eval]. unfold dict_item.
    assert (G : exists ty, many_in g t dims kf ty = true /\ str_eqb kf s_ppo_name = false /\
      nth_error (layout t kf) j = Some s /\ fixed_dim s = true).
    { destruct (data_field t kf) eqn:ED.
      - destruct (data_layout_of kf ED) as [L1 L2]. exists BC64. unfold fixed_at in E.
        destruct (nth_error (data_layout t) j) as [d|] eqn:EN; [|discriminate]. destruct (fixed_dim d) eqn:EF; [|discriminate].
        inversion E; subst s. splits; auto; [now apply (tf_data _ _ _ TF)|now rewrite L1].
      - destruct j; [|discriminate]. unfold tx_dim in E.
        assert (G : kf = str "tx_antenna_phases" /\ s = DPhase /\ tx_dim g t (str "tx_antenna_phases") = Some DPhase /\ t <> AntennasIq).
        { clear - E. destruct g; try discriminate; destruct t; try discriminate; destruct (str_eqb kf (str "tx_antenna_phases")) eqn:EK;
            try discriminate; apply str_eqb_eq in EK; inversion E; splits; auto; discriminate. }
        destruct G as (-> & -> & G & Gt). exists BC64. splits; auto; [now apply (tf_tx _ _ _ TF DPhase)|].
        clear - Gt. destruct t; [now destruct Gt|reflexivity..]. }
    destruct G as (ty & G1 & G2 & G3 & G4').
    destruct (many_in_ok _ _ _ _ _ G1) as (M1 & _). destruct (af_vary _ HA kf M1) as (ty' & c & data & _ & _ & A3 & _).
    rewrite A3. cbn [rbind get_shape bshape]. rewrite (tp_many _ _ G1 G2). cbn [nth_error]. rewrite nth_error_map, G3.
    cbn [option_map]. now rewrite (mx_fixed s (q_c q) G4').
Qed.

Lemma sdims_ok i q k sds : nth_error Q i = Some q -> In k (map fst dims) ->
  Forall2 (fun d s => sdim_sym g t d = Some s) sds (layout t k) ->
  exists zs, mapM (sdim_eval a i) sds = Ok zs /\ concat zs = map Z.of_nat (shape_of t z (q_c q) k).
Proof.
  intros Hi Hk HS. exists (map (fun s => [Z.of_nat (dim_val z (q_c q) s)]) (layout t k)). split.
  - apply mapM_Forall2. assert (HG : In DBlank (layout t k) -> g <> G4) by now apply blank_gen.
    revert HG. induction HS as [|d s l m E HS IH]; intros HG; cbn [map]; constructor.
    + apply (sdim_ok i q); auto. intros ->. apply HG. now left.
    + apply IH. intros H. apply HG. now right.
  - unfold shape_of. rewrite map_map. exact (concat_single (fun s => Z.of_nat (dim_val z (q_c q) s)) (layout t k)).
Qed.

Lemma array_item_ok ty ds data i q ss b c zs : ds <> [] -> i < n -> length data = n * size ds -> length b = size ss ->
  Forall2 le ss ds -> row_of ds i data = paste ds ss (repeat c (size ds)) b -> slice_shape ds zs = Ok ss ->
  nth_error Q i = Some q ->
  array_item (BArr ty (n :: ds) data) i zs = Ok (BArr ty ss b).
Proof.
  intros H0 Hi HL Hb Hle HR HS _. cbn [array_item]. rewrite HS. cbn [rbind]. apply Nat.ltb_lt in Hi. rewrite Hi, HR.
  rewrite corner_paste by (auto; apply repeat_length). destruct ds; [now destruct H0|reflexivity].
Qed.

Lemma many_item_ok k i q : In k (map fst dims) -> dict_get (fm_single F) k = None -> nth_error Q i = Some q ->
  exists v, site_item F a i k = Ok v /\ dict_get (q_r2 q) k = Some v.
Proof.
  intros Hk E Hi. destruct (af_vary _ HA k Hk) as (ty & c & data & A1 & A2 & A3 & A4 & A5).
  destruct (A5 i q Hi) as (v & ss & b & B1 & B2 & B3 & B4 & B5 & B6). rewrite E in B6. destruct B6 as [-> ES].
  exists (BArr ty ss b). split; [|assumption].
  pose proof (nth_lt _ _ Hi) as Hn. pose proof (nth_in _ _ Hi) as Hq.
  unfold field_type in A1. rewrite E in A1. unfold dict_item in A1.
  destruct (dims_row _ Hk) as (ads & Hr).
  destruct (row_cases _ _ Hr) as [(ty' & c' & C1 & _)|(_ & ty' & c' & sds & C1 & C2 & C3 & C4 & C5)]; [congruence|].
  rewrite C1 in A1. apply ok_inj in A1. subst ty'.
  assert (EN : np ty = ty) by (destruct ty; try reflexivity; now destruct C4).
  assert (ET : tp k = top k) by (unfold tp; now rewrite E). rewrite ET in *. rewrite EN in A3.
  unfold site_item. rewrite E. unfold dict_item. rewrite C1, C2, A3. cbn [rbind].
  destruct C5 as [(-> & _ & -> & ->)|(N & _ & HS)].
  - destruct (seq_at i q Hi) as (sd & D1 & D2).
    assert (SQ : 1 <= c_seq (q_c q)) by (apply (rf_pos _ _ _ _ _ (fits q Hq) DSeq); discriminate).
    pose proof (mx_le q DSeq Hq) as MS. cbn [dim_val] in MS.
    unfold top in *. rewrite str_eqb_refl in *. unfold lay in ES. rewrite str_eqb_refl in ES.
    cbn [mapM sdim_eval]. unfold dict_item. change s_ppo with s_ppo_name. rewrite A3, D1. cbn [rbind array_int is_int_type negb].
    pose proof Hn as Hn'. apply Nat.ltb_lt in Hn'. rewrite Hn', D2. cbn [rbind].
    destruct (ppo_top_ok Hk) as [_ [(HS & ET2)|[(p & HS & ET2 & Hp & Hc)|(p & HS & ET2 & Hp)]]]; rewrite HS in ES;
      rewrite ET2 in *; subst ss.
    + replace (Z.of_nat (size [n; 0%nat]) <? Z.of_nat (c_seq (q_c q)))%Z with true by (symmetry; apply Z.ltb_lt; cbn [size]; lia).
      cbn [rbind concat app]. apply (array_item_ok _ _ _ _ q _ _ c); auto. discriminate.
    + specialize (Hc q Hq).
      replace (Z.of_nat (size [n; p]) <? Z.of_nat (c_seq (q_c q)))%Z with false
        by (symmetry; apply Z.ltb_ge, Nat2Z.inj_le; cbn [size]; unfold n; clear - Hc; nia).
      cbn [rbind concat app tl map]. apply (array_item_ok _ _ _ _ q _ _ c); auto; [discriminate|].
      cbn [slice_shape rbind]. unfold slice_stop. destruct (Z.ltb_spec (Z.of_nat (c_seq (q_c q))) 0); [lia|].
      rewrite Nat2Z.id, Nat.min_r by lia. reflexivity.
    + replace (Z.of_nat (size [n; mx DSeq; p]) <? Z.of_nat (c_seq (q_c q)))%Z with false
        by (symmetry; apply Z.ltb_ge, Nat2Z.inj_le; cbn [size]; apply (Nat.le_trans _ (1 * (mx DSeq * (1 * 1)))); [lia|];
            repeat apply Nat.mul_le_mono; lia).
      cbn [rbind concat app tl map]. apply (array_item_ok _ _ _ _ q _ _ c); auto; [discriminate|].
      apply (slice_shape_le [mx DSeq; p] [c_seq (q_c q); p]). assumption.
  - destruct (sdims_ok i q k sds Hi Hk HS) as (zs & Z1 & Z2). rewrite Z1. cbn [rbind]. rewrite Z2.
    assert (NE : str_eqb k s_ppo_name = false) by (destruct (str_eqb k s_ppo_name) eqn:EE; [apply str_eqb_eq in EE; contradiction|reflexivity]).
    assert (ES' : ss = shape_of t z (q_c q) k) by (unfold lay in ES; now rewrite NE in ES).
    apply (array_item_ok _ _ _ _ q _ _ c); auto.
    + unfold top. rewrite NE. pose proof (layout_cons t k). destruct (layout t k); [contradiction|discriminate].
    + subst ss. rewrite ES' in B4 |- *. now apply slice_shape_le.
Qed.

Hypothesis HCom : forall k q q', role_of g t k Common -> In q Q -> In q' Q -> dict_get (q_r q) k = dict_get (q_r q') k.

Lemma gen_value k e i q : In (k, e) (fm_site_gen F) -> nth_error Q i = Some q ->
  (k = names_field g t /\ sgen_eval a i e = Ok (names_value g t)) \/
  (k = dims_field g t /\ exists v, sgen_eval a i e = Ok v /\ dict_get (q_r q) k = Some v).
Proof.
  intros H Hi. pose proof (tf_sgen _ _ _ TF _ H) as HS. destruct e as [ty l|l]; cbn [site_gen_fact] in HS.
  - left. rewrite !andb_true_iff in HS. destruct HS as [[[[H1 H2] H3] H4] H5]. apply str_eqb_eq in H1. apply btype_eqb_eq in H2.
    apply Nat.eqb_eq in H4. apply (combine_eq _ _ H4) in H5. subst. split; reflexivity.
  - right. rewrite andb_true_iff in HS. destruct HS as [H1 H2]. apply str_eqb_eq in H1. split; [assumption|].
    apply syms_are_ok in H2. pose proof (nth_in _ _ Hi) as Hq.
    assert (E : mapM (sdim_eval a i) l = Ok (map (fun s => [Z.of_nat (dim_val z (q_c q) s)]) (data_layout t))).
    { apply mapM_Forall2. assert (HG : ~ In DBlank (data_layout t)) by (clear; destruct t; cbn; intuition discriminate).
      clear H H1. revert HG. induction H2 as [|d s l' m E2 HS IH]; intros HG; cbn [map]; constructor.
      - apply (sdim_ok i q); auto. intros ->. exfalso. apply HG. now left.
      - apply IH. intros C; apply HG; now right. }
    cbn [sgen_eval]. rewrite E. cbn [rbind]. rewrite concat_single. eexists. split; [reflexivity|].
    rewrite H1, (rf_dims _ _ _ _ _ (fits q Hq)). rewrite map_length, map_map. do 2 f_equal. apply map_ext. intros d. f_equal.
    symmetry. apply Z.mod_small. split; [lia|apply (rf_small _ _ _ _ _ (fits q Hq))].
Qed.

Lemma site_item_ok k i q : In k (map fst dims) -> nth_error Q i = Some q ->
  exists v, site_item F a i k = Ok v /\ dict_get (q_r2 q) k = Some v.
Proof.
  intros Hk Hi. destruct (dict_get (fm_single F) k) as [ty|] eqn:E; [eapply single_item_ok|eapply many_item_ok]; eauto.
Qed.

Lemma site_record_ok i q : nth_error Q i = Some q ->
  exists r', site_record F a i = Ok r' /\ NoDup (map fst r') /\
    (forall k, In k (map fst r') <-> In k (fm_shared F) \/ In k (map fst (fm_site_gen F)) \/ In k (map fst dims)) /\
    dict_get r' (names_field g t) = Some (names_value g t) /\
    (forall k, k <> names_field g t -> In k (map fst r') -> dict_get r' k = dict_get (q_r2 q) k).
Proof.
  intros Hi. pose proof (nth_in _ _ Hi) as Hq. destruct first_quad as (q0 & Q' & EQ & Hq0).
  assert (SH : forall k, In k (fm_shared F) -> exists v, dict_get a k = Some v).
  { intros k Hk. destruct (dict_get a k) as [v|] eqn:E; [now exists v|]. exfalso. apply dict_get_none in E. apply E.
    apply (af_keys _ HA). now left. }
  unfold site_record.
  destruct (mapM_pairs (fun k => k) (fun k => dict_item a k) (fm_shared F)) as (sh & S1 & S2 & S3).
  { intros k Hk. unfold dict_item. destruct (SH k Hk) as (v & ->). eauto. }
  rewrite S1. cbn [rbind].
  destruct (mapM_pairs (fun p : pystr * sgen => fst p) (fun p => sgen_eval a i (snd p)) (fm_site_gen F)) as (sp & P1 & P2 & P3).
  { intros [k e] Hk. cbn [snd]. destruct (gen_value k e i q Hk Hi) as [[_ E]|(_ & v & E & _)]; rewrite E; eauto. }
  rewrite P1. cbn [rbind]. unfold unshared_fields. unfold F at 1. rewrite (tf_dims _ _ _ TF). cbn [rbind].
  destruct (mapM_pairs (fun k => k) (fun k => site_item F a i k) (map fst dims)) as (un & U1 & U2 & U3).
  { intros k Hk. destruct (site_item_ok k i q Hk Hi) as (v & E & _). eauto. }
  rewrite U1. cbn [rbind]. eexists. split; [reflexivity|].
  assert (S2' : map fst sh = fm_shared F) by (rewrite S2; apply map_id).
  assert (U2' : map fst un = map fst dims) by (rewrite U2; apply map_id).
  assert (N1 : NoDup (map fst sh)) by (rewrite S2'; apply (tf_nd_shared _ _ _ TF)).
  assert (N2 : NoDup (map fst sp)) by (rewrite P2; apply (tf_nd_sgen _ _ _ TF)).
  assert (N3 : NoDup (map fst un)) by (rewrite U2'; apply (tf_nd_dims _ _ _ TF)).
  assert (KK : forall k, In k (map fst (dict_update (dict_update (dict_update [] sh) sp) un)) <->
    In k (fm_shared F) \/ In k (map fst (fm_site_gen F)) \/ In k (map fst dims)).
  { intros k. rewrite !dict_update_keys, U2', P2, S2'. cbn [map In]. tauto. }
  assert (GEN : forall k v e, In (k, e) (fm_site_gen F) -> sgen_eval a i e = Ok v ->
     dict_get (dict_update (dict_update (dict_update [] sh) sp) un) k = Some v).
  { intros k v e He Ev. rewrite !dict_get_update by assumption.
    replace (dict_get un k) with (@None bval).
    - assert (In (k, v) sp) as HI by (apply (P3 (k, e)); assumption). apply (dict_get_nodup _ _ _ N2) in HI. now rewrite HI.
    - symmetry. apply dict_get_none. rewrite U2'. intros C. apply (tf_dims_sgen _ _ _ TF _ C). apply in_map_iff. now exists (k, e). }
  splits.
  - repeat apply dict_update_nodup. constructor.
  - exact KK.
  - pose proof (tf_names _ _ _ TF) as HN. apply in_map_iff in HN as ([k e] & EK & He). cbn [fst] in EK. subst k.
    destruct (gen_value _ _ i q He Hi) as [[_ E]|(C & _)]; [|exfalso; apply (tf_differ _ _ _ TF); assumption].
    now apply (GEN _ _ e).
  - intros k Hk HI.
    assert (D : {In k (map fst dims)} + {~ In k (map fst dims)}).
    { apply in_dec. intros x y. destruct (str_eqb x y) eqn:EB; [left; now apply str_eqb_eq|right; intros C; apply str_eqb_eq in C; congruence]. }
    destruct D as [HD|HD].
    + destruct (site_item_ok k i q HD Hi) as (v & E1 & E2). rewrite E2.
      rewrite dict_get_update by assumption.
      assert (In (k, v) un) as HU by (apply (U3 k); assumption). apply (dict_get_nodup _ _ _ N3) in HU. now rewrite HU.
    + apply KK in HI. destruct HI as [HI|[HI|HI]]; [| |contradiction].
      * rewrite !dict_get_update by assumption.
        replace (dict_get un k) with (@None bval) by (symmetry; apply dict_get_none; now rewrite U2').
        replace (dict_get sp k) with (@None bval)
          by (symmetry; apply dict_get_none; rewrite P2; now apply (tf_shared_sgen _ _ _ TF)).
        destruct (SH k HI) as (v & Ev).
        assert (In (k, v) sh) as HS by (apply (S3 k); [assumption|]; unfold dict_item; now rewrite Ev).
        apply (dict_get_nodup _ _ _ N1) in HS. rewrite HS. rewrite <- Ev, (af_common _ HA k q0 Q' EQ HI HD).
        destruct (shaped q0 Hq0) as [R0 _]. destruct (shaped q Hq) as [R1 _].
        rewrite R0, R1 by now apply (tf_shared_flat _ _ _ TF).
        apply HCom; auto. destruct (catalogue_lists g t HT) as (_ & _ & H3 & _).
        apply H3 in HI. destruct HI as [HI|[_ HI]]; [assumption|]. apply dims_role in HI. contradiction.
      * apply in_map_iff in HI as ([k' e] & EK & He). cbn [fst] in EK. subst k'.
        destruct (gen_value _ _ i q He Hi) as [[C _]|(EK & v & E1 & E2)]; [contradiction|].
        rewrite (GEN _ _ _ He E1). rewrite <- E2. symmetry. apply (shaped q Hq). rewrite EK. apply (tf_dims_flat _ _ _ TF).
Qed.

(** The record before and after flattening. *)
Definition good (q : quad) (r : brecord) : Prop :=
  NoDup (map fst r) /\
  (forall k, In k (map fst r) <-> In k (fm_shared F) \/ In k (map fst (fm_site_gen F)) \/ In k (map fst dims)) /\
  dict_get r (names_field g t) = Some (names_value g t) /\
  (forall k, k <> names_field g t -> In k (map fst r) -> dict_get r k = dict_get (q_r2 q) k).
Definition flat_ok (q : quad) (r : brecord) : Prop :=
  same_record g t (q_r q) r /\ NoDup (map fst r) /\
  (forall k, In k (map fst r) <-> exists ro, role_of g t k ro /\ ro <> MadeArray).

Lemma flatten_done q r : In q Q -> good q r -> exists r', flatten_one F r = Ok r' /\ flat_ok q r'.
Proof.
  intros Hq (A2 & A3 & A4 & A5).
  assert (KS : forall k, In k (fm_shared F) \/ In k (map fst (fm_site_gen F)) \/ In k (map fst dims) <->
    exists ro, role_of g t k ro /\ ro <> MadeArray).
  { intros k. destruct (catalogue_lists g t HT) as (_ & _ & H3 & _ & _ & _ & H7). unfold F in *.
    rewrite H3. change (map fst (fm_site_gen (format_class g t))) with (site_specific_fields (format_class g t)). rewrite H7.
    rewrite dims_role. split.
    - intros [[R|[_ R]]|[[R|R]|R]]; eexists; (split; [exact R|discriminate]).
    - intros (ro & R & N). destruct ro; auto. now destruct N. }
  assert (GO : forall k, ~ (exists ro, role_of g t k ro /\ ro <> MadeArray) -> dict_get (q_r q) k = None).
  { intros k N. apply dict_get_none. intros C. apply N. now apply (rf_fields _ _ _ _ _ (fits q Hq)). }
  unfold flatten_one. pose proof (tf_flat _ _ _ TF) as HFl. fold F in HFl.
  destruct (fm_flat F) as [[df fs]|].
  - destruct HFl as (_ & HN & HI).
    assert (HFI : forall k, In k fs -> k <> names_field g t /\ In k (map fst dims) /\ exists data,
      dict_get (q_r2 q) k = Some (BArr BC64 (shape_of t z (q_c q) k) data) /\ length data = size (shape_of t z (q_c q) k) /\
      dict_get (q_r q) k = Some (BArr BC64 [length data] data)).
    { intros k Hk. apply HI in Hk as Hk'. pose proof Hk' as Hfl. unfold flat in Hk'. apply andb_true_iff in Hk' as [Hd _].
      pose proof (tf_data _ _ _ TF _ Hd) as M. apply many_in_ok in M as (M1 & M2 & M3).
      destruct (data_layout_of k Hd) as [_ NP]. split; [|split; [exact M1|]].
      - intros ->. rewrite (tf_names_flat _ _ _ TF) in Hfl. discriminate.
      - assert (NP' : k <> str "pulse_phase_offset") by (intros ->; unfold s_ppo_name in NP; rewrite str_eqb_refl in NP; discriminate).
        destruct (rf_many _ _ _ _ _ (fits q Hq) k BC64 (many_listed _ _ M1 M3) NP') as (data & D1 & D2).
        exists data. unfold stored_shape in D1. rewrite Hfl, <- D2 in D1. splits; auto.
        destruct (shaped q Hq) as [_ S2]. rewrite (S2 k Hfl), D1. reflexivity. }
    destruct (flatten_record_ok fs HN r) as (r2 & R1 & R2 & R3 & R4).
    { intros k Hk. destruct (HFI k Hk) as (X1 & X2 & data & X3 & _). rewrite A5 by (auto; apply A3; auto). eauto. }
    exists r2. split; [exact R1|].
    unfold flat_ok. rewrite R2. splits; auto.
    + split.
      * intros k Hk. destruct (flat g t k) eqn:EF.
        -- apply HI in EF. rewrite R3 by assumption. destruct (HFI k EF) as (X1 & X2 & data & X3 & X4 & X5).
           rewrite A5 by (auto; apply A3; auto). rewrite X3, X5. reflexivity.
        -- rewrite R4 by (rewrite HI; congruence).
           destruct (dict_get r k) as [v|] eqn:EV.
           ++ rewrite <- EV. rewrite A5; [|assumption|].
              ** now apply (shaped q Hq).
              ** apply dict_get_In in EV. apply in_map_iff. now exists (k, v).
           ++ symmetry. apply GO. rewrite <- KS, <- A3. now apply dict_get_none.
      * rewrite R4; [assumption|]. rewrite HI. rewrite (tf_names_flat _ _ _ TF). discriminate.
    + intros k. rewrite A3. apply KS.
  - exists r. split; [reflexivity|]. unfold flat_ok. splits; auto.
    + split; [|assumption]. intros k Hk. destruct (dict_get r k) as [v|] eqn:EV.
      * rewrite <- EV. rewrite A5; [|assumption|].
        -- apply (shaped q Hq). apply HFl.
        -- apply dict_get_In in EV. apply in_map_iff. now exists (k, v).
      * symmetry. apply GO. rewrite <- KS, <- A3. now apply dict_get_none.
    + intros k. rewrite A3. apply KS.
Qed.

(** ** What the array dictionary holds *)
Lemma top_mx d : top_dim z (map q_c Q) d = mx d.
Proof. unfold top_dim, mx. now rewrite map_map. Qed.

Lemma row_held k ty c data i q v ss b : nth_error Q i = Some q -> fill_cell ty = Ok c ->
  length data = n * size (tp k) -> Forall2 le ss (tp k) -> length b = size ss ->
  row_of (tp k) i data = paste (tp k) ss (repeat c (size (tp k))) b -> v = ss ->
  row_holds ty (length (map q_rec Q)) (tp k) data i v b.
Proof.
  intros Hi Hc HL Hs Hb HR -> idx HX. rewrite map_length. fold n.
  rewrite row_cell by (auto; eapply nth_lt; eauto). rewrite HR.
  destruct (paste_at (tp k) ss (repeat c (size (tp k))) b idx Hs (repeat_length _ _) Hb HX) as [P1 P2].
  split; [exact P1|]. intros N. rewrite (P2 N), <- (blank_of _ _ Hc). apply nth_error_repeat. now apply offset_lt.
Qed.

Lemma arrays_done : arrays_of g t z (map q_c Q) (map q_rec Q) a.
Proof.
  assert (LQ : length (map q_rec Q) = n) by (rewrite map_length; reflexivity).
  assert (NQ : forall i nm r, nth_error (map q_rec Q) i = Some (nm, r) -> exists q, nth_error Q i = Some q /\ r = q_r q).
  { intros i nm r H. rewrite nth_error_map in H. destruct (nth_error Q i) as [q|]; [|discriminate]. cbn in H.
    exists q. split; [reflexivity|]. unfold q_rec in H. now inversion H. }
  assert (GC : forall kf h, (forall q, In q Q -> exists ty s data, dict_get (q_r2 q) kf = Some (BArr ty (h (q_c q) :: s) data)) ->
     (forall q, In q Q -> (Z.of_nat (h (q_c q)) < 2 ^ 32)%Z) ->
     agen_eval rs2 (GCounts kf) = Ok (BArr BU32 [n] (map (fun c => CZ (Z.of_nat (h c))) (map q_c Q)))).
  { intros kf h G HS. cbn [agen_eval]. unfold rs2.
    rewrite (mapM_Forall2 _ (map q_rec2 Q) (map (fun q => h (q_c q)) Q)).
    - cbn [rbind]. rewrite map_length, !map_map. do 2 f_equal. apply map_ext_in. intros q Hq. f_equal. apply Z.mod_small. split; [lia|auto].
    - apply (forall2_map _ q_rec2 (fun q => h (q_c q)) Q). intros q Hq. cbn [q_rec2 snd]. unfold dict_item.
      destruct (G q Hq) as (ty & s & data & D). now rewrite D. }
  assert (KV : forall k, role_of g t k Varying -> In k (map fst dims)) by (intros k; apply dims_role).
  constructor.
  - apply (af_nodup _ HA).
  - intros k. change (keys a) with (map fst a). rewrite (af_keys _ HA).
    destruct (catalogue_lists g t HT) as (_ & _ & H3 & _ & _ & H6 & _). unfold F in *.
    rewrite H3. change (map fst (fm_array_gen (format_class g t))) with (array_specific_fields (format_class g t)). rewrite H6.
    rewrite dims_role. split.
    + intros [[R|[_ R]]|[[R|R]|R]]; eexists; (split; [exact R|discriminate]).
    + intros (ro & R & N). destruct ro; auto. now destruct N.
  - intros k nm r HR HI. apply in_map_iff in HI as (q & E & Hq). unfold q_rec in E. inversion E; subst nm r.
    destruct first_quad as (q0 & Q' & EQ & Hq0).
    assert (HS : In k (fm_shared F)). { destruct (catalogue_lists g t HT) as (_ & _ & H3 & _). apply H3. now left. }
    rewrite (af_common _ HA k q0 Q' EQ HS).
    + destruct (shaped q0 Hq0) as [R0 _]. rewrite R0 by now apply (tf_shared_flat _ _ _ TF). now apply HCom.
    + rewrite dims_role. intros C. pose proof (role_unique _ _ _ _ _ HR C). discriminate.
  - intros k ty HL.
    assert (Hk : In k (map fst dims)) by (apply KV; now exists One, ty).
    assert (ES : dict_get (fm_single F) k = Some ty).
    { apply dict_get_nodup; [apply (tf_nd_single _ _ _ TF)|]. destruct (catalogue_lists g t HT) as (H1 & _). apply H1. now exists Varying. }
    destruct (af_vary _ HA _ Hk) as (ty' & c & data & A1 & A2 & A3 & A4 & A5).
    assert (ty' = ty) by (unfold field_type in A1; rewrite ES in A1; now inversion A1). subst ty'.
    assert (ET : tp k = []) by (unfold tp; now rewrite ES). rewrite ET in *. exists data. rewrite LQ. split; [exact A3|].
    cbn [size] in A4. rewrite Nat.mul_1_r in A4.
    assert (G : Forall2 (fun q c => dict_get (q_r q) k = Some (plain_value ty c)) Q data).
    { apply forall2_from_nth; [now rewrite A4|]. intros i q Hi. pose proof (nth_in _ _ Hi) as Hq.
      destruct (A5 i q Hi) as (v & ss & b & C1 & C2 & C3 & C4 & C5 & C6). rewrite ES in C6. destruct C6 as [HO ->].
      apply in_map_iff in Hk as ([k' ads] & EK & Hr). cbn [fst] in EK. subst k'.
      destruct (row_cases _ _ Hr) as [(ty' & c' & B1 & _ & _ & B2 & B3 & _)|(B1 & _)]; [|congruence].
      assert (ty' = ty) by congruence. subst ty'.
      destruct (assigned_one ty v HO B2) as (x & D1 & _ & D2). rewrite C2 in D1. inversion D1; subst b. rewrite ET in C5. cbn [paste] in C5.
      exists x. split.
      - assert (E1 : nth_error (row_of [] i data) 0 = Some x) by (rewrite C5; reflexivity).
        rewrite <- E1. pose proof (row_cell [] n i data [] ltac:(cbn [size]; lia) (nth_lt _ _ Hi) ltac:(constructor)) as RC.
        cbn [offset size] in RC. rewrite Nat.mul_1_r, Nat.add_0_r in RC. exact RC.
      - destruct (shaped q Hq) as [S1 _]. rewrite <- (S1 k B3), C1. f_equal.
        destruct D2 as [[N ->]|(s & -> & -> & ->)]; [|reflexivity]. now destruct ty. }
    assert (GG : Forall2 (fun c p => dict_get (snd p) k = Some (plain_value ty c)) data (map q_rec Q)).
    { clear - G. induction G; cbn [map]; constructor; auto. }
    exact GG.
  - intros k ty HL NP ms.
    assert (Hk : In k (map fst dims)) by (apply KV; now exists Many, ty).
    assert (EA : dict_get (fm_array F) k = Some ty).
    { apply dict_get_nodup; [apply (tf_nd_array _ _ _ TF)|]. destruct (catalogue_lists g t HT) as (_ & H2 & _). apply H2. now exists Varying. }
    assert (ES : dict_get (fm_single F) k = None).
    { destruct (dict_get (fm_single F) k) as [ty'|] eqn:E; [|reflexivity]. exfalso. pose proof (one_listed _ _ Hk E) as L'.
      destruct (listed_unique _ _ _ _ _ _ _ _ _ HL L') as (C & _). discriminate. }
    assert (EP : str_eqb k s_ppo_name = false) by (apply str_eqb_neq; exact NP).
    assert (ET : tp k = ms).
    { unfold tp, top, ms. rewrite ES, EP. apply map_ext. intros d. symmetry. apply top_mx. }
    destruct (af_vary _ HA _ Hk) as (ty' & c & data & A1 & A2 & A3 & A4 & A5).
    assert (ty' = ty) by (unfold field_type, dict_item in A1; rewrite ES, EA in A1; now inversion A1). subst ty'.
    assert (NS : np ty = ty).
    { apply in_map_iff in Hk as ([k' ads] & EK & Hr). cbn [fst] in EK. subst k'.
      destruct (row_cases _ _ Hr) as [(ty' & c' & B1 & _)|(_ & ty' & c' & sds & B1 & _ & _ & B2 & _)]; [congruence|].
      assert (ty' = ty) by congruence. subst. destruct ty; try reflexivity. congruence. }
    rewrite NS in A3. exists data. rewrite LQ. rewrite <- ET. splits; [exact A3|exact A4|].
    intros i c0 nm r Hc Hr. destruct (NQ _ _ _ Hr) as (q & Hi & ->).
    assert (c0 = q_c q) by (rewrite nth_error_map, Hi in Hc; cbn in Hc; congruence). subst c0.
    pose proof (nth_in _ _ Hi) as Hq.
    destruct (A5 i q Hi) as (v & ss & b & C1 & C2 & C3 & C4 & C5 & C6). rewrite ES in C6. destruct C6 as [-> SS].
    unfold lay in SS. rewrite EP in SS.
    destruct (rf_many _ _ _ _ _ (fits q Hq) k ty HL NP) as (data' & D1 & D2). exists data'. split; [exact D1|].
    assert (EB : b = data').
    { destruct (shaped q Hq) as [S1 S2]. destruct (flat g t k) eqn:EF.
      - rewrite (S2 k EF), D1 in C1. cbn [with_shape] in C1. now inversion C1.
      - rewrite (S1 k EF), D1 in C1. now inversion C1. }
    subst data'. rewrite <- LQ. eapply row_held; eauto.
  - intros HR. assert (Hk : In s_ppo_name (map fst dims)) by now apply KV.
    destruct (af_vary _ HA _ Hk) as (ty & c & data & A1 & A2 & A3 & A4 & A5).
    assert (GR : exists ads, In (s_ppo_name, ads) dims).
    { apply in_map_iff in Hk as ([k' ads] & EK & Hr). cbn [fst] in EK. subst k'. now exists ads. }
    destruct GR as (ads & Hr).
    destruct (row_cases _ _ Hr) as [(ty' & c' & _ & _ & _ & _ & _ & B)|(ES & ty' & c' & sds & EA & _ & _ & _ & [(_ & _ & _ & ->)|(B & _)])]; [congruence| |congruence].
    assert (ty = BF32) by (unfold field_type, dict_item in A1; rewrite ES, EA in A1; now inversion A1). subst ty.
    exists (tp s_ppo_name), data. rewrite LQ. splits; [exact A3|exact A4|].
    intros i nm r HI. destruct (NQ _ _ _ HI) as (q & Hi & ->). pose proof (nth_in _ _ Hi) as Hq.
    destruct (A5 i q Hi) as (v & ss & b & C1 & C2 & C3 & C4 & C5 & C6). rewrite ES in C6. destruct C6 as [-> SS].
    exists ss, b. splits.
    + destruct (shaped q Hq) as [S1 _]. rewrite <- C1. symmetry. apply S1. exact ppo_flat.
    + rewrite SS. unfold lay, tp, top. rewrite ES, str_eqb_refl.
      destruct (ppo_top_ok Hk) as [_ [(HS & ->)|[(p & HS & -> & _)|(p & HS & -> & _)]]]; rewrite HS; try reflexivity.
      cbn [ppo_greatest]. now rewrite top_mx.
    + rewrite <- LQ. eapply row_held; eauto.
  - destruct (af_gen _ HA (str "num_beams") (GCounts (str "beam_nums"))) as (v & E1 & E2).
    { apply dict_get_In. apply (tf_nbeams _ _ _ TF). }
    rewrite E2. f_equal. rewrite (GC _ c_beam) in E1.
    + rewrite LQ. now inversion E1.
    + intros q Hq. destruct (beams_get q Hq) as (d & D). eauto.
    + intros q Hq. apply (rf_small _ _ _ _ _ (fits q Hq) DBeam).
  - intros Hg. destruct (af_gen _ HA (str "num_blanked_samples") (GCounts (str "blanked_samples"))) as (v & E1 & E2).
    { apply dict_get_In. apply (tf_nblank _ _ _ TF Hg). }
    rewrite E2. f_equal. rewrite (GC _ c_blank) in E1.
    + rewrite LQ. now inversion E1.
    + intros q Hq. destruct (blanks_get q Hg Hq) as (d & D). eauto.
    + intros q Hq. apply (rf_small _ _ _ _ _ (fits q Hq) DBlank).
  - destruct (array_names_tables g t HT) as (ty & H1 & H2). exists ty. split; [|assumption].
    destruct (af_gen _ HA _ _ H1) as (v & E1 & E2). rewrite E2. cbn [agen_eval] in E1. now inversion E1.
Qed.

(** ** The loop over the records *)
Variable record_name : Z -> res pystr.
Variable nm : quad -> pystr.
Hypothesis HNm : forall q, In q Q -> exists b, first_time (q_r q) b /\ record_name b = Ok (nm q).

Lemma site_loop_ok (P : quad -> brecord -> Prop) (l : list quad) : forall rec times out,
  Forall2 (fun q row => exists b tl, row = CZ b :: tl /\ record_name b = Ok (nm q)) l times ->
  (forall j q, nth_error l j = Some q -> exists r', site_record F a (rec + j) = Ok r' /\ P q r') ->
  exists l', site_loop record_name F a times rec out = Ok (dict_update out l') /\
    Forall2 (fun q p => fst p = nm q /\ P q (snd p)) l l'.
Proof.
  induction l as [|q l IH]; intros rec times out HT' HR; inversion HT' as [|? row ? times' (b & tl & -> & Eb) HT'']; subst; cbn [site_loop].
  - exists []. auto.
  - rewrite Eb. cbn [rbind]. destruct (HR 0 q eq_refl) as (r' & R1 & R2). rewrite Nat.add_0_r in R1. rewrite R1. cbn [rbind].
    destruct (IH (rec + 1) times' (dict_set out (nm q) r')) as (l' & L1 & L2); auto.
    + intros j q' Hj. destruct (HR (S j) q' Hj) as (r'' & X & Y). exists r''. split; [|assumption].
      replace (rec + 1 + j) with (rec + S j) by lia. exact X.
    + exists ((nm q, r') :: l'). rewrite L1. split; [reflexivity|]. constructor; auto.
Qed.

Lemma from_array_gen : exists rs', array_to_site record_name F a = Ok rs' /\ keys rs' = first_names (map nm Q) /\
  forall pre q post, Q = pre ++ q :: post -> ~ In (nm q) (map nm post) ->
    exists r', dict_get rs' (nm q) = Some r' /\ flat_ok q r'.
Proof.
  destruct (many_in_ok _ _ _ _ _ (tf_time _ _ _ TF)) as (M1 & M2 & M3).
  destruct (af_vary _ HA _ M1) as (ty & c & data & A1 & A2 & A3 & A4 & A5).
  assert (ET : tp (str "sqn_timestamps") = [mx DSeq]) by (rewrite (tp_many _ _ (tf_time _ _ _ TF)); reflexivity).
  rewrite ET in *.
  assert (TT : time_type (np ty) = true).
  { clear - A1 M2 M3. unfold field_type, dict_item in A1. unfold F in A1. rewrite M2, M3 in A1. apply ok_inj in A1 as <-. reflexivity. }
  unfold array_to_site. unfold F at 1. rewrite (tf_restr _ _ _ TF). cbn [negb]. unfold dict_item. rewrite A3. cbn [rbind]. rewrite TT. cbn [negb].
  destruct (site_loop_ok good Q 0 (rows n (mx DSeq) data) []) as (L & L1 & L2).
  - assert (HL : length data = n * mx DSeq) by (rewrite A4; cbn [size]; lia).
    assert (GR : forall i q, nth_error Q i = Some q -> exists row, nth_error (rows n (mx DSeq) data) i = Some row /\
      exists b tl, row = CZ b :: tl /\ record_name b = Ok (nm q)).
    { intros i q Hi. pose proof (nth_in _ _ Hi) as Hq. pose proof (nth_lt _ _ Hi) as Hn.
      rewrite nth_error_rows by assumption. eexists. split; [reflexivity|].
      destruct (HNm q Hq) as (b & (ty1 & s1 & l1 & B1) & B2).
      destruct (A5 i q Hi) as (v & ss & bb & C1 & C2 & C3 & C4 & C5 & C6). fold F in M2. rewrite M2 in C6. destruct C6 as [-> ES].
      rewrite ET in *.
      assert (EB : bb = CZ b :: l1).
      { destruct (shaped q Hq) as [S1 _]. rewrite S1 in C1; [congruence|]. clear. destruct t, g; reflexivity. }
      exists b. unfold row_of in C5. cbn [size] in C5. rewrite Nat.mul_1_r in C5. rewrite C5.
      assert (SS : ss = [c_seq (q_c q)]) by (rewrite ES; reflexivity). subst ss. rewrite SS in *.
      assert (SQ : 1 <= c_seq (q_c q)) by (apply (rf_pos _ _ _ _ _ (fits q Hq) DSeq); discriminate).
      pose proof (mx_le q DSeq Hq) as MS. cbn [dim_val] in MS.
      assert (LR : length (repeat c (mx DSeq)) = size [mx DSeq]) by (rewrite repeat_length; cbn [size]; lia).
      destruct (paste_at [mx DSeq] [c_seq (q_c q)] (repeat c (mx DSeq)) bb [0] C4 LR C3) as [PA _].
      { repeat constructor. lia. }
      specialize (PA ltac:(repeat constructor; lia)). rewrite EB in PA |- *. cbn [offset size nth_error Nat.mul Nat.add] in PA.
      destruct (paste [mx DSeq] [c_seq (q_c q)] _ (CZ b :: l1)) as [|x tl]; [discriminate|]. cbn [nth_error] in PA.
      inversion PA; subst x. exists tl. split; [reflexivity|assumption]. }
    assert (LR : length (rows n (mx DSeq) data) = length Q) by apply rows_length.
    apply forall2_from_nth; [now rewrite LR|]. exact GR.
  - intros j q Hj. cbn [Nat.add]. destruct (site_record_ok j q Hj) as (r' & X & Y). exists r'. split; [exact X|exact Y].
  - cbn [app] in L1. rewrite L1. cbn [rbind].
    replace (match n with 0 | _ => flatten_site_arrays F (dict_update [] L) end) with (flatten_site_arrays F (dict_update [] L)) by (clear; now destruct n).
    destruct (flatten_all F (dict_update [] L)) as (rs' & F1 & F2 & F3).
    { intros k r HI. apply dict_update_in in HI. destruct HI as [HI|[]].
      destruct (forall2_in_r _ _ _ _ L2 HI) as (q & Hq & _ & HG). cbn [snd] in HG.
      destruct (flatten_done q r Hq HG) as (r' & X & _). eauto. }
    exists rs'. split; [exact F1|]. split.
    + rewrite F2. unfold keys. rewrite dict_update_first. f_equal. clear - L2. induction L2 as [|q p l l' [H _] L2 IH]; cbn; [reflexivity|].
      now rewrite H, IH.
    + intros pre q post EQ HN.
      destruct (forall2_split _ _ _ _ _ _ L2 EQ) as (pre' & p & post' & EL & [E1 HG] & L3).
      destruct p as [k r]. cbn [fst snd] in *. subst k.
      assert (Hq : In q Q) by (rewrite EQ; apply in_or_app; right; now left).
      destruct (flatten_done q r Hq HG) as (r' & X1 & X2). exists r'. split; [|exact X2].
      apply (F3 (nm q) r r'); [|exact X1]. rewrite EL. apply dict_update_last.
      intros C. apply HN. clear - C L3. induction L3 as [|q' p l l' [H _] L3 IH]; [destruct C|]. cbn in *. rewrite H in C. tauto.
Qed.
End Restructure.
