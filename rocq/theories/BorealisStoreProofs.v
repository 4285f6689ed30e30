(** Proofs about what writing puts into a file. *)
From Coq Require Import String ZArith List Bool Lia Permutation Sorted.
From Verif Require Import Base Bytes BytesProofs Utf8 SDarnFormats BorealisTypes BorealisFormats BorealisChecks BorealisArrays BorealisFile
  BorealisSpec BorealisFileSpec BorealisAppendSpec SDarnChecks DmapFileProofs BorealisCheckProofs BorealisFileProofs BorealisAppendProofs BorealisStoreSpec.
Import ListNotations.
Open Scope list_scope.
Open Scope Z_scope.

(** ** Values *)

Lemma asciib s : forallb (fun c => (0 <=? c) && (c <? 128)) s = true <-> ascii s.
Proof.
  unfold ascii. rewrite forallb_forall, Forall_forall. split; intros H x Hx; specialize (H x Hx); lia.
Qed.
Lemma strip_split s : exists n, s = strip_nul s ++ repeat 0 n /\ last (strip_nul s) 1 <> 0.
Proof.
  induction s as [|c s (n & E & L)]; [exists 0%nat; split; [reflexivity|discriminate]|].
  cbn [strip_nul]. destruct (strip_nul s) as [|x y] eqn:ES.
  - destruct (c =? 0) eqn:EC.
    + apply Z.eqb_eq in EC. exists (S n). cbn. split; [now rewrite EC, E at 1|discriminate].
    + apply Z.eqb_neq in EC. exists n. split; [cbn; now rewrite E at 1|exact EC].
  - exists n. split; [cbn [app]; now rewrite E at 1|exact L].
Qed.

Lemma attr_stored_ok v a : attr_stored v a -> write_attr v = Ok a.
Proof.
  intros [b n H L|t c H|t H].
  - cbn [write_attr]. assert (E : forallb (fun c => (0 <=? c) && (c <? 128)) (b ++ repeat 0 n) = true).
    { apply asciib. apply Forall_app. split; [exact H|]. apply Forall_forall. intros x Hx. apply repeat_spec in Hx. lia. }
    rewrite E. now rewrite strip_pad.
  - destruct t; try destruct H; reflexivity.
  - destruct H as [H| ->]; [destruct t; try destruct H|]; reflexivity.
Qed.
Lemma attr_fault_ok v e : attr_fault v e -> write_attr v = Raise e.
Proof.
  intros [s H]. cbn [write_attr]. destruct (forallb _ s) eqn:E; [|reflexivity]. exfalso. apply H. now apply asciib.
Qed.
Lemma attr_dec v : attr_known v -> (exists a, attr_stored v a) \/ exists e, attr_fault v e.
Proof.
  intros [s|t c H|t H]; [|left; eexists; now constructor|left; eexists; now constructor].
  destruct (forallb (fun c => (0 <=? c) && (c <? 128)) s) eqn:E.
  - left. apply asciib in E. destruct (strip_split s) as (n & E' & L). exists (HBytes (strip_nul s)). rewrite E' at 1. constructor; [|exact L].
    rewrite E' in E. now apply Forall_app in E.
  - right. exists UnicodeEncodeError. constructor. intros C. apply asciib in C. congruence.
Qed.

Lemma point_enc x : 0 <= x < 1114112 -> map CZ (le_enc 4 x) = point_bytes x.
Proof.
  intros H. unfold point_bytes. cbn [le_enc map]. rewrite !Z.div_div by lia. change (256 * 256) with 65536. change (65536 * 256) with 16777216.
  rewrite (Z.mod_small (x / 16777216) 256) by (split; [apply Z.div_pos; lia|apply Z.div_lt_upper_bound; lia]). reflexivity.
Qed.
Lemma points_enc s : Forall (fun x => 0 <= x < 1114112) s -> map CZ (flat_map (le_enc 4) s) = flat_map point_bytes s.
Proof.
  induction 1 as [|x s H _ IH]; [reflexivity|]. cbn [flat_map]. rewrite map_app, IH, <- (point_enc x H). reflexivity.
Qed.
Lemma text_block_ok w l b : Forall is_text l -> text_block w l b -> b = flat_map (item_bytes w) l.
Proof.
  intros F H. induction H as [|s l b H IH]; [reflexivity|]. inversion F as [|? ? (s' & E & T) F']; subst. injection E as <-.
  cbn [flat_map item_bytes]. rewrite <- (IH F'), points_enc; [reflexivity|]. apply Forall_app. split; [exact T|].
  apply Forall_forall. intros x Hx. apply repeat_spec in Hx. lia.
Qed.
Lemma text_block_ex w l : Forall is_text l -> exists b, text_block w l b.
Proof.
  induction 1 as [|c l (s & -> & _) _ (b & IH)]; [exists []; constructor|]. eexists. constructor. exact IH.
Qed.
Lemma width_in l : (0 < list_max l)%nat -> In (list_max l) l.
Proof.
  induction l as [|x l IH]; cbn [list_max fold_right]; [lia|]. fold (list_max l) in *. change (fold_right Nat.max 0%nat l) with (list_max l) in *. intros H.
  destruct (Nat.le_gt_cases x (list_max l)) as [L|L].
  - right. rewrite Nat.max_r in * by lia. apply IH. lia.
  - left. lia.
Qed.
Lemma text_width_item l : Forall is_text l -> text_width l (item_width l).
Proof.
  intros F. unfold item_width. split; [lia|]. split.
  - intros s Hs. assert (I : In (length s) (map text_length l)) by (apply in_map_iff; exists (CS s); split; [reflexivity|exact Hs]).
    apply list_max_ge in I. lia.
  - destruct (Nat.le_gt_cases (list_max (map text_length l)) 1) as [L|L]; [left; lia|right].
    assert (I : In (list_max (map text_length l)) (map text_length l)) by (apply width_in; lia).
    apply in_map_iff in I as (c & E & I). rewrite Forall_forall in F. destruct (F c I) as (s & -> & _). exists s. split; [exact I|].
    cbn [text_length] in E. lia.
Qed.
Lemma text_width_fun l w w' : text_width l w -> text_width l w' -> w = w'.
Proof.
  intros (A1 & A2 & A3) (B1 & B2 & B3). apply Nat.le_antisymm.
  - destruct A3 as [->|(s & I & <-)]; [exact B1|auto].
  - destruct B3 as [->|(s & I & <-)]; [exact A1|auto].
Qed.

Lemma compressible_ok av c s : compressible av c s <-> check_filter av c s = Ok tt.
Proof.
  unfold compressible, check_filter. destruct c as [n|]; [|split; auto]. split.
  - intros [C|(H & m & E & E')]; [discriminate|]. destruct s; [contradiction|]. injection E as <-. now rewrite E'.
  - destruct s; [discriminate|]. destruct (av n) eqn:E; [|discriminate]. intros _. right. split; [discriminate|eauto].
Qed.
Lemma filter_snoc av c init n m : check_filter av c (init ++ [n]) = check_filter av c (init ++ [m]).
Proof. destruct c, init; reflexivity. Qed.

Lemma raw_cases t : raw_type t -> t <> BStr /\ t <> BNpStr /\ t <> BOther.
Proof. intros [H| ->]; [destruct t; try destruct H|]; repeat split; congruence. Qed.
Lemma raw_array av c t s l : raw_type t -> write_dset av c (BArr t s l) = rbind (check_filter av c s) (fun _ => Ok (mk_hdset t s l None)).
Proof. intros [H| ->]; [destruct t; try destruct H|]; reflexivity. Qed.
Lemma raw_scalar av c t x : raw_type t -> write_dset av c (BScalar t x) = rbind (check_filter av c []) (fun _ => Ok (mk_hdset t [] [x] None)).
Proof. intros [H| ->]; [destruct t; try destruct H|]; reflexivity. Qed.
Lemma text_array av c init n l : write_dset av c (BArr BNpStr (init ++ [n]) l) =
  rbind (check_filter av c (init ++ [(n * (4 * item_width l))%nat]))
    (fun _ => Ok (mk_hdset BU8 (init ++ [(n * (4 * item_width l))%nat]) (flat_map (item_bytes (item_width l)) l) (Some (item_width l)))).
Proof.
  cbn [write_dset]. rewrite removelast_snoc, last_snoc. destruct (init ++ [n]) eqn:E; [destruct init; discriminate|]. reflexivity.
Qed.

Lemma texts_known s l : dset_known (BArr BNpStr s l) -> Forall is_text l.
Proof.
  intros K. remember (BArr BNpStr s l) as v eqn:E. destruct K as [t s' l' R|s' l' F|t x R]; [|now injection E as _ <-|discriminate E].
  injection E as -> _ _. exfalso. now apply (proj1 (proj2 (raw_cases _ R))).
Qed.
Lemma dset_stored_ok av c v d : dset_known v -> dset_stored av c v d -> write_dset av c v = Ok d.
Proof.
  intros K S. revert K. destruct S as [t s l H C|init n l w b C W B|t x H ->]; intros K.
  - rewrite raw_array by exact H. apply compressible_ok in C. now rewrite C.
  - assert (F : Forall is_text l) by exact (texts_known _ _ K).
    rewrite text_array. apply compressible_ok in C. rewrite (filter_snoc av c init _ n), C. cbn [rbind].
    rewrite <- (text_width_fun l w (item_width l) W (text_width_item l F)). now rewrite <- (text_block_ok w l b F B).
  - rewrite raw_scalar by exact H. reflexivity.
Qed.
Lemma dset_fault_ok av c v e : dset_fault av c v e -> write_dset av c v = Raise e.
Proof.
  intros [t x H C|t l H C|l|t s l n H S -> E].
  - rewrite raw_scalar by exact H. destruct c; [reflexivity|congruence].
  - rewrite raw_array by exact H. destruct c; [reflexivity|congruence].
  - reflexivity.
  - destruct H as [H| ->].
    + rewrite raw_array by exact H. destruct s; [congruence|]. cbn. now rewrite E.
    + destruct (exists_last S) as (init & x & ->). rewrite text_array. destruct init; cbn; now rewrite E.
Qed.
Lemma dset_dec av c v : dset_known v -> (exists d, dset_stored av c v d) \/ exists e, dset_fault av c v e.
Proof.
  intros [t s l H|s l F|t x H].
  - destruct c as [n|]; [|left; eexists; constructor; [exact H|now left]].
    destruct s as [|x s]; [right; eexists; apply df_point; [exact H|discriminate]|].
    destruct (av n) eqn:E; [left; eexists; constructor; [exact H|right; split; [discriminate|eauto]]|].
    right. eexists. apply (df_filter av (Some n) t (x :: s) l n); auto. discriminate.
  - destruct s as [|x s]; [right; eexists; apply df_text|]. destruct (text_block_ex (item_width l) l F) as (b & B).
    assert (X : exists init y, x :: s = init ++ [y]).
    { assert (NE : x :: s <> []) by discriminate. destruct (exists_last NE) as (init & y & E). now exists init, y. }
    destruct X as (init & y & E). rewrite E. assert (NE : init ++ [y] <> []) by (rewrite <- E; discriminate).
    destruct c as [n|]; [|left; eexists; econstructor; [now left|now apply text_width_item|exact B]].
    destruct (av n) eqn:EA; [left; eexists; econstructor; [right; split; [exact NE|eauto]|now apply text_width_item|exact B]|].
    right. eexists. apply (df_filter av (Some n) BNpStr (init ++ [y]) l n); auto.
  - destruct c as [n|]; [right; eexists; apply df_scalar; [exact H|discriminate]|left; eexists; now constructor].
Qed.

Lemma NoDup_app_remove_r {B} (l l' : list B) : NoDup (l ++ l') -> NoDup l.
Proof.
  induction l as [|x l IH]; intros H; [constructor|]. cbn [app] in H. inversion H as [|? ? N1 N2]; subst. constructor; [|now apply IH].
  intros C. apply N1, in_or_app. now left.
Qed.

(** ** Fields *)

Section Fields.
Variables (A : pystr -> Prop) (attrs : list pystr) (av : pystr -> bool) (c : option pystr).
Hypothesis HA : forall k, str_mem k attrs = true <-> A k.

Lemma mem_not k : ~ A k -> str_mem k attrs = false.
Proof. intros H. destruct (str_mem k attrs) eqn:E; [|reflexivity]. apply HA in E. contradiction. Qed.
Lemma A_dec k : A k \/ ~ A k.
Proof. destruct (str_mem k attrs) eqn:E; [left; now apply HA|right]. intros C. apply HA in C. congruence. Qed.

Lemma stored_keys r ds als : fields_stored A av c r ds als -> forall k, (In k (keys ds) -> In k (keys r) /\ ~ A k) /\ (In k (keys als) -> In k (keys r) /\ A k).
Proof.
  induction 1 as [|k v r a ds als HK HS H IH|k v r d ds als HK HS H IH]; intros k'.
  - split; intros [].
  - destruct (IH k') as [I1 I2]. split; intros HI.
    + apply I1 in HI as [? ?]. split; [now right|assumption].
    + destruct HI as [E|HI]; [cbn in E; subst k'; split; [now left|assumption]|]. apply I2 in HI as [? ?]. split; [now right|assumption].
  - destruct (IH k') as [I1 I2]. split; intros HI.
    + destruct HI as [E|HI]; [cbn in E; subst k'; split; [now left|assumption]|]. apply I1 in HI as [? ?]. split; [now right|assumption].
    + apply I2 in HI as [? ?]. split; [now right|assumption].
Qed.

Lemma known_cons k v r : known_fields A ((k, v) :: r) -> (A k -> attr_known v) /\ (~ A k -> dset_known v) /\ known_fields A r.
Proof. intros H. destruct (H k v (or_introl eq_refl)) as [H1 H2]. splits; auto. intros k' v' I. apply H. now right. Qed.
Lemma known_app r r' : known_fields A (r ++ r') -> known_fields A r /\ known_fields A r'.
Proof. intros H. split; intros k v I; apply H, in_or_app; auto. Qed.

Lemma fields_run r ds als rest : fields_stored A av c r ds als -> known_fields A r -> NoDup (keys r) ->
  forall gd ga, (forall k, In k (keys r) -> ~ In k (keys gd) /\ ~ In k (keys ga)) ->
  write_fields av attrs c (r ++ rest) gd ga = write_fields av attrs c rest (gd ++ ds) (ga ++ als).
Proof.
  induction 1 as [|k v r a ds als HK HS H IH|k v r d ds als HK HS H IH]; intros KN N gd ga HF.
  - now rewrite !app_nil_r.
  - apply known_cons in KN as (_ & _ & KN). cbn [keys map fst] in N. inversion N as [|? ? N1 N2]; subst.
    cbn [app write_fields]. rewrite (proj2 (HA k) HK), (attr_stored_ok v a HS).
    destruct (HF k (or_introl eq_refl)) as [F1 F2]. rewrite dict_set_fresh by exact F2. rewrite IH; auto.
    + now rewrite <- app_assoc.
    + intros k' Hk'. destruct (HF k' (or_intror Hk')) as [G1 G2]. split; [exact G1|]. apply app_fresh; [exact G2|]. intros ->. contradiction.
  - apply known_cons in KN as (_ & KD & KN). cbn [keys map fst] in N. inversion N as [|? ? N1 N2]; subst.
    cbn [app write_fields]. rewrite (mem_not k HK), (dset_stored_ok av c v d (KD HK) HS).
    destruct (HF k (or_introl eq_refl)) as [F1 F2]. rewrite dict_set_fresh by exact F1. rewrite IH; auto.
    + now rewrite <- app_assoc.
    + intros k' Hk'. destruct (HF k' (or_intror Hk')) as [G1 G2]. split; [|exact G2]. apply app_fresh; [exact G1|]. intros ->. contradiction.
Qed.
Lemma fields_done r ds als : fields_stored A av c r ds als -> known_fields A r -> NoDup (keys r) ->
  write_fields av attrs c r [] [] = ((ds, als), Ok tt).
Proof.
  intros H K N. rewrite <- (app_nil_r r) at 1. rewrite (fields_run r ds als [] H K N [] []); [reflexivity|]. intros; split; intros [].
Qed.
Lemma fault_write k v e : field_fault A av c k v e ->
  (str_mem k attrs = true /\ write_attr v = Raise e) \/ (str_mem k attrs = false /\ write_dset av c v = Raise e).
Proof.
  intros [[H F]|[H F]]; [left; split; [now apply HA|now apply attr_fault_ok]|right; split; [now apply mem_not|now apply dset_fault_ok]].
Qed.
Lemma fields_fault before k v after ds als e : fields_stored A av c before ds als -> known_fields A before -> NoDup (keys (before ++ (k, v) :: after)) ->
  field_fault A av c k v e -> write_fields av attrs c (before ++ (k, v) :: after) [] [] = ((ds, als), Raise e).
Proof.
  intros H K N F. unfold keys in N. rewrite map_app in N. apply NoDup_app_remove_r in N.
  rewrite (fields_run before ds als _ H K N [] []) by (intros; split; intros []).
  cbn [app write_fields]. destruct (fault_write k v e F) as [[-> ->]|[-> ->]]; reflexivity.
Qed.

(** Either all fields can be stored, or there is a first that cannot. *)
Lemma fields_dec r : known_fields A r -> (exists ds als, fields_stored A av c r ds als) \/
  exists before k v after ds als e, r = before ++ (k, v) :: after /\ fields_stored A av c before ds als /\ field_fault A av c k v e.
Proof.
  induction r as [|[k v] r IH]; intros K; [left; exists [], []; constructor|].
  apply known_cons in K as (KA & KD & K).
  assert (X : (A k /\ (exists a, attr_stored v a) \/ ~ A k /\ (exists d, dset_stored av c v d)) \/ exists e, field_fault A av c k v e).
  { destruct (A_dec k) as [H|H].
    - destruct (attr_dec v (KA H)) as [X|(e & X)]; [left; left; auto|right; exists e; left; auto].
    - destruct (dset_dec av c v (KD H)) as [X|(e & X)]; [left; right; auto|right; exists e; right; auto]. }
  destruct X as [X|(e & X)].
  - destruct (IH K) as [(ds & als & S)|(before & k' & v' & after & ds & als & e & -> & S & F)].
    + left. destruct X as [[H (a & Y)]|[H (d & Y)]]; [exists ds, ((k, a) :: als)|exists ((k, d) :: ds), als]; now constructor.
    + right. destruct X as [[H (a & Y)]|[H (d & Y)]].
      * exists ((k, v) :: before), k', v', after, ds, ((k, a) :: als), e. splits; [reflexivity|now constructor|exact F].
      * exists ((k, v) :: before), k', v', after, ((k, d) :: ds), als, e. splits; [reflexivity|now constructor|exact F].
  - right. exists [], k, v, r, [], [], e. splits; [reflexivity|constructor|exact X].
Qed.

(** ** Groups *)

Definition fine (rs : brecords) : Prop := forall n r, In (n, r) rs -> group_name n /\ NoDup (keys r) /\ known_fields A r.

Lemma groups_run pre its rest : groups_stored A av c pre its -> fine pre -> NoDup (keys pre) ->
  forall f, all_new pre (h_items f) ->
  write_groups av attrs c (pre ++ rest) f = write_groups av attrs c rest (mk_hfile (h_items f ++ its) (h_attrs f)).
Proof.
  induction 1 as [|[n r] [n' i] pre its (E & ds & als & Ei & S) H IH]; intros FN N f HN.
  - rewrite app_nil_r. now destruct f.
  - cbn [fst snd] in E, Ei, S. subst n' i. cbn [keys map fst] in N. inversion N as [|? ? N1 N2]; subst.
    destruct (FN n r (or_introl eq_refl)) as (G & D & K). cbn [app write_groups]. rewrite (plain_name_ok n G). cbn [negb].
    assert (NE : ~ In n (keys (h_items f))) by (apply HN; now left).
    rewrite (proj2 (dict_get_none (h_items f) n) NE). rewrite (fields_done r ds als S K D). rewrite dict_set_fresh by exact NE.
    rewrite IH; auto.
    + cbn [h_items h_attrs]. now rewrite <- app_assoc.
    + intros m q I. apply FN. now right.
    + intros m Hm. cbn [h_items]. apply app_fresh; [apply HN; now right|]. intros ->. contradiction.
Qed.

Lemma fine_app rs rs' : fine (rs ++ rs') -> fine rs /\ fine rs'.
Proof. intros H. split; intros n r I; apply H, in_or_app; auto. Qed.
Lemma keys_app {B} (d d' : dict B) : keys (d ++ d') = keys d ++ keys d'.
Proof. apply map_app. Qed.

Lemma groups_outcome rs its r f : records_outcome A av c (h_items f) rs its r -> fine rs -> NoDup (keys rs) ->
  write_groups av attrs c rs f = (mk_hfile (h_items f ++ its) (h_attrs f), r).
Proof.
  intros H FN N. destruct H as [rs its S NW|pre n r post its S NW I|pre n before k v after post its ds als e S NW I FS F].
  - rewrite <- (app_nil_r rs). now rewrite (groups_run rs its [] S FN N f NW).
  - apply fine_app in FN as [FN FN']. rewrite keys_app in N. rewrite (groups_run pre its _ S FN (NoDup_app_remove_r _ _ N) f NW).
    destruct (FN' n r (or_introl eq_refl)) as (G & _). cbn [write_groups]. rewrite (plain_name_ok n G). cbn [negb h_items].
    destruct (dict_get (h_items f ++ its) n) eqn:E; [reflexivity|]. apply dict_get_none in E. exfalso. apply E. unfold keys in *.
    rewrite map_app. apply in_or_app. now left.
  - apply fine_app in FN as [FN FN']. rewrite keys_app in N. rewrite (groups_run pre its _ S FN (NoDup_app_remove_r _ _ N) f NW).
    destruct (FN' n _ (or_introl eq_refl)) as (G & D & K). cbn [write_groups]. rewrite (plain_name_ok n G). cbn [negb h_items h_attrs].
    assert (NE : ~ In n (keys (h_items f ++ its))).
    { rewrite keys_app. intros C. apply in_app_or in C as [C|C]; [contradiction|].
      assert (EK : keys its = keys pre) by (clear - S; induction S as [|p q ? ? [E _] _ IH]; [reflexivity|unfold keys in *; cbn [map]; now rewrite E, IH]).
      rewrite EK in C. cbn [keys map fst] in N. apply NoDup_remove_2 in N. apply N, in_or_app. now left. }
    rewrite (proj2 (dict_get_none _ n) NE). apply known_app in K as [K _]. rewrite (fields_fault before k v after ds als e FS K D F).
    rewrite dict_set_fresh by exact NE. now rewrite <- app_assoc.
Qed.

Lemma groups_total rs old : fine rs -> exists its r, records_outcome A av c old rs its r.
Proof.
  induction rs as [|[n r] rs IH] using rev_ind; intros FN.
  - exists [], (Ok tt). constructor; [constructor|intros n []].
  - apply fine_app in FN as [FN FN']. destruct (IH FN) as (its & o & H).
    destruct H as [rs its S NW|pre m q post its S NW I|pre m before k v after post its ds als e S NW I FS F].
    + destruct (str_mem n (keys old)) eqn:E.
      * exists its, (Raise ValueError). apply str_mem_In in E. now apply ro_taken.
      * assert (NE : ~ In n (keys old)) by (intros C; apply str_mem_In in C; congruence).
        destruct (FN' n r (or_introl eq_refl)) as (_ & _ & K). destruct (fields_dec r K) as [(ds & als & FS)|(before & k & v & after & ds & als & e & -> & FS & F)].
        -- exists (its ++ [(n, HGroup ds als)]), (Ok tt). constructor.
           ++ apply Forall2_app; [exact S|]. constructor; [|constructor]. split; [reflexivity|]. exists ds, als. split; [reflexivity|exact FS].
           ++ intros m Hm. rewrite keys_app in Hm. apply in_app_or in Hm as [Hm|[<-|[]]]; [auto|exact NE].
        -- exists (its ++ [(n, HGroup ds als)]), (Raise e). now apply ro_fault.
    + exists its, (Raise ValueError). rewrite <- app_assoc. cbn [app]. now apply ro_taken.
    + exists (its ++ [(m, HGroup ds als)]), (Raise e). rewrite <- app_assoc. cbn [app]. now apply ro_fault.
Qed.

(** ** Arrays *)

Definition dset_items (ds : dict hdset) : dict hitem := map (fun p => (fst p, HDset (snd p) [])) ds.
Lemma dset_items_keys ds : keys (dset_items ds) = keys ds.
Proof. unfold keys, dset_items. rewrite map_map. reflexivity. Qed.

Lemma members_run a ds als rest : fields_stored A av c a ds als -> known_fields A a -> NoDup (keys a) ->
  (forall k, In k (keys a) -> ~ A k -> plain_name k = true) ->
  forall f, all_new ds (h_items f) ->
  exists at', write_members av attrs c (a ++ rest) f = write_members av attrs c rest (mk_hfile (h_items f ++ dset_items ds) at') /\ laid_over (h_attrs f) als at'.
Proof.
  induction 1 as [|k v r a ds als HK HS H IH|k v r d ds als HK HS H IH]; intros KN N PN f HN.
  - exists (h_attrs f). cbn [dset_items map app]. rewrite app_nil_r. split; [now destruct f|]. intros k. reflexivity.
  - apply known_cons in KN as (_ & _ & KN). cbn [keys map fst] in N. inversion N as [|? ? N1 N2]; subst.
    cbn [app write_members]. rewrite (proj2 (HA k) HK), (attr_stored_ok v a HS).
    destruct (IH KN N2 (fun k' I => PN k' (or_intror I)) (mk_hfile (h_items f) (dict_set (h_attrs f) k a)) HN) as (at' & E & L).
    exists at'. split; [exact E|]. intros k'. rewrite L. cbn [h_attrs dict_get]. rewrite dict_get_set.
    destruct (str_eqb k k') eqn:EK; [|reflexivity]. apply str_eqb_eq in EK. subst k'.
    destruct (dict_get als k) eqn:ED; [|reflexivity]. exfalso. apply N1. apply (stored_keys r ds als H k). apply dict_get_In in ED. apply keys_in. eauto.
  - apply known_cons in KN as (_ & KD & KN). cbn [keys map fst] in N. inversion N as [|? ? N1 N2]; subst.
    cbn [app write_members]. rewrite (mem_not k HK), (dset_stored_ok av c v d (KD HK) HS). rewrite (PN k (or_introl eq_refl) HK). cbn [negb].
    assert (NE : ~ In k (keys (h_items f))) by (apply HN; now left). rewrite (proj2 (dict_get_none _ k) NE). rewrite dict_set_fresh by exact NE.
    destruct (IH KN N2 (fun k' I => PN k' (or_intror I)) (mk_hfile (h_items f ++ [(k, HDset d [])]) (h_attrs f))) as (at' & E & L).
    { intros m Hm. cbn [h_items]. apply app_fresh; [apply HN; now right|]. intros C. apply N1. rewrite C. exact (proj1 (proj1 (stored_keys r ds als H m) Hm)). }
    exists at'. split; [|exact L]. rewrite E. cbn [h_items dset_items map fst snd]. now rewrite <- app_assoc.
Qed.

Lemma members_outcome a ds als r f : arrays_outcome A av c (h_items f) a ds als r -> known_fields A a -> NoDup (keys a) ->
  (forall k, In k (keys a) -> ~ A k -> plain_name k = true) ->
  exists at', write_members av attrs c a f = (mk_hfile (h_items f ++ dset_items ds) at', r) /\ laid_over (h_attrs f) als at'.
Proof.
  intros H K N P. destruct H as [a ds als S NW|before k v after ds als d S NW HK HS I|before k v after ds als e S NW F].
  - destruct (members_run a ds als [] S K N P f NW) as (at' & E & L). exists at'. split; [|exact L]. now rewrite <- (app_nil_r a).
  - pose proof N as N'. rewrite keys_app in N'. pose proof (known_app _ _ K) as [K1 K2].
    destruct (members_run before ds als ((k, v) :: after) S K1 (NoDup_app_remove_r _ _ N')) with (f := f) as (at' & E & L); auto.
    { intros k' I'. apply P. rewrite keys_app. apply in_or_app. now left. }
    exists at'. split; [|exact L]. rewrite E. cbn [write_members]. rewrite (mem_not k HK).
    rewrite (dset_stored_ok av c v d (proj2 (K2 k v (or_introl eq_refl)) HK) HS).
    rewrite P; [|rewrite keys_app; apply in_or_app; right; now left|exact HK]. cbn [negb h_items].
    destruct (dict_get (h_items f ++ dset_items ds) k) eqn:EG; [reflexivity|]. apply dict_get_none in EG. exfalso. apply EG. unfold keys in *. rewrite map_app. apply in_or_app. now left.
  - pose proof N as N'. rewrite keys_app in N'. pose proof (known_app _ _ K) as [K1 K2].
    destruct (members_run before ds als ((k, v) :: after) S K1 (NoDup_app_remove_r _ _ N')) with (f := f) as (at' & E & L); auto.
    { intros k' I'. apply P. rewrite keys_app. apply in_or_app. now left. }
    exists at'. split; [|exact L]. rewrite E. cbn [write_members]. destruct (fault_write k v e F) as [[-> ->]|[-> ->]]; reflexivity.
Qed.

Lemma members_total a old : known_fields A a -> exists ds als r, arrays_outcome A av c old a ds als r.
Proof.
  induction a as [|[k v] a IH] using rev_ind; intros K.
  - exists [], [], (Ok tt). constructor; [constructor|intros n []].
  - apply known_app in K as [K K']. destruct (IH K) as (ds & als & o & H).
    destruct H as [a ds als S NW|before k' v' after ds als d S NW HK HS I|before k' v' after ds als e S NW F].
    + destruct (fields_dec [(k, v)] K') as [(ds' & als' & FS)|(b & k' & v' & aft & ds' & als' & e & E & FS & F)].
      * inversion FS as [|? ? ? x ? ? HK HS FS'|? ? ? d ? ? HK HS FS']; subst; inversion FS'; subst.
        -- exists ds, (als ++ [(k, x)]), (Ok tt). constructor; [|exact NW]. clear - S HK HS. induction S; cbn [app].
           ++ constructor; [exact HK|exact HS|constructor].
           ++ now constructor.
           ++ now constructor.
        -- destruct (str_mem k (keys old)) eqn:E.
           ++ exists ds, als, (Raise ValueError). apply str_mem_In in E. now apply (ao_taken A av c old a k v [] ds als d).
           ++ exists (ds ++ [(k, d)]), als, (Ok tt). constructor.
              ** clear - S HK HS. induction S; cbn [app]; [apply fs_dset; [exact HK|exact HS|constructor]|now constructor|now constructor].
              ** intros m Hm. unfold keys in Hm. rewrite map_app in Hm. apply in_app_or in Hm as [Hm|[<-|[]]]; [now apply NW|]. cbn. intros C. apply str_mem_In in C. congruence.
      * destruct b as [|p b]; [|destruct b; discriminate E]. cbn [app] in E. injection E as <- <- <-. exists ds, als, (Raise e). now apply ao_fault.
    + exists ds, als, (Raise ValueError). rewrite <- app_assoc. cbn [app]. now apply (ao_taken A av c old before k' v' (after ++ [(k, v)]) ds als d).
    + exists ds, als, (Raise e). rewrite <- app_assoc. cbn [app]. now apply ao_fault.
Qed.
End Fields.

(** ** The writers *)

Lemma append_before fs name f : file_before fs name f -> h5_append fs name = Ok f.
Proof. unfold h5_append. intros [->|[-> ->]]; reflexivity. Qed.

Section Site.
Variables (av : pystr -> bool) (fs : hfs) (name : pystr) (t : filetype) (g : generation) (rs : brecords) (c : option pystr) (v : pystr).
Hypothesis HT : has_structures t.
Hypothesis HP : proper rs.
Hypothesis HR : forall n r, In (n, r) rs -> group_name n /\ site_record_ok (format_class g t) r /\ known_fields (site_attribute (format_class g t)) r.
Hypothesis HV : records_version rs v.
Hypothesis HS : supported v g.

Lemma site_reduces : exists sa : dict btype, (forall k, str_mem k (keys sa) = true <-> site_attribute (format_class g t) k) /\
  site_write av fs name (DRecords rs) (type_name t) c =
    match h5_append fs name with
    | Ok f => let '(f', e) := write_groups av (keys sa) c rs f in (h5_close fs name f', e)
    | Raise e => (fs, Raise e)
    end.
Proof.
  destruct HV as (n & r & h & V1 & V2 & V3 & V4).
  destruct (site_tables g t HT) as (sa & sd & E1 & E2 & Na & Nd & Dj & HA & HD & HNE).
  exists sa. split.
  { intros k. rewrite str_mem_In. unfold site_attribute. rewrite keys_in. split; intros (ty & H); exists ty; now apply HA. }
  unfold site_write. rewrite type_name_of. cbn [records_hash].
  destruct (first_sorted rs n r (proj1 HP) V1 V2) as (rest & ES). rewrite ES.
  unfold dict_item. fold s_hash in V3. rewrite V3. cbn [rbind text_of]. rewrite (proj2 (version_iff h v) V4).
  unfold generation_of. rewrite (proj1 (supported_gen v g) HS). cbn [rbind].
  assert (EC : check_site_records (format_class g t) rs = Ok tt) by (apply site_check_iff; auto; intros m q H; now apply HR in H).
  rewrite EC. cbn [rbind]. unfold write_records. rewrite E1, E2. fold (keys sa). destruct (h5_append fs name); reflexivity.
Qed.
Lemma site_fine : fine (site_attribute (format_class g t)) rs.
Proof. intros n r H. destruct (HR n r H) as (G & _ & K). splits; auto. now apply (proj2 HP n). Qed.

Theorem site_not_hdf : fs name = Some NotHdf -> site_write av fs name (DRecords rs) (type_name t) c = (fs, Raise OSError).
Proof. intros E. destruct site_reduces as (sa & _ & W). rewrite W. unfold h5_append. now rewrite E. Qed.
Theorem site_outcome f its o : file_before fs name f -> records_outcome (site_attribute (format_class g t)) av c (h_items f) rs its o ->
  exists fs', site_write av fs name (DRecords rs) (type_name t) c = (fs', o) /\
    holds fs' name (mk_hfile (h_items f ++ its) (h_attrs f)) /\ only_file name fs fs'.
Proof.
  intros HB HO. destruct site_reduces as (sa & HA & W). rewrite W, (append_before _ _ _ HB).
  rewrite (groups_outcome _ (keys sa) av c HA rs its o f HO site_fine (proj1 HP)).
  eexists. split; [reflexivity|]. split; [apply holds_close|apply only_close].
Qed.
Theorem site_total old : exists its o, records_outcome (site_attribute (format_class g t)) av c old rs its o.
Proof. destruct site_reduces as (sa & HA & _). apply (groups_total _ (keys sa) av c HA rs old site_fine). Qed.
End Site.

Section Array.
Variables (av : pystr -> bool) (fs : hfs) (name : pystr) (t : filetype) (g : generation) (a : brecord) (c : option pystr) (h v : pystr).
Hypothesis HT : has_structures t.
Hypothesis HN : NoDup (keys a).
Hypothesis HO : arrays_ok (format_class g t) a.
Hypothesis HK : known_fields (array_attribute (format_class g t)) a.
Hypothesis HH : dict_get a (str "borealis_git_hash") = Some (BText h).
Hypothesis HV : hash_version h v.
Hypothesis HS : supported v g.

Lemma array_reduces : exists aa : dict btype, (forall k, str_mem k (keys aa) = true <-> array_attribute (format_class g t) k) /\
  (forall k, In k (keys a) -> ~ array_attribute (format_class g t) k -> plain_name k = true) /\
  array_write av fs name (DArrays a) (type_name t) c =
    match h5_append fs name with
    | Ok f => let '(f', e) := write_members av (keys aa) c a f in (h5_close fs name f', e)
    | Raise e => (fs, Raise e)
    end.
Proof.
  destruct (array_tables g t HT) as (aa & ad & u & E1 & E2 & E3 & Na & Nd & Dj & HA & HD & HU & HUS & HUN).
  exists aa. assert (HM : forall k, str_mem k (keys aa) = true <-> array_attribute (format_class g t) k).
  { intros k. rewrite str_mem_In. unfold array_attribute. rewrite keys_in. split; intros (ty & H); exists ty; now apply HA. }
  split; [exact HM|]. split.
  { intros k I NA. apply (array_field_plain g t aa k HT HA); [now apply HO|]. destruct (str_mem k (keys aa)) eqn:E; [|reflexivity]. apply HM in E. contradiction. }
  unfold array_write. rewrite type_name_of. cbn [arrays_hash]. fold s_hash in HH. rewrite HH. cbn [text_of rbind].
  rewrite (proj2 (version_iff h v) HV). unfold generation_of. rewrite (proj1 (supported_gen v g) HS). cbn [rbind].
  rewrite (proj2 (arrays_ok_check g t a HT HN) HO). cbn [rbind]. unfold write_arrays. rewrite E1, E2, E3. fold (keys aa). destruct (h5_append fs name); reflexivity.
Qed.

Theorem array_not_hdf : fs name = Some NotHdf -> array_write av fs name (DArrays a) (type_name t) c = (fs, Raise OSError).
Proof. intros E. destruct array_reduces as (sa & _ & _ & W). rewrite W. unfold h5_append. now rewrite E. Qed.
Theorem array_outcome f ds als o : file_before fs name f -> arrays_outcome (array_attribute (format_class g t)) av c (h_items f) a ds als o ->
  exists fs' at', array_write av fs name (DArrays a) (type_name t) c = (fs', o) /\
    holds fs' name (mk_hfile (h_items f ++ map (fun p => (fst p, HDset (snd p) [])) ds) at') /\ laid_over (h_attrs f) als at' /\ only_file name fs fs'.
Proof.
  intros HB HOu. destruct array_reduces as (aa & HA & HPl & W). rewrite W, (append_before _ _ _ HB).
  destruct (members_outcome _ (keys aa) av c HA a ds als o f HOu HK HN HPl) as (at' & E & L). rewrite E.
  eexists _, at'. split; [reflexivity|]. split; [apply holds_close|]. split; [exact L|apply only_close].
Qed.
Theorem array_total old : exists ds als o, arrays_outcome (array_attribute (format_class g t)) av c old a ds als o.
Proof. destruct array_reduces as (aa & HA & _ & _). apply (members_total _ (keys aa) av c HA a old HK). Qed.
End Array.
