(** Lemmas for C91: records with shared shape lists. *)
From Coq Require Import ZArith List Bool Lia ZifyBool ZifyNat.
From Verif Require Import Base Bytes BytesSpec BytesProofs Utf8 FloatBits DmapTypes DmapRead DmapWrite Conversions DmapSpec DmapWriteSpec
  DmapReadProofs DmapFileProofs DmapStreamProofs DmapWriteProofs DmapWriterProofs DmapWriteFacts DmapObjectProofs
  SDarnFormats SDarn SDarnObjectProofs SDarnWriteProofs WriterBlockedProofs DmapShare DmapShareSpec.
Import ListNotations.
Open Scope Z_scope.

Definition agrees (h g : heap) (seen : list sarray) : Prop := forall p, g p = list_after h seen p.

Lemma turns_app s1 s2 p : turns (s1 ++ s2) p = (turns s1 p + turns s2 p)%nat.
Proof. unfold turns. now rewrite filter_app, app_length. Qed.

Lemma even_S n : Nat.even (S n) = negb (Nat.even n).
Proof. rewrite Nat.even_succ. unfold Nat.odd. reflexivity. Qed.

Lemma agrees_load h g seen a : agrees h g seen -> load g a = own_array h seen a.
Proof. intros H. unfold load, own_array. now rewrite H. Qed.

Lemma agrees_set h g seen a b a' : agrees h g seen ->
  dmap_array_to_bytes (own_array h seen a) = (Ok b, a') ->
  agrees h (heap_set g (sa_shape a) (ar_shape a')) (seen ++ [a]).
Proof.
  intros HA H p. apply array_to_bytes_after in H. subst a'.
  unfold heap_set, list_after. rewrite turns_app. unfold turns at 2. cbn [filter].
  rewrite (Nat.eqb_sym (sa_shape a) p).
  destruct (Nat.eqb p (sa_shape a)) eqn:EP; cbn [andb].
  - apply Nat.eqb_eq in EP. subst p. unfold array_after, own_array. cbn [ar_dim ar_shape]. unfold list_after.
    destruct (1 <? sa_dim a); cbn [length].
    + rewrite Nat.add_1_r, even_S. destruct (Nat.even (turns seen (sa_shape a))); cbn [negb]; [reflexivity|apply rev_involutive].
    + rewrite Nat.add_0_r. reflexivity.
  - cbn [length]. rewrite Nat.add_0_r. apply HA.
Qed.

Lemma share_fields_apart h seen r r' : apart h seen r r' -> forall g, agrees h g seen ->
  match share_fields g r, fields_to_bytes r' with
  | (Ok x, g'), (Ok y, _) => x = y /\ agrees h g' (seen ++ arrays_in r)
  | (Raise e, _), (Raise e', _) => e = e'
  | _, _ => False
  end.
Proof.
  induction 1 as [seen|seen k s r r' H IH|seen k a r r' H IH]; intros g HA; cbn [share_fields fields_to_bytes].
  - split; [reflexivity|]. cbn. now rewrite app_nil_r.
  - destruct (dmap_scalar_to_bytes s) as [b|e]; [|reflexivity]. specialize (IH g HA).
    destruct (share_fields g r) as [[[[bs ns] na]|e] g'], (fields_to_bytes r') as [[[[bs' ns'] na']|e'] r'']; try contradiction; auto.
    destruct IH as [HE HX]. injection HE as -> -> ->. split; [reflexivity|exact HX].
  - unfold share_array. rewrite (agrees_load _ _ _ _ HA).
    destruct (dmap_array_to_bytes (own_array h seen a)) as [[b|e] a'] eqn:EA; [|reflexivity].
    specialize (IH _ (agrees_set _ _ _ _ _ _ HA EA)).
    destruct (share_fields (heap_set g (sa_shape a) (ar_shape a')) r) as [[[[bs ns] na]|e] g'],
      (fields_to_bytes r') as [[[[bs' ns'] na']|e'] r'']; try contradiction; auto.
    destruct IH as [HE HX]. injection HE as -> -> ->. split; [reflexivity|].
    cbn [arrays_in flat_map snd app]. rewrite <- app_assoc in HX. exact HX.
Qed.

Lemma share_record_apart h seen r r' : apart h seen r r' -> forall g, agrees h g seen ->
  match share_record g r, dmap_record_to_bytes r' with
  | (Ok _, b, g'), (Ok b', _) => b = b' /\ agrees h g' (seen ++ arrays_in r)
  | (Raise e, b, _), (Raise e', _) => e = e' /\ b = record_rest r'
  | _, _ => False
  end.
Proof.
  intros H g HA. pose proof (share_fields_apart h seen r r' H g HA) as F.
  unfold share_record, dmap_record_to_bytes, record_rest.
  destruct (share_fields g r) as [[[[bs ns] na]|e] g'], (fields_to_bytes r') as [[[[bs' ns'] na']|e'] r'']; try contradiction; cbn [fst].
  - destruct F as [HE HX]. injection HE as -> -> ->. cbv zeta.
    destruct (header_bytes (zlen bs' + 16) ns' na') as [b|e]; cbn [rbind]; auto.
  - auto.
Qed.

Lemma share_records_apart h seen rs rs' : all_apart h seen rs rs' -> forall g acc, agrees h g seen ->
  match share_records g acc rs, dmap_records_to_bytes acc rs' with
  | (x, b, g'), (y, b', _) => x = y /\ b = b' /\ (x = Ok tt -> agrees h g' (seen ++ flat_map arrays_in rs))
  end.
Proof.
  induction 1 as [seen|seen r r' rs rs' H HR IH]; intros g acc HA; cbn [share_records dmap_records_to_bytes].
  - splits; auto. intros _. cbn. now rewrite app_nil_r.
  - pose proof (share_record_apart h seen r r' H g HA) as F.
    destruct (share_record g r) as [[[u|e] b] g'], (dmap_record_to_bytes r') as [[b'|e'] r'']; try contradiction.
    + destruct F as [-> HX]. specialize (IH g' (acc ++ b') HX).
      destruct (share_records g' (acc ++ b') rs) as [[x c] g''], (dmap_records_to_bytes (acc ++ b') rs') as [[y d] rs''].
      destruct IH as (I1 & I2 & I3). splits; auto. intros HE. cbn [flat_map]. rewrite app_assoc. auto.
    + destruct F as [-> ->]. splits; auto. discriminate.
Qed.

Lemma apart_checked h seen rs rs' : all_apart h seen rs rs' -> check_dmap_dict rs' = Ok rs'.
Proof.
  intros [|seen0 r r' l l' H _]; [reflexivity|]. now destruct H.
Qed.

Lemma share_write_apart h rs rs' : all_apart h [] rs rs' ->
  fst (share_write h rs) = dmap_write rs' /\
  (forall bs, dmap_write rs' = Ok bs -> forall p, snd (share_write h rs) p = list_after h (flat_map arrays_in rs) p).
Proof.
  intros H. pose proof (apart_checked _ _ _ _ H) as HC.
  assert (HA : agrees h h []) by (intros p; reflexivity).
  pose proof (share_records_apart h [] rs rs' H h [] HA) as F.
  unfold share_write, dmap_write, writer_new. rewrite HC. cbn [rbind].
  unfold write_dmap_stream. cbn [wr_records wr_filename wr_bytearr].
  inversion H as [seen|seen r r' l l' H1 HR]; subst; [split; [reflexivity|discriminate]|].
  cbn [empty_record_check wr_records wr_filename wr_bytearr].
  destruct (share_records h [] (r :: l)) as [[x b] g'], (dmap_records_to_bytes [] (r' :: l')) as [[y b'] rs''].
  destruct F as (-> & -> & F). cbn [fst snd]. split; [reflexivity|]. intros bs HE p.
  destruct y as [[]|]; [|discriminate HE]. exact (F eq_refl p).
Qed.

(** Every list of records is taken apart, in one way. *)
Lemma apart_ex h r : forall seen, exists r', apart h seen r r'.
Proof.
  induction r as [|[k [s|a]] r IH]; intros seen.
  - exists []. constructor.
  - destruct (IH seen) as (r' & H). eexists. constructor. exact H.
  - destruct (IH (seen ++ [a])) as (r' & H). eexists. constructor. exact H.
Qed.
Lemma all_apart_ex h rs : forall seen, exists rs', all_apart h seen rs rs'.
Proof.
  induction rs as [|r rs IH]; intros seen; [exists []; constructor|].
  destruct (apart_ex h r seen) as (r' & H1). destruct (IH (seen ++ arrays_in r)) as (rs' & H2).
  eexists. econstructor; eauto.
Qed.

(** ** No sharing *)

Lemma turns_none seen p : ~ In p (map sa_shape seen) -> turns seen p = O.
Proof.
  intros H. unfold turns. induction seen as [|a l IH]; [reflexivity|]. cbn [filter map] in *.
  destruct (Nat.eqb (sa_shape a) p) eqn:E; [apply Nat.eqb_eq in E; cbn in H; tauto|]. cbn [andb]. apply IH. cbn in H. tauto.
Qed.

Lemma own_fresh h seen a : ~ In (sa_shape a) (map sa_shape seen) -> own_array h seen a = own_array h [] a.
Proof. intros H. unfold own_array, list_after. rewrite (turns_none _ _ H). reflexivity. Qed.

Lemma nodup_mid {A} (l : list A) x m : NoDup (l ++ x :: m) -> ~ In x l.
Proof. intros H C. apply NoDup_remove_2 in H. apply H. apply in_or_app. now left. Qed.

Lemma own_apart h r : forall seen, NoDup (map sa_shape (seen ++ arrays_in r)) -> apart h seen r (as_is h r).
Proof.
  induction r as [|[k [s|a]] r IH]; intros seen H; cbn [as_is map fst snd]; [constructor| |].
  - constructor. apply IH. exact H.
  - cbn [arrays_in flat_map snd app] in H. rewrite <- (own_fresh h seen a).
    + constructor. apply IH. rewrite <- app_assoc. exact H.
    + rewrite map_app in H. cbn [map] in H. now apply nodup_mid in H.
Qed.

Lemma nodup_prefix {A} (l m : list A) : NoDup (l ++ m) -> NoDup l.
Proof.
  induction m as [|x m IH] using rev_ind; [now rewrite app_nil_r|]. rewrite app_assoc. intros H. apply IH.
  apply NoDup_remove_1 in H. now rewrite app_nil_r in H.
Qed.

Lemma own_all h rs : forall seen, NoDup (map sa_shape (seen ++ flat_map arrays_in rs)) ->
  all_apart h seen rs (map (as_is h) rs).
Proof.
  induction rs as [|r rs IH]; intros seen H; cbn [map]; constructor.
  - apply own_apart. cbn [flat_map] in H. rewrite app_assoc, map_app in H. now apply nodup_prefix in H.
  - apply IH. cbn [flat_map] in H. now rewrite <- app_assoc.
Qed.

(** ** The same record several times *)

Lemma turns_repeat k l p : turns (concat (repeat l k)) p = (k * turns l p)%nat.
Proof. induction k as [|k IH]; [reflexivity|]. cbn [repeat concat]. rewrite turns_app, IH. reflexivity. Qed.

Lemma turns_own l1 a l2 : NoDup (map sa_shape (l1 ++ a :: l2)) ->
  turns (l1 ++ a :: l2) (sa_shape a) = if 1 <? sa_dim a then 1%nat else O.
Proof.
  intros H. rewrite map_app in H. cbn [map] in H. apply NoDup_remove_2 in H as HN. rewrite in_app_iff in HN.
  change (a :: l2) with ([a] ++ l2). rewrite !turns_app, (turns_none l1), (turns_none l2) by tauto.
  unfold turns. cbn [filter]. rewrite Nat.eqb_refl. cbn [andb]. destruct (1 <? sa_dim a); reflexivity.
Qed.

Definition nth_time (k : nat) (r : record) : record := if Nat.even k then r else flip_record r.

Lemma repeat_apart h k arrs r : forall pre, NoDup (map sa_shape arrs) -> arrs = pre ++ arrays_in r ->
  apart h (concat (repeat arrs k) ++ pre) r (nth_time k (as_is h r)).
Proof.
  induction r as [|[n [s|a]] r IH]; intros pre HN HE.
  - unfold nth_time. cbn [as_is map]. destruct (Nat.even k); constructor.
  - specialize (IH pre HN HE). unfold nth_time in *. cbn [as_is map fst snd]. destruct (Nat.even k); constructor; exact IH.
  - cbn [arrays_in flat_map snd app] in HE. specialize (IH (pre ++ [a]) HN ltac:(now rewrite <- app_assoc)).
    assert (HT : turns (concat (repeat arrs k) ++ pre) (sa_shape a) = if 1 <? sa_dim a then k else O).
    { rewrite turns_app, turns_repeat, HE, turns_own by (now rewrite <- HE). rewrite turns_none.
      - destruct (1 <? sa_dim a); lia.
      - rewrite HE, map_app in HN. cbn [map] in HN. now apply nodup_mid in HN. }
    assert (HI : nth_time k [(n, IArray (own_array h [] a))] = [(n, IArray (own_array h (concat (repeat arrs k) ++ pre) a))]).
    { unfold own_array, list_after. rewrite HT. unfold nth_time. destruct (1 <? sa_dim a) eqn:ED.
      - destruct (Nat.even k); [reflexivity|]. cbn [flip_record map flip_item fst snd ar_name ar_value ar_type ar_fmt ar_dim ar_shape].
        now rewrite ED.
      - destruct (Nat.even k); [reflexivity|]. cbn [flip_record map flip_item fst snd ar_name ar_value ar_type ar_fmt ar_dim ar_shape].
        now rewrite ED. }
    replace (nth_time k (as_is h ((n, SArray a) :: r))) with
      ((n, IArray (own_array h (concat (repeat arrs k) ++ pre) a)) :: nth_time k (as_is h r)).
    + constructor. rewrite <- app_assoc. exact IH.
    + change ((n, IArray (own_array h (concat (repeat arrs k) ++ pre) a)) :: nth_time k (as_is h r)) with
        ([(n, IArray (own_array h (concat (repeat arrs k) ++ pre) a))] ++ nth_time k (as_is h r)).
      rewrite <- HI. unfold nth_time. destruct (Nat.even k); reflexivity.
Qed.

Lemma repeat_all_apart h r m : NoDup (map sa_shape (arrays_in r)) -> forall k,
  all_apart h (concat (repeat (arrays_in r) k)) (repeat r m)
    (if Nat.even k then alternating m (as_is h r) (flip_record (as_is h r)) else alternating m (flip_record (as_is h r)) (as_is h r)).
Proof.
  intros HN. induction m as [|m IH]; intros k; cbn [repeat alternating].
  - destruct (Nat.even k); constructor.
  - pose proof (repeat_apart h k (arrays_in r) r [] HN eq_refl) as H1. rewrite app_nil_r in H1.
    specialize (IH (S k)). rewrite even_S in IH. cbn [repeat concat] in IH.
    assert (HC : arrays_in r ++ concat (repeat (arrays_in r) k) = concat (repeat (arrays_in r) k) ++ arrays_in r).
    { clear. induction k as [|k IH]; [cbn; now rewrite app_nil_r|]. cbn [repeat concat]. rewrite IH at 1. now rewrite app_assoc. }
    rewrite HC in IH. unfold nth_time in H1. destruct (Nat.even k); cbn [negb] in IH; constructor; assumption.
Qed.

(** ** Reading it back *)

Lemma other_way_back blk a : array_back blk a a -> array_back blk (other_way a) (other_way a).
Proof.
  intros H. inversion H as [name f d shape data H1 H2 H3 H4 H5 H6 HE HE2].
  assert (HD : d = wire_dtype f) by congruence. subst a. rewrite HD in *.
  unfold other_way. cbn [ar_name ar_value ar_type ar_fmt ar_dim ar_shape nd_dtype nd_be nd_shape nd_data].
  rewrite <- (zlen_rev shape).
  assert (X : array_back blk (mk_darray name (mk_ndarray (wire_dtype f) false (rev shape) data) (wire_code f) f (zlen (rev shape)) (rev shape))
     (mk_darray name (mk_ndarray (wire_dtype f) false (rev shape) data) (wire_code f) f (zlen (rev shape)) (rev shape))).
  { apply array_back_intro; auto.
    - now rewrite zlen_rev.
    - destruct H4 as [H4|(N1 & N2 & H4)]; [left|right; splits; auto]; now apply Forall_rev.
    - now rewrite product_rev. }
  exact X.
Qed.

Lemma other_way_bytes a : array_bytes (other_way a) = array_bytes a.
Proof. unfold array_bytes, other_way. cbn [ar_name ar_shape ar_fmt ar_value nd_data]. now rewrite zlen_rev. Qed.

Lemma block_other_bytes b : block_bytes (block_other_way b) = block_bytes b.
Proof.
  unfold block_bytes, block_other_way. cbn [fst snd]. rewrite map_map. f_equal. f_equal. apply map_ext. apply other_way_bytes.
Qed.

Lemma block_other_back b : block_back b b -> block_back (block_other_way b) (block_other_way b).
Proof.
  intros (H1 & H2 & H3 & H4 & H5 & H6). unfold block_back. rewrite block_other_bytes. splits; auto.
  - unfold block_other_way. cbn [snd]. destruct (snd b); [contradiction|discriminate].
  - assert (HE : map fst (block_fields (block_other_way b)) = map fst (block_fields b)).
    { unfold block_fields, block_other_way. cbn [fst snd]. rewrite !map_app, !map_map. reflexivity. }
    now rewrite HE.
  - unfold block_other_way. cbn [snd]. clear - H6. revert H6. generalize (block_bytes b) as k. intros k H6.
    assert (X : Forall (fun a => array_back k a a) (snd b)).
    { clear - H6. revert H6. generalize (snd b) as l. induction l as [|a l IH]; intros H; [constructor|]. inversion H; subst. constructor; auto. }
    clear H6. induction X; cbn [map]; constructor; auto. now apply other_way_back.
Qed.

Lemma flip_other_array blk a : array_back blk a a ->
  item_bytes (flip_item (IArray a)) = item_bytes (IArray (other_way a)).
Proof.
  intros H. inversion H as [name f d shape data H1 H2 H3 H4 H5 H6 HE HE2].
  assert (HD : d = wire_dtype f) by congruence. subst a. rewrite <- HD in *.
  cbn [flip_item item_bytes]. unfold other_way.
  cbn [ar_name ar_value ar_type ar_fmt ar_dim ar_shape nd_dtype nd_be nd_shape nd_data].
  assert (HR : (if 1 <? zlen shape then rev shape else shape) = rev shape).
  { destruct (1 <? zlen shape) eqn:E; [reflexivity|]. destruct shape as [|x [|y l]]; [reflexivity|reflexivity|].
    rewrite !zlen_cons in E. pose proof (zlen_nonneg l). lia. }
  rewrite HR. unfold dmap_array_to_bytes. cbn [ar_name ar_value ar_type ar_fmt ar_dim ar_shape nd_dtype nd_be nd_shape nd_data].
  unfold tostring. cbn [nd_dtype nd_be nd_data].
  replace (match f with
           | Fc => rlet isstr := first_is_str (mk_ndarray d false (rev shape) data) in if isstr then Raise DmapCharError else Ok tt
           | Fs => Raise DmapDataError
           | _ => Ok tt
           end) with
          (match f with
           | Fc => rlet isstr := first_is_str (mk_ndarray d false shape data) in if isstr then Raise DmapCharError else Ok tt
           | Fs => Raise DmapDataError
           | _ => Ok tt
           end).
  - destruct (rbind _ _) as [h0|e]; reflexivity.
  - destruct f; try reflexivity. destruct H4 as [H4|(_ & C & _)]; [|contradiction].
    assert (HF : forall s, s <> [] -> Forall (fun n => 1 <= n) s -> first_is_str (mk_ndarray d false s data) = Ok false).
    { intros s HN HS. unfold first_is_str. cbn [nd_shape nd_dtype]. destruct s as [|n s]; [contradiction|].
      inversion HS; subst. destruct (n <=? 0) eqn:EN; [lia|]. destruct s; reflexivity. }
    assert (HN : shape <> []). { intros ->. cbn in H3. lia. }
    rewrite !HF; auto; [|now apply Forall_rev].
    intros C. apply HN. rewrite <- (rev_involutive shape), C. reflexivity.
Qed.

Lemma flip_other_record b x : block_back b b ->
  dmap_record_to_bytes (block_fields (block_other_way b)) = (Ok x, record_after (block_fields (block_other_way b))) ->
  dmap_record_to_bytes (flip_record (block_fields b)) = (Ok x, record_after (flip_record (block_fields b))).
Proof.
  intros (_ & _ & _ & _ & _ & HB) H. unfold dmap_record_to_bytes in *.
  destruct (fields_to_bytes (block_fields (block_other_way b))) as [[[[d n1] n2]|e] r''] eqn:Er; [|discriminate].
  apply fields_to_bytes_iff in Er as (bl & HF & -> & -> & -> & ->). cbv zeta in H.
  assert (HX : fields_to_bytes (flip_record (block_fields b)) =
    (Ok (concat bl, scalars_of (flip_record (block_fields b)), arrays_of (flip_record (block_fields b))), record_after (flip_record (block_fields b)))).
  { apply fields_to_bytes_iff. exists bl. splits; auto.
    unfold block_fields, flip_record, block_other_way in *. cbn [fst snd] in *. rewrite map_app, !map_map in *. cbn [fst snd flip_item] in *.
    apply Forall2_app_inv_l in HF as (b1 & b2 & F1 & F2 & ->). apply Forall2_app; [exact F1|].
    clear - F2 HB. revert HB b2 F2. generalize (block_bytes b) as k. intros k. generalize (snd b) as l.
    induction l as [|a l IH]; intros HB b2 F2; cbn [map] in *; inversion F2; subst; constructor.
    - cbn [snd] in *. inversion HB; subst. rewrite <- (flip_other_array k a) in H1 by auto. exact H1.
    - inversion HB; subst. apply IH; auto. }
  rewrite HX. cbv zeta.
  assert (C : scalars_of (flip_record (block_fields b)) = scalars_of (block_fields (block_other_way b)) /\
              arrays_of (flip_record (block_fields b)) = arrays_of (block_fields (block_other_way b))).
  { destruct (flip_counts (block_fields b)) as [-> ->]. unfold scalars_of, arrays_of, block_fields, block_other_way. cbn [fst snd].
    rewrite !filter_app, !map_map. cbn [ar_name other_way]. unfold zlen. rewrite !app_length.
    generalize (snd b) as l. intros l. split.
    - f_equal. f_equal. induction l as [|a l IH]; [reflexivity|]. cbn [map filter snd is_scalar]. exact IH.
    - f_equal. f_equal. induction l as [|a l IH]; [reflexivity|]. cbn [map filter snd is_array length]. now rewrite IH. }
  destruct C as [-> ->]. destruct (header_bytes _ _ _) as [h0|e]; [|discriminate]. cbn [rbind] in *. injection H as H. now rewrite <- H.
Qed.

Lemma alternating_map {A B} (f : A -> B) n : forall x y, map f (alternating n x y) = alternating n (f x) (f y).
Proof. induction n as [|n IH]; intros x y; [reflexivity|]. cbn [alternating map]. now rewrite IH. Qed.

Lemma alternating_forall {A} (P : A -> Prop) n : forall x y, P x -> P y -> Forall P (alternating n x y).
Proof. induction n as [|n IH]; intros x y H1 H2; constructor; auto. Qed.

Lemma alternating_forall2 {A B} (P : A -> B -> Prop) (Q : A -> B -> Prop) n : forall x y x' y' l,
  (forall b, P x b -> Q x' b) -> (forall b, P y b -> Q y' b) ->
  Forall2 P (alternating n x y) l -> Forall2 Q (alternating n x' y') l.
Proof.
  induction n as [|n IH]; intros x y x' y' l H1 H2 H; inversion H; subst; cbn [alternating]; constructor; auto. eapply IH; eauto.
Qed.

Lemma total_alternating n (x : Z) : total (alternating n x x) = Z.of_nat n * x.
Proof. induction n as [|n IH]; [reflexivity|]. cbn [alternating]. change (x + total (alternating n x x) = Z.of_nat (S n) * x). rewrite IH. lia. Qed.

Lemma alternating_bytes b n : file_bytes (alternating n b (block_other_way b)) = Z.of_nat n * block_bytes b.
Proof. unfold file_bytes. rewrite alternating_map, block_other_bytes. apply total_alternating. Qed.

(** The buffer of a writer object only grows. *)
Lemma records_more rs : forall acc x acc' rs', dmap_records_to_bytes acc rs = (x, acc', rs') -> exists more, acc' = acc ++ more.
Proof.
  induction rs as [|r rs IH]; intros acc x acc' rs'; cbn [dmap_records_to_bytes].
  - intros [= <- <- <-]. exists []. now rewrite app_nil_r.
  - destruct (dmap_record_to_bytes r) as [[b|e] r'].
    + destruct (dmap_records_to_bytes (acc ++ b) rs) as [[q2 a2] rs2] eqn:E. intros [= <- <- <-].
      destruct (IH _ _ _ _ E) as (m & ->). exists (b ++ m). now rewrite app_assoc.
    + intros [= <- <- <-]. eauto.
Qed.
Lemma structure_more sl ol rs : forall n acc x acc' rs', structure_to_bytes sl ol n acc rs = (x, acc', rs') ->
  exists more, acc' = acc ++ more.
Proof.
  induction rs as [|r rs IH]; intros n acc x acc' rs'; cbn [structure_to_bytes].
  - intros [= <- <- <-]. exists []. now rewrite app_nil_r.
  - destruct (write_checks sl ol r n) as [[]|e]; [|intros [= <- <- <-]; exists []; now rewrite app_nil_r].
    destruct (dmap_record_to_bytes r) as [[b|e] r'].
    + destruct (structure_to_bytes sl ol (n + 1) (acc ++ b) rs) as [[q2 a2] rs2] eqn:E. intros [= <- <- <-].
      destruct (IH _ _ _ _ _ E) as (m & ->). exists (b ++ m). now rewrite app_assoc.
    + intros [= <- <- <-]. eauto.
Qed.
Lemma stream_more w rs x w' : write_dmap_stream w rs = (x, w') ->
  (exists more, wr_bytearr w' = wr_bytearr w ++ more) /\ forall bs, x = Ok bs -> wr_bytearr w' = bs.
Proof.
  assert (A : forall w1 x w', match empty_record_check w1 with
      | Raise e => (Raise e, w1)
      | Ok _ => match dmap_records_to_bytes (wr_bytearr w1) (wr_records w1) with
                | (r, acc, rs) => (rlet _ := r in Ok acc, mk_writer (wr_filename w1) rs acc) end end = (x, w') ->
    (exists more, wr_bytearr w' = wr_bytearr w1 ++ more) /\ forall bs, x = Ok bs -> wr_bytearr w' = bs).
  { intros w1 y w1'. destruct (empty_record_check w1) as [[]|e].
    - destruct (dmap_records_to_bytes (wr_bytearr w1) (wr_records w1)) as [[q a] rs2] eqn:E. intros [= <- <-]. cbn [wr_bytearr].
      split; [eapply records_more; eauto|]. destruct q; cbn [rbind]; [congruence|discriminate].
    - intros [= <- <-]. split; [exists []; now rewrite app_nil_r|discriminate]. }
  unfold write_dmap_stream. destruct (wr_records w) as [|r0 rs0] eqn:ER.
  - destruct (check_dmap_dict rs) as [rs1|e]; cbn [rbind].
    + intros H. exact (A _ _ _ H).
    + intros [= <- <-]. split; [exists []; now rewrite app_nil_r|discriminate].
  - intros H. exact (A _ _ _ H).
Qed.
Lemma call_more fs w c x w' fs' : do_call fs w c = (x, w', fs') -> exists more, wr_bytearr w' = wr_bytearr w ++ more.
Proof.
  assert (Z : exists more : bytes, wr_bytearr w = wr_bytearr w ++ more) by (exists []; now rewrite app_nil_r).
  destruct c as [fn|rs|t fn]; cbn [do_call].
  - rewrite write_dmap_cases. destruct (match fn with [] => wr_filename w | _ => fn end) as [|c n]; [now intros [= <- <- <-]|].
    destruct (write_dmap_stream _ _) as [[b|e] w2] eqn:E; apply stream_more in E as [E _]; intros [= <- <- <-]; exact E.
  - destruct (write_dmap_stream w rs) as [q w2] eqn:E. apply stream_more in E as [E _]. intros [= <- <- <-]. exact E.
  - rewrite sd_write_cases. destruct (match fn with [] => wr_filename w | _ => fn end) as [|c n]; [now intros [= <- <- <-]|].
    destruct (wr_records w) as [|r0 rs0]; [now intros [= <- <- <-]|].
    destruct (structure_to_bytes _ _ 0 _ _) as [[[b|e] acc] rs'] eqn:E; apply structure_more in E; intros [= <- <- <-]; exact E.
Qed.
Lemma calls_more cs : forall fs w l w' fs', do_calls fs w cs = (l, w', fs') -> exists more, wr_bytearr w' = wr_bytearr w ++ more.
Proof.
  induction cs as [|c cs IH]; intros fs w l w' fs'; cbn [do_calls].
  - intros [= <- <- <-]. exists []. now rewrite app_nil_r.
  - destruct (do_call fs w c) as [[x w1] fs1] eqn:E. destruct (do_calls fs1 w1 cs) as [[l2 w2] fs2] eqn:E2. intros [= <- <- <-].
    destruct (IH _ _ _ _ _ E2) as (m2 & ->). destruct (call_more _ _ _ _ _ _ E) as (m1 & ->). exists (m1 ++ m2). now rewrite app_assoc.
Qed.
