(** Proofs about the check whether a Borealis file can be converted. *)
From Coq Require Import String ZArith List Bool Permutation Sorted Lia.
From Verif Require Import Base BytesProofs FloatBits FloatSpec DmapTypes DmapFileProofs DmapWriteProofs SDarnFormats SDarnChecks
  BorealisTypes BorealisFormats BorealisArrays BorealisFile BorealisFileProofs BorealisConvert BorealisConvertSpec.
Import ListNotations.
Open Scope list_scope.
Open Scope Z_scope.

(** ** Fields *)

Lemma dict_item_get {A} (d : dict A) k v : dict_get d k = Some v -> dict_item d k = Ok v.
Proof. unfold dict_item. now intros ->. Qed.
Lemma numbers_map l : numbers (map CZ l) = Ok l.
Proof. unfold numbers. induction l; cbn; [reflexivity|]. now rewrite IHl. Qed.
Lemma get_text_ok r k s : text_field r k s -> get_text r k = Ok s.
Proof. intros [E|E]; unfold get_text; rewrite (dict_item_get _ _ _ E); reflexivity. Qed.
Lemma get_int_ok r k t z : number_field r k t z -> is_int_type t = true -> get_int r k = Ok z.
Proof. intros E H. unfold get_int. rewrite (dict_item_get _ _ _ E). cbn. now rewrite H. Qed.
Lemma get_float_ok r k t z : number_field r k t z -> btype_eqb t t = true -> get_float r k t = Ok z.
Proof. intros E H. unfold get_float. rewrite (dict_item_get _ _ _ E). cbn. now rewrite H. Qed.
Lemma get_vector_ok r k t l : vector_field r k t l -> btype_eqb t t = true -> get_vector r k t = Ok l.
Proof. intros E H. unfold get_vector. rewrite (dict_item_get _ _ _ E). cbn. rewrite H. apply numbers_map. Qed.

(** ** Versions *)

Lemma hd_split_before c s rest : ~ In c s ->
  hd [] (split_at c (s ++ rest)) = s ++ hd [] (split_at c rest).
Proof.
  induction s as [|x s IH]; intros H; cbn [app]; [reflexivity|]. cbn [split_at].
  assert (x =? c = false) as -> by (apply Z.eqb_neq; intros ->; apply H; now left).
  specialize (IH (fun C => H (or_intror C))).
  destruct (split_at c (s ++ rest)) as [|p ps] eqn:E; cbn [hd] in *; [|now rewrite IH].
  symmetry in IH. now rewrite IH.
Qed.
Lemma split_ne c s : split_at c s <> [].
Proof. destruct s as [|x s]; cbn; [discriminate|]. destruct (x =? c); [discriminate|]. destruct (split_at c s); discriminate. Qed.
Lemma tagged_revisions h : tagged h -> exists a b, revisions h = Ok (RText a, RText b).
Proof.
  intros (major & rest & -> & H1 & H2). unfold revisions. change (118 =? 118) with true. cbv match.
  assert (E : hd [] (split_at 45 (118 :: major ++ 46 :: rest)) = (118 :: major) ++ 46 :: hd [] (split_at 45 rest)).
  { change (118 :: major ++ 46 :: rest) with ((118 :: major) ++ [46] ++ rest).
    rewrite hd_split_before; [|intros [C|C]; [discriminate|auto]].
    rewrite hd_split_before; [reflexivity|intros [C|[]]; discriminate]. }
  rewrite E. rewrite split_at_app; [|intros [C|C]; [discriminate|auto]]. cbn [nth_error hd tl].
  destruct (split_at 46 (hd [] (split_at 45 rest))) as [|b l] eqn:F; [now apply split_ne in F|].
  cbn. eauto.
Qed.
Lemma untagged_revisions h : untagged h -> revisions h = Ok (RNumber 255, RNumber 255).
Proof. intros (c & rest & -> & H). cbn [revisions]. apply Z.eqb_neq in H. now rewrite H. Qed.
Lemma known_revisions h : tagged h \/ untagged h -> exists v, revisions h = Ok v /\ old_revision v = false.
Proof.
  intros [H|H].
  - destruct (tagged_revisions h H) as (a & b & E). eauto.
  - rewrite (untagged_revisions h H). eauto.
Qed.

(** Any other text: nothing to convert. *)
Lemma split_single c s : ~ In c s -> split_at c s = [s].
Proof. apply split_at_none. Qed.
Lemma hd_split_in c s x : In x (hd [] (split_at c s)) -> exists a b, s = a ++ x :: b /\ ~ In c a /\ x <> c.
Proof.
  induction s as [|y s IH]; cbn [split_at].
  - intros [].
  - destruct (y =? c) eqn:E; [intros []|]. apply Z.eqb_neq in E.
    destruct (split_at c s) as [|p ps] eqn:F; [now apply split_ne in F|]. cbn [hd]. cbn [hd] in IH. intros [<-|H].
    + exists [], s. splits; auto.
    + destruct (IH H) as (a & b & -> & H1 & H2). exists (y :: a), b. splits; auto. intros [C|C]; auto.
Qed.
Lemma first_dot s : In 46 s -> exists a b, s = a ++ 46 :: b /\ ~ In 46 a.
Proof.
  induction s as [|y s IH]; [intros []|]. intros H. destruct (Z.eq_dec y 46) as [->|N].
  - exists [], s. split; auto.
  - destruct H as [C|H]; [congruence|]. destruct (IH H) as (a & b & -> & K). exists (y :: a), b. split; auto.
    intros [C|C]; auto.
Qed.
Lemma no_revisions h : ~ tagged h -> ~ untagged h -> revisions h = Raise IndexError.
Proof.
  intros NT NU. destruct h as [|c h]; [reflexivity|].
  destruct (Z.eq_dec c 118) as [->|N]; [|exfalso; apply NU; now exists c, h].
  unfold revisions. change (118 =? 118) with true. cbv match.
  destruct (in_dec Z.eq_dec 46 (hd [] (split_at 45 (118 :: h)))) as [I|I].
  - exfalso. apply NT. apply hd_split_in in I as (a & b & E & H1 & H2).
    destruct a as [|y a]; [discriminate|]. injection E as <- E.
    destruct (first_dot (a ++ [46])) as (a1 & b1 & E1 & K). { apply in_or_app. right. now left. }
    exists a1. assert (exists b2, h = a1 ++ 46 :: b2) as (b2 & ->).
    { replace (a ++ 46 :: b) with ((a ++ [46]) ++ b) in E by now rewrite <- app_assoc.
      rewrite E1 in E. rewrite <- app_assoc in E. eexists. exact E. }
    exists b2. splits; auto. intros C. apply H1. right.
    assert (In 45 (a ++ [46])) as Y by (rewrite E1; apply in_or_app; now left).
    apply in_app_or in Y as [Y|[Y|[]]]; [auto|discriminate].
  - rewrite (split_single 46) by auto. reflexivity.
Qed.

(** ** Sorting *)

Lemma insert_perm x l : Permutation (insert_z x l) (x :: l).
Proof.
  induction l as [|y l IH]; cbn [insert_z]; [reflexivity|]. destruct (x <=? y); [reflexivity|].
  rewrite IH. apply perm_swap.
Qed.
Lemma sort_perm l : Permutation (sort_z l) l.
Proof. unfold sort_z. induction l as [|x l IH]; cbn [fold_right]; [reflexivity|]. rewrite insert_perm. now apply perm_skip. Qed.
Lemma insert_sorted x l : StronglySorted Z.le l -> StronglySorted Z.le (insert_z x l).
Proof.
  intros H. induction H as [|y l HS IH HF]; cbn [insert_z].
  - repeat constructor.
  - destruct (x <=? y) eqn:E.
    + constructor; [constructor; auto|]. constructor; [lia|]. eapply Forall_impl; [|exact HF]. cbn. intros. lia.
    + constructor; auto. eapply Permutation_Forall; [symmetry; apply insert_perm|]. constructor; [lia|auto].
Qed.
Lemma sort_sorted l : StronglySorted Z.le (sort_z l).
Proof. unfold sort_z. induction l as [|x l IH]; cbn [fold_right]; [constructor|]. now apply insert_sorted. Qed.
Lemma sorted_unique a b : StronglySorted Z.le a -> StronglySorted Z.le b -> Permutation a b -> a = b.
Proof.
  intros HA. revert b. induction HA as [|x a HA IH HX]; intros b HB HP.
  - now apply Permutation_nil in HP.
  - destruct HB as [|y b HB HY]; [now apply Permutation_sym, Permutation_nil in HP|].
    assert (x = y) as ->.
    { rewrite Forall_forall in HX, HY.
      assert (I1 : In y (x :: a)) by (eapply Permutation_in; [apply Permutation_sym; exact HP|now left]).
      assert (I2 : In x (y :: b)) by (eapply Permutation_in; [exact HP|now left]).
      destruct I1 as [->|I1]; auto. destruct I2 as [<-|I2]; auto.
      specialize (HX _ I1). specialize (HY _ I2). lia. }
    f_equal. apply IH; auto. now apply Permutation_cons_inv in HP.
Qed.
Lemma same_numbers_iff a b : same_numbers a b = true <-> a = b.
Proof.
  revert b. induction a as [|x a IH]; destruct b as [|y b]; cbn; split; try congruence; intros H.
  - apply andb_prop in H as [H1 H2]. apply Z.eqb_eq in H1 as ->. f_equal. now apply IH.
  - injection H as -> ->. rewrite Z.eqb_refl. cbn. now apply IH.
Qed.

(** ** The check *)

Lemma normal_blanking_ok r h tau len pulses blanked : timed r h tau len pulses blanked ->
  0 < len -> tagged h \/ untagged h ->
  exists b, normal_blanking r = Ok b /\ (b = true <-> blanked_rule tau len pulses blanked).
Proof.
  intros [TH TT TL TP TB] HL HV. unfold normal_blanking, sample_spacing, s_hash.
  rewrite (get_int_ok _ _ _ _ TT eq_refl), (get_int_ok _ _ _ _ TL eq_refl). cbn [rbind].
  assert (len =? 0 = false) as -> by lia. cbn [rbind]. rewrite (get_text_ok _ _ _ TH). cbn [rbind].
  destruct (known_revisions h HV) as (v & -> & O). cbn [rbind].
  rewrite (get_vector_ok _ _ _ _ TP eq_refl), (get_vector_ok _ _ _ _ TB eq_refl). cbn [rbind]. cbv zeta. rewrite O.
  change (fun p => (p * (tau / len)) mod 2 ^ 32) with (pulse_sample tau len).
  set (one := map (pulse_sample tau len) pulses). eexists. split; [reflexivity|].
  assert (ET : map (fun p => (p + 1) mod 2 ^ 32) one = map (fun p => (pulse_sample tau len p + 1) mod 2 ^ 32) pulses).
  { unfold one. now rewrite map_map. }
  rewrite ET. unfold blanked_rule. fold one. destruct (same_numbers one blanked) eqn:E.
  - apply same_numbers_iff in E. split; [now left|]. intros _. now apply same_numbers_iff.
  - rewrite same_numbers_iff. split.
    + intros ->. right. split; [apply sort_perm|apply sort_sorted].
    + intros [->|[P S]].
      * assert (same_numbers one one = true) by now apply same_numbers_iff. congruence.
      * apply sorted_unique; auto; [apply sort_sorted|]. rewrite P. symmetry. apply sort_perm.
Qed.

Lemma timed_unique r h tau len pulses blanked h' tau' len' pulses' blanked' :
  timed r h tau len pulses blanked -> timed r h' tau' len' pulses' blanked' ->
  tau = tau' /\ len = len' /\ pulses = pulses' /\ blanked = blanked'.
Proof.
  intros [_ A1 A2 A3 A4] [_ B1 B2 B3 B4]. unfold number_field, vector_field in *.
  assert (CZ_inj : forall l l', map CZ l = map CZ l' -> l = l').
  { induction l as [|x l IH]; destruct l' as [|y l']; cbn; intros E; try discriminate; auto.
    injection E as -> E. f_equal. auto. }
  rewrite A1 in B1. rewrite A2 in B2. rewrite A3 in B3. rewrite A4 in B4.
  injection B1 as ->. injection B2 as ->. injection B3 as _ E3. injection B4 as _ E4. splits; auto.
Qed.

Lemma checkable_blanking r : checkable r ->
  exists b, normal_blanking r = Ok b /\ (b = true <-> well_blanked r).
Proof.
  intros (h & tau & len & pulses & blanked & T & HL & HV).
  destruct (normal_blanking_ok _ _ _ _ _ _ T HL HV) as (b & E & HB). exists b. split; auto.
  rewrite HB. unfold well_blanked. split.
  - intros R. exists h, tau, len, pulses, blanked. auto.
  - intros (h' & tau' & len' & pulses' & blanked' & T' & R).
    destruct (timed_unique _ _ _ _ _ _ _ _ _ _ _ T T') as (-> & -> & -> & ->). exact R.
Qed.

Lemma convertible_rawacf_iff rs : Forall (fun p => checkable (snd p)) rs ->
  (convertible_rawacf rs = Ok tt <-> Forall (fun p => well_blanked (snd p)) rs) /\
  (convertible_rawacf rs = Ok tt \/ convertible_rawacf rs = Raise BorealisConvert2RawacfError).
Proof.
  induction 1 as [|[n r] rs HC HF [IH1 IH2]]; cbn [convertible_rawacf].
  - split; [|auto]. split; auto.
  - destruct (checkable_blanking _ HC) as (b & E & HB). cbn [snd] in *. rewrite E. cbn [rbind].
    destruct b; cbn [negb].
    + split; [|exact IH2]. rewrite IH1. split; intros H.
      * constructor; [now apply HB|auto].
      * now inversion H.
    + split; [|auto]. split; [discriminate|]. intros H. inversion H; subst. cbn [snd] in *.
      apply HB in H2. discriminate.
Qed.

Lemma zero32_iff b : 0 <= b < 2 ^ 32 -> zero32 b = true <-> zero_phase b.
Proof.
  intros H. unfold zero32, zero_phase, f32_exp, f32_man. split.
  - intros E. apply orb_prop in E as [E|E]; apply Z.eqb_eq in E as ->; vm_compute; auto.
  - intros [E1 E2]. apply orb_true_iff. rewrite !Z.eqb_eq.
    pose proof (Z.div_mod b (2 ^ 23) ltac:(lia)). rewrite E2 in H0.
    pose proof (Z.div_mod (b / 2 ^ 23) (2 ^ 8) ltac:(lia)). rewrite E1 in H1.
    assert (b / 2 ^ 23 < 2 ^ 9) by (apply Z.div_lt_upper_bound; lia).
    assert (0 <= b / 2 ^ 23) by (apply Z.div_pos; lia).
    assert (0 <= b / 2 ^ 23 / 2 ^ 8 < 2) by (split; [apply Z.div_pos; lia|apply Z.div_lt_upper_bound; lia]).
    lia.
Qed.
Lemma no_phases_ok r l : phases r l -> no_phases r = Ok (forallb zero32 l) /\
  (forallb zero32 l = true <-> Forall zero_phase l).
Proof.
  intros [E F]. split.
  - unfold no_phases. rewrite (dict_item_get _ _ _ E). cbn [rbind]. rewrite numbers_map. reflexivity.
  - rewrite forallb_forall, Forall_forall. rewrite Forall_forall in F. split; intros H x I; apply zero32_iff; auto.
Qed.

Lemma convertible_iqdat_iff rs : Forall (fun p => checkable (snd p) /\ exists l, phases (snd p) l) rs ->
  (convertible_iqdat rs = Ok tt <-> Forall (fun p => well_blanked (snd p) /\ all_zero_phases (snd p)) rs) /\
  (convertible_iqdat rs = Ok tt \/ convertible_iqdat rs = Raise BorealisConvert2IqdatError).
Proof.
  induction 1 as [|[n r] rs [HC [l HP]] HF [IH1 IH2]]; cbn [convertible_iqdat].
  - split; [|auto]. split; auto.
  - destruct (checkable_blanking _ HC) as (b & E & HB). cbn [snd] in *. rewrite E. cbn [rbind].
    destruct (no_phases_ok _ _ HP) as (EP & HZ).
    destruct b; cbn [negb].
    + rewrite EP. cbn [rbind]. destruct (forallb zero32 l) eqn:EZ; cbn [negb].
      * split; [|exact IH2]. rewrite IH1. split; intros H.
        -- constructor; [|auto]. split; [now apply HB|]. exists l. split; auto. now apply HZ.
        -- now inversion H.
      * split; [|auto]. split; [discriminate|]. intros H. inversion H as [|? ? [_ (l' & [P' F'] & Z')] _]; subst.
        cbn [snd] in *. destruct HP as [P F]. unfold vector_field in *. rewrite P in P'. injection P' as _ E'.
        assert (l = l') as <-.
        { clear - E'. revert l' E'. induction l as [|x l IH]; destruct l' as [|y l']; cbn; intros E; try discriminate; auto.
          injection E as -> E. f_equal. auto. }
        apply HZ in Z'. discriminate.
    + split; [|auto]. split; [discriminate|]. intros H. inversion H as [|? ? [K _] _]; subst. cbn [snd] in *.
      apply HB in K. discriminate.
Qed.

(** Phases of more than one pulse and sequence. *)
Lemma phases_matrix r n w data : dict_get r (str "pulse_phase_offset") = Some (BArr BF32 [S n; S (S w)] (map CZ data)) ->
  length data = (S n * S (S w))%nat -> no_phases r = Raise ValueError.
Proof.
  intros E L. unfold no_phases. rewrite (dict_item_get _ _ _ E). cbn [rbind]. rewrite numbers_map. cbn [rbind].
  cbn [rows]. destruct data as [|x [|y data]]; cbn in L; try discriminate; try lia. reflexivity.
Qed.

(** The version does not matter. *)
Lemma get_set_other (r : brecord) k k' v : k <> k' -> dict_get (dict_set r k v) k' = dict_get r k'.
Proof. intros N. rewrite dict_get_set. apply str_eqb_neq in N. now rewrite N. Qed.
Lemma timed_set r h tau len pulses blanked h' : timed r h tau len pulses blanked ->
  timed (dict_set r (str "borealis_git_hash") (BText h')) h' tau len pulses blanked.
Proof.
  intros [A1 A2 A3 A4 A5]. constructor; unfold text_field, number_field, vector_field in *.
  - left. rewrite dict_get_set, str_eqb_refl. reflexivity.
  - rewrite get_set_other; auto. intros C; vm_compute in C; discriminate C.
  - rewrite get_set_other; auto. intros C; vm_compute in C; discriminate C.
  - rewrite get_set_other; auto. intros C; vm_compute in C; discriminate C.
  - rewrite get_set_other; auto. intros C; vm_compute in C; discriminate C.
Qed.
Lemma blanking_version r h' : checkable r -> tagged h' \/ untagged h' ->
  normal_blanking (dict_set r (str "borealis_git_hash") (BText h')) = normal_blanking r.
Proof.
  intros (h & tau & len & pulses & blanked & T & HL & HV) HV'.
  destruct (normal_blanking_ok _ _ _ _ _ _ T HL HV) as (b & E & HB).
  destruct (normal_blanking_ok _ _ _ _ _ _ (timed_set _ _ _ _ _ _ h' T) HL HV') as (b' & E' & HB').
  rewrite E, E'. f_equal. destruct b, b'; auto; [apply HB', HB; auto|symmetry; apply HB, HB'; auto].
Qed.
