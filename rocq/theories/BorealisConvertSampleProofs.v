(** Proofs about the samples and correlations of converted records. *)
From Coq Require Import String ZArith List Bool Lia Arith.
From Verif Require Import Base Bytes BytesProofs FloatBits FloatSpec DmapTypes DmapFileProofs DmapWriteFacts DmapWriteProofs SDarnFormats SDarn SDarnSpec
  SDarnChecks BorealisTypes BorealisFormats BorealisArrays BorealisFile BorealisFillProofs BorealisFileProofs BorealisToArrayProofs
  BorealisTime BorealisConvert BorealisConvertSpec BorealisConvertProofs BorealisConvertRecordProofs.
From Verif Require Conversions.
Import ListNotations.
Open Scope list_scope.
Open Scope Z_scope.

(** ** Numbers *)

Lemma wrap16_is z : is_int16 z (wrap16 z).
Proof.
  unfold is_int16, wrap16, to_signed. change (wrap_mod 2 / 2) with (2 ^ 15). change (wrap_mod 2) with (2 ^ 16).
  pose proof (Z.mod_pos_bound z (2 ^ 16) ltac:(reflexivity)) as B. pose proof (Z.div_mod z (2 ^ 16) ltac:(discriminate)) as D.
  assert (P : (2 ^ 16 = 2 * 2 ^ 15)) by reflexivity.
  destruct (Z.ltb_spec (z mod 2 ^ 16) (2 ^ 15)); (split; [lia|]).
  - replace (z mod 2 ^ 16 - z) with ((- (z / 2 ^ 16)) * 2 ^ 16) by lia. now rewrite Z_mod_mult.
  - replace (z mod 2 ^ 16 - 2 ^ 16 - z) with ((- (z / 2 ^ 16) - 1) * 2 ^ 16) by lia. now rewrite Z_mod_mult.
Qed.
Lemma wrap32_is z : is_int32 z (wrap32 z).
Proof.
  unfold is_int32, wrap32, to_signed. change (wrap_mod 4 / 2) with (2 ^ 31). change (wrap_mod 4) with (2 ^ 32).
  pose proof (Z.mod_pos_bound z (2 ^ 32) ltac:(reflexivity)) as B. pose proof (Z.div_mod z (2 ^ 32) ltac:(discriminate)) as D.
  assert (P : (2 ^ 32 = 2 * 2 ^ 31)) by reflexivity.
  destruct (Z.ltb_spec (z mod 2 ^ 32) (2 ^ 31)); (split; [lia|]).
  - replace (z mod 2 ^ 32 - z) with ((- (z / 2 ^ 32)) * 2 ^ 32) by lia. now rewrite Z_mod_mult.
  - replace (z mod 2 ^ 32 - 2 ^ 32 - z) with ((- (z / 2 ^ 32) - 1) * 2 ^ 32) by lia. now rewrite Z_mod_mult.
Qed.
Lemma wrap16_small z : - 2 ^ 15 <= z < 2 ^ 15 -> wrap16 z = z.
Proof.
  intros H. destruct (wrap16_is z) as [B M]. apply Z.mod_divide in M as [q M]; [|discriminate].
  assert (P : (2 ^ 16 = 2 * 2 ^ 15)) by reflexivity. rewrite P in M. assert (q = 0) by nia. nia.
Qed.
Lemma wrap32_small z : - 2 ^ 31 <= z < 2 ^ 31 -> wrap32 z = z.
Proof.
  intros H. destruct (wrap32_is z) as [B M]. apply Z.mod_divide in M as [q M]; [|discriminate].
  assert (P : (2 ^ 32 = 2 * 2 ^ 31)) by reflexivity. rewrite P in M. assert (q = 0) by nia. nia.
Qed.

Lemma f32_exp_bound b : 0 <= f32_exp b < 256.
Proof. unfold f32_exp. apply Z.mod_pos_bound. reflexivity. Qed.
Lemma f32_man_bound b : 0 <= f32_man b < 2 ^ 23.
Proof. unfold f32_man. apply Z.mod_pos_bound. reflexivity. Qed.

Lemma quot_whole b : Z.quot (f32_val b) (2 ^ 149) = signed (f32_sign b) (whole_part (sig32 b) (pos32 b)).
Proof.
  unfold f32_val. change (if f32_exp b =? 0 then f32_man b else f32_man b + 2 ^ 23) with (sig32 b).
  assert (S : 0 <= sig32 b). { unfold sig32. pose proof (f32_man_bound b). destruct (f32_exp b =? 0); lia. }
  set (e := Z.max (f32_exp b) 1). assert (EB : 1 <= e < 256). { pose proof (f32_exp_bound b). lia. }
  assert (Q : Z.quot (sig32 b * 2 ^ (e - 1)) (2 ^ 149) = whole_part (sig32 b) (pos32 b)).
  { unfold whole_part, pos32. fold e. destruct (Z.leb_spec (150 - e) 0).
    - replace (2 ^ (e - 1)) with (2 ^ (- (150 - e)) * 2 ^ 149) by (rewrite <- Z.pow_add_r by lia; f_equal; lia).
      rewrite Z.mul_assoc, Z.quot_mul; [reflexivity|]. apply Z.pow_nonzero; lia.
    - assert (P0 : 0 < 2 ^ (e - 1)) by (apply Z.pow_pos_nonneg; lia). assert (P1 : 0 < 2 ^ (150 - e)) by (apply Z.pow_pos_nonneg; lia).
      rewrite Z.quot_div_nonneg; [|nia|apply Z.pow_pos_nonneg; lia].
      replace (2 ^ 149) with (2 ^ (150 - e) * 2 ^ (e - 1)) by (rewrite <- Z.pow_add_r by lia; f_equal; lia).
      apply Z.div_mul_cancel_r; lia. }
  unfold signed. destruct (f32_sign b =? 0).
  - rewrite Z.mul_1_l. exact Q.
  - replace (-1 * sig32 b * 2 ^ (e - 1)) with (- (sig32 b * 2 ^ (e - 1))) by ring.
    rewrite Z.quot_opp_l; [now rewrite Q|]. apply Z.pow_nonzero; lia.
Qed.
Lemma clip16_limited b : limited16 b (clip16 b).
Proof.
  unfold limited16, clip16. fold (special32 b). destruct (special32 b) eqn:S; unfold special32 in S; rewrite ?S; cbn [andb].
  - destruct (f32_man b =? 0) eqn:M; cbn [negb]; [|reflexivity]. unfold signed. destruct (f32_sign b =? 0); reflexivity.
  - cbv zeta. rewrite quot_whole. set (t := signed _ _).
    destruct (Z.ltb_spec t (-32768)); destruct (Z.ltb_spec 32767 t); lia.
Qed.

(** ** From the converted file to its records *)

Lemma dict2dmap_Forall2 rs out : Conversions.dict2dmap rs = Ok out -> Forall2 (fun a b => Conversions.record2dmap a = Ok b) rs out.
Proof.
  revert out. induction rs as [|r rs IH]; intros out H; cbn [Conversions.dict2dmap] in H.
  - apply ok_inj in H as <-. constructor.
  - apply rbind_ok in H as (x & E & H). apply rbind_ok in H as (y & E' & H). apply ok_inj in H as <-. constructor; auto.
Qed.
Lemma Forall2_app_split {A B} (P : A -> B -> Prop) a b l : Forall2 P (a ++ b) l -> exists l1 l2, l = l1 ++ l2 /\ Forall2 P a l1 /\ Forall2 P b l2.
Proof. intros H. apply Forall2_app_inv_l in H as (l1 & l2 & H1 & H2 & ->). eauto. Qed.
Lemma Forall2_concat_split {A B} (P : A -> B -> Prop) ls l : Forall2 P (concat ls) l -> exists outs, l = concat outs /\ Forall2 (Forall2 P) ls outs.
Proof.
  revert l. induction ls as [|x ls IH]; intros l H; cbn in H.
  - inversion H; subst. exists []. split; constructor.
  - apply Forall2_app_split in H as (l1 & l2 & -> & H1 & H2). apply IH in H2 as (outs & -> & H2). exists (l1 :: outs). split; [reflexivity|now constructor].
Qed.
Lemma Forall2_trans {A B C} (P : A -> B -> Prop) (Q : B -> C -> Prop) a b c : Forall2 P a b -> Forall2 Q b c -> Forall2 (fun x z => exists y, P x y /\ Q y z) a c.
Proof. intros H. revert c. induction H; intros c' K; inversion K; subst; constructor; eauto. Qed.

Lemma convert_all_split f rs recs : convert_all f rs = Ok recs ->
  exists outs, recs = concat outs /\
    Forall2 (fun p os => exists ls, f p = Ok ls /\ Forall2 (fun a b => Conversions.record2dmap a = Ok b) ls os) rs outs.
Proof.
  intros H. unfold convert_all in H. apply rbind_ok in H as (ls & E & H). apply dict2dmap_Forall2 in H.
  apply Forall2_concat_split in H as (outs & -> & H). exists outs. split; [reflexivity|].
  apply mapM_inv in E. exact (Forall2_trans _ _ _ _ _ E H).
Qed.
Lemma wrap_convert_ok {A} e (r : res A) a : wrap_convert e r = Ok a -> r = Ok a.
Proof. destruct r as [x|[]]; cbn; congruence. Qed.

Lemma combine_seq_nth {A} (l : list A) n i x : nth_error l i = Some x -> nth_error (combine (seq n (length l)) l) i = Some ((n + i)%nat, x).
Proof.
  revert n i. induction l as [|y l IH]; intros n i H; [destruct i; discriminate|]. cbn [length seq combine].
  destruct i as [|i]; cbn in *; [injection H as ->; f_equal; f_equal; lia|]. rewrite (IH (S n) i H). f_equal. f_equal. lia.
Qed.
Lemma Forall2_nth {A B} (P : A -> B -> Prop) l m i x : Forall2 P l m -> nth_error l i = Some x -> exists y, nth_error m i = Some y /\ P x y.
Proof. intros H. revert i. induction H; intros i E; destruct i; cbn in E; try discriminate; [injection E as <-; eexists; split; [reflexivity|auto]|]. apply (IHForall2 i E). Qed.

(** The records of the beams. *)
Lemma beams_split (f : nat -> Z -> res record) beams ls os :
  mapM (fun q => f (fst q) (snd q)) (combine (seq 0 (length beams)) beams) = Ok ls ->
  Forall2 (fun a b => Conversions.record2dmap a = Ok b) ls os ->
  length os = length beams /\
  forall b beam, nth_error beams b = Some beam ->
    exists o raw, nth_error os b = Some o /\ f b beam = Ok raw /\ Conversions.record2dmap raw = Ok o.
Proof.
  intros E H. apply mapM_inv in E. split.
  - apply forall2_length in H. apply forall2_length in E. rewrite combine_length, seq_length, Nat.min_id in E. congruence.
  - intros b beam N. pose proof (combine_seq_nth beams 0 b beam N) as N'. destruct (Forall2_nth _ _ _ _ _ E N') as (raw & N2 & E2).
    destruct (Forall2_nth _ _ _ _ _ H N2) as (o & N3 & E3). exists o, raw. cbn in E2. auto.
Qed.

Lemma shaped_ok r dk k dims data : complex_field r dk k dims data ->
  exists d, dict_get r dk = Some d /\ shaped r d k = Ok (dims, data).
Proof.
  intros (D & (sh & E) & L). eexists. split; [exact D|]. unfold shaped. rewrite (dict_item_get _ _ _ E). cbn [rbind].
  rewrite reshape_field_ok by now rewrite map_length. cbn [rbind].
  erewrite mapM_Forall2; [reflexivity|]. clear. induction data as [|c data IH]; constructor; auto. now destruct c.
Qed.

(** ** bfiq *)

Lemma samples_nth scale nseq na ns nb n data b samples :
  length data = size [na; ns; nb; n] ->
  beam_samples [na; ns; nb; n] (map scale data) nseq b = Ok samples ->
  iq_values scale nseq na ns nb n data b (map clip16 (parts samples)).
Proof.
  intros L H. unfold beam_samples in H. destruct (Nat.ltb_spec b nb) as [HB|]; cbn [negb] in H; [|discriminate].
  destruct (Nat.ltb ns nseq && negb (Nat.eqb na 0)) eqn:G; [discriminate|]. apply ok_inj in H as <-.
  assert (G' : na <> 0%nat -> (nseq <= ns)%nat).
  { intros N. apply andb_false_iff in G as [G|G]; [apply Nat.ltb_ge in G; exact G|]. apply negb_false_iff, Nat.eqb_eq in G. contradiction. }
  assert (L' : length data = (na * ns * nb * n)%nat) by (rewrite L; cbn; ring). clear L G.
  assert (IDX : forall x i, (x < na -> i < nseq -> ((x * ns + i) * nb + b) * n + n <= length (map scale data))%nat).
  { intros x i Hx Hi. rewrite map_length, L'. assert (nseq <= ns)%nat by (apply G'; lia).
    assert ((x * ns + i < na * ns)%nat) by (apply index_bound; lia).
    assert (((x * ns + i) * nb + b < na * ns * nb)%nat) by (apply index_bound; lia). clear - H1. nia. }
  assert (LS : forall x i, (x < na -> i < nseq -> length (samples_of ns nb n (map scale data) x i b) = n)%nat).
  { intros x i Hx Hi. unfold samples_of. apply window_length. now apply IDX. }
  set (row i := flat_map (fun x => samples_of ns nb n (map scale data) x i b) (seq 0 na)).
  assert (LR : forall i, (i < nseq)%nat -> length (row i) = (na * n)%nat).
  { intros i Hi. unfold row. rewrite (flat_length _ n), seq_length; [reflexivity|]. intros x Hx. apply in_seq in Hx. apply LS; lia. }
  split.
  - rewrite map_length, parts_length, (flat_length row (na * n)), seq_length; [ring|]. intros i Hi. apply in_seq in Hi. apply LR. lia.
  - intros i x s Hi Hx Hs.
    assert (NS : nth_error (flat_map row (seq 0 nseq)) ((i * na + x) * n + s) =
                 option_map scale (nth_error data (((x * ns + i) * nb + b) * n + s))).
    { replace ((i * na + x) * n + s)%nat with (i * (na * n) + (x * n + s))%nat by ring.
      rewrite (nth_flat row (na * n) _ i (x * n + s) i).
      - unfold row. rewrite (nth_flat _ n _ x s x).
        + unfold samples_of. rewrite nth_window by assumption. apply nth_error_map.
        + intros y Hy. apply in_seq in Hy. apply LS; lia.
        + now apply nth_seq.
        + exact Hs.
      - intros y Hy. apply in_seq in Hy. apply LR. lia.
      - now apply nth_seq.
      - now apply index_bound. }
    destruct (nth_error data (((x * ns + i) * nb + b) * n + s)) as [z|] eqn:EZ.
    + exists z, (clip16 (fst (scale z))), (clip16 (snd (scale z))). cbn [option_map] in NS.
      split; [reflexivity|]. split; [apply clip16_limited|]. split; [apply clip16_limited|].
      destruct (nth_parts (flat_map row (seq 0 nseq)) ((i * na + x) * n + s)) as [P1 P2]. rewrite NS in P1, P2. cbn in P1, P2.
      split; rewrite nth_error_map; fold row; rewrite ?P1, ?P2; reflexivity.
    + apply nth_error_None in EZ. specialize (IDX x i Hx Hi). rewrite map_length in IDX. lia.
Qed.

Ltac skip_common E := rewrite dict_get_app; rewrite (layout_get_none _ _ _ (common_fields_layout _ _ _ _ _ _ _ _ _ E)) by (vm_compute; reflexivity).

Lemma first_length_ok r k t names n : dict_get r k = Some (BArr t [n] names) -> first_length r k = Ok n.
Proof. intros E. unfold first_length. now rewrite (dict_item_get _ _ _ E). Qed.

Lemma offsets_small nseq w : (Z.of_nat nseq * w < 2 ^ 31) -> 0 <= w ->
  map (fun i => wrap32 (Z.of_nat i * w)) (seq 0 nseq) = map (fun i => Z.of_nat i * w) (seq 0 nseq).
Proof.
  intros H P. apply map_ext_in. intros i Hi. apply in_seq in Hi. apply wrap32_small.
  assert (Z.of_nat i * w <= Z.of_nat nseq * w) by (apply Z.mul_le_mono_nonneg_r; lia). nia.
Qed.
Lemma sizes_small nseq w : (Z.of_nat nseq * w < 2 ^ 31) -> 0 <= w -> repeat (wrap32 w) nseq = repeat w nseq.
Proof.
  intros H P. destruct nseq as [|m]; [reflexivity|]. rewrite wrap32_small; [reflexivity|]. split; [lia|].
  rewrite Nat2Z.inj_succ in H. nia.
Qed.

(** The fields of the record of one beam. *)
Lemma iqdat_record_fields ctime sid key origin k r scale beams nseq arrays samps norm na ns nb n data b beam raw o :
  bfiq_source r beams nseq arrays samps norm na ns nb n data ->
  iqdat_record ctime sid key origin k r [na; ns; nb; n] (map scale data) b beam = Ok raw ->
  Conversions.record2dmap raw = Ok o ->
  (exists vals, iq_values scale nseq na ns nb n data b vals /\ out_array o (str "data") DI16 [length vals] vals) /\
  out_array o (str "toff") DI32 [nseq] (map (fun i => wrap32 (Z.of_nat i * (2 * Z.of_nat arrays * Z.of_nat samps))) (seq 0 nseq)) /\
  out_array o (str "tsze") DI32 [nseq] (repeat (wrap32 (2 * Z.of_nat arrays * Z.of_nat samps)) nseq).
Proof.
  intros [SB SS (t & nms & SA) SP SN (SD1 & SD2 & SD3)] H R. unfold iqdat_record in H.
  rewrite (get_int_ok _ _ _ _ SS eq_refl) in H. cbn [rbind] in H. rewrite Nat2Z.id in H.
  rewrite (first_length_ok _ _ _ _ _ SA) in H. cbn [rbind] in H.
  rewrite (get_int_ok _ _ _ _ SP eq_refl) in H. cbn [rbind] in H. cbv zeta in H.
  apply rbind_ok in H as (samples & ES & H). unwind H. apply ok_inj in H as <-.
  match goal with E : common_fields _ _ _ _ _ _ _ _ = Ok _ |- _ => rename E into EC end.
  split; [|split].
  - exists (map clip16 (parts samples)). split; [exact (samples_nth _ _ _ _ _ _ _ _ _ SD3 ES)|].
    eapply out_array_get; [exact R|]. skip_common EC. reflexivity.
  - eapply out_array_get; [exact R|]. skip_common EC. reflexivity.
  - eapply out_array_get; [exact R|]. skip_common EC. reflexivity.
Qed.

(** Fields every converted record has. *)
Lemma common_get ctime r sid b beam txpow nrang xcf c : common_fields ctime r sid b beam txpow nrang xcf = Ok c ->
  dict_get c (str "bmnum") = Some (v16 beam) /\ dict_get c (str "txpow") = Some (v16 txpow) /\
  dict_get c (str "nrang") = Some (v16 nrang) /\ dict_get c (str "channel") = Some (v16 sid) /\
  dict_get c (str "xcf") = Some (v16 (if xcf then 1 else 0)).
Proof.
  intros H. unfold common_fields in H. unwind H. apply ok_inj in H as <-.
  rewrite !dict_get_app. unfold time_fields. destruct (civil _) as [[yr mo] dy]. repeat split; reflexivity.
Qed.
Lemma common_out raw k z rest o common : raw = common ++ rest -> Conversions.record2dmap raw = Ok o ->
  dict_get common k = Some (v16 z) -> exists w, is_int16 z w /\ out_scalar o k (VNpInt NI16 w).
Proof.
  intros -> R G. exists (wrap16 z). split; [apply wrap16_is|]. eapply out_scalar_get; [exact R| |reflexivity].
  rewrite dict_get_app, G. reflexivity.
Qed.

Lemma iqdat_record_common ctime sid key origin k r shape data b beam raw o :
  iqdat_record ctime sid key origin k r shape data b beam = Ok raw -> Conversions.record2dmap raw = Ok o ->
  exists w, is_int16 beam w /\ out_scalar o (str "bmnum") (VNpInt NI16 w).
Proof.
  intros H R. unfold iqdat_record in H. cbv zeta in H. unwind H. apply ok_inj in H.
  match goal with E : common_fields _ _ _ _ _ _ _ _ = Ok _ |- _ => apply common_get in E as (G & _) end.
  eapply common_out; [symmetry; exact H|exact R|exact G].
Qed.

(** The samples of all records. *)
Lemma bfiq_samples scale_iq scale_acf power ctime sid rs origin k recs :
  converted_records scale_iq scale_acf power ctime Bfiq sid rs origin k = Ok recs ->
  exists outs, recs = concat outs /\
    Forall2 (fun p os => forall beams nseq arrays samps norm na ns nb n data,
      bfiq_source (snd p) beams nseq arrays samps norm na ns nb n data ->
      length os = length beams /\
      forall b beam, nth_error beams b = Some beam ->
      exists o, nth_error os b = Some o /\
        (exists w, is_int16 beam w /\ out_scalar o (str "bmnum") (VNpInt NI16 w)) /\
        (exists vals, iq_values (scale_iq norm k) nseq na ns nb n data b vals /\ out_array o (str "data") DI16 [length vals] vals) /\
        out_array o (str "toff") DI32 [nseq] (map (fun i => wrap32 (Z.of_nat i * (2 * Z.of_nat arrays * Z.of_nat samps))) (seq 0 nseq)) /\
        out_array o (str "tsze") DI32 [nseq] (repeat (wrap32 (2 * Z.of_nat arrays * Z.of_nat samps)) nseq)) rs outs.
Proof.
  intros H. cbn [converted_records] in H. apply rbind_ok in H as (u & _ & H). apply wrap_convert_ok in H.
  apply convert_all_split in H as (outs & -> & H). exists outs. split; [reflexivity|].
  eapply Forall2_impl; [|exact H]. clear H. intros [key r] os (ls & E & D) beams nseq arrays samps norm na ns nb n data S. cbn [snd] in S.
  unfold convert_bfiq_record in E. destruct (shaped_ok _ _ _ _ _ (bs_data _ _ _ _ _ _ _ _ _ _ _ S)) as (d & ED & ESH).
  rewrite (dict_item_get _ _ _ ED) in E. cbn [rbind] in E. rewrite ESH in E. cbn [rbind fst snd] in E.
  rewrite (get_float_ok _ _ _ _ (bs_norm _ _ _ _ _ _ _ _ _ _ _ S) eq_refl) in E. cbn [rbind] in E. cbv zeta in E. unwind E.
  unfold beams_of in *. rewrite (get_vector_ok _ _ _ _ (bs_beams _ _ _ _ _ _ _ _ _ _ _ S) eq_refl) in *. cbn [rbind] in *.
  match goal with X : Ok (combine _ _) = Ok ?v |- _ => apply ok_inj in X; subst v end.
  apply (beams_split (fun b beam => iqdat_record ctime sid key origin k r [na; ns; nb; n] (map (scale_iq norm k) data) b beam) beams ls os) in E as [LE NE]; [|exact D].
  split; [exact LE|]. intros b beam HB. destruct (NE b beam HB) as (o & raw & NO & ER & RR). exists o. split; [exact NO|].
  split; [eapply iqdat_record_common; eassumption|]. eapply iqdat_record_fields; eassumption.
Qed.

(** ** rawacf *)

Lemma lags_nth scale nb nr nl data b : length data = size [nb; nr; nl] -> (b < nb)%nat -> (nl <> 0)%nat ->
  lag_values scale nr nl data b (parts (beam_lags nr nl (map scale data) b)).
Proof.
  intros L HB HN. assert (L' : length data = (nb * nr * nl)%nat) by (rewrite L; cbn; ring). clear L.
  assert (IDX : forall i, (i < nr -> (b * nr + i) * nl + nl <= length (map scale data))%nat).
  { intros i Hi. rewrite map_length, L'. assert ((b * nr + i < nb * nr)%nat) by (apply index_bound; lia). nia. }
  assert (LW : forall i, In i (seq 0 nr) -> length (firstn (nl - 1) (skipn ((b * nr + i) * nl) (map scale data))) = (nl - 1)%nat).
  { intros i Hi. apply in_seq in Hi. apply window_length. specialize (IDX i). lia. }
  split.
  - rewrite parts_length. unfold beam_lags. rewrite (flat_length _ (nl - 1)), seq_length; [reflexivity|exact LW].
  - intros i j Hi Hj.
    assert (NS : nth_error (beam_lags nr nl (map scale data) b) (i * (nl - 1) + j) = option_map scale (nth_error data ((b * nr + i) * nl + j))).
    { unfold beam_lags. rewrite (nth_flat _ (nl - 1) _ i j i LW); [|now apply nth_seq|exact Hj].
      rewrite nth_window by assumption. apply nth_error_map. }
    destruct (nth_error data ((b * nr + i) * nl + j)) as [z|] eqn:EZ.
    + exists z. split; [reflexivity|]. destruct (nth_parts (beam_lags nr nl (map scale data) b) (i * (nl - 1) + j)) as [P1 P2].
      rewrite NS in P1, P2. split; assumption.
    + apply nth_error_None in EZ. specialize (IDX i Hi). rewrite map_length in IDX. lia.
Qed.
Lemma lag0_nth scale power nb nr nl data b : length data = size [nb; nr; nl] -> (b < nb)%nat -> (nl <> 0)%nat ->
  lag0_values scale power nr nl data b (map power (beam_lag0 nr nl (map scale data) b)).
Proof.
  intros L HB HN. assert (L' : length data = (nb * nr * nl)%nat) by (rewrite L; cbn; ring). clear L.
  assert (IDX : forall i, (i < nr -> (b * nr + i) * nl + nl <= length (map scale data))%nat).
  { intros i Hi. rewrite map_length, L'. assert ((b * nr + i < nb * nr)%nat) by (apply index_bound; lia). nia. }
  assert (LW : forall i, In i (seq 0 nr) -> length (firstn 1 (skipn ((b * nr + i) * nl) (map scale data))) = 1%nat).
  { intros i Hi. apply in_seq in Hi. apply window_length. specialize (IDX i). lia. }
  split.
  - rewrite map_length. unfold beam_lag0. rewrite (flat_length _ 1), seq_length; [lia|exact LW].
  - intros i Hi.
    assert (NS : nth_error (beam_lag0 nr nl (map scale data) b) i = option_map scale (nth_error data ((b * nr + i) * nl))).
    { unfold beam_lag0. replace i with (i * 1 + 0)%nat at 1 by lia. rewrite (nth_flat _ 1 _ i 0 i LW); [|now apply nth_seq|lia].
      rewrite nth_window by lia. rewrite Nat.add_0_r. apply nth_error_map. }
    rewrite nth_error_map, NS. destruct (nth_error data ((b * nr + i) * nl)) as [z|] eqn:EZ.
    + exists z. split; reflexivity.
    + apply nth_error_None in EZ. specialize (IDX i Hi). rewrite map_length in IDX. lia.
Qed.

Lemma rawacf_record_fields power ctime sid key origin k r scale nb nr nl main xcfs b beam raw o :
  length main = size [nb; nr; nl] -> length xcfs = size [nb; nr; nl] ->
  rawacf_record power ctime sid key origin k r [nb; nr; nl] (map scale main) (Some (map scale xcfs)) b beam = Ok raw ->
  Conversions.record2dmap raw = Ok o ->
  (exists w, is_int16 beam w /\ out_scalar o (str "bmnum") (VNpInt NI16 w)) /\
  (exists vals, lag_values scale nr nl main b vals /\ out_array o (str "acfd") DF32 [nr; (nl - 1)%nat; 2%nat] vals) /\
  (exists vals, lag_values scale nr nl xcfs b vals /\ out_array o (str "xcfd") DF32 [nr; (nl - 1)%nat; 2%nat] vals) /\
  (exists vals, lag0_values scale power nr nl main b vals /\ out_array o (str "pwr0") DF32 [nr] vals) /\
  out_array o (str "slist") DI16 [nr] (map (fun i => wrap16 (Z.of_nat i)) (seq 0 nr)).
Proof.
  intros LM LX H R. unfold rawacf_record in H. destruct (Nat.ltb_spec b nb) as [HB|]; cbn [negb orb] in H; [|discriminate].
  destruct (Nat.eqb_spec nl 0) as [|HN]; [discriminate|]. cbv zeta in H. unwind H.
  match goal with X : Ok (map scale xcfs) = Ok ?v |- _ => apply ok_inj in X; subst v end.
  match goal with E : common_fields _ _ _ _ _ _ _ _ = Ok _ |- _ => rename E into EC end.
  split.
  { apply ok_inj in H. destruct (common_get _ _ _ _ _ _ _ _ _ EC) as (G & _).
    eapply common_out; [symmetry; exact H|exact R|exact G]. }
  apply ok_inj in H as <-. split; [|split; [|split]].
  - eexists. split; [exact (lags_nth scale nb nr nl main b LM HB HN)|]. eapply out_array_get; [exact R|]. skip_common EC. reflexivity.
  - eexists. split; [exact (lags_nth scale nb nr nl xcfs b LX HB HN)|]. eapply out_array_get; [exact R|]. skip_common EC. reflexivity.
  - eexists. split; [exact (lag0_nth scale power nb nr nl main b LM HB HN)|]. eapply out_array_get; [exact R|]. skip_common EC. reflexivity.
  - eapply out_array_get; [exact R|]. skip_common EC. reflexivity.
Qed.

Lemma rawacf_correlations scale_iq scale_acf power ctime sid rs origin k recs :
  converted_records scale_iq scale_acf power ctime BRawacf sid rs origin k = Ok recs ->
  exists outs, recs = concat outs /\
    Forall2 (fun p os => forall beams norm nb nr nl main xcfs,
      rawacf_source (snd p) beams norm nb nr nl main xcfs ->
      length os = length beams /\
      forall b beam, nth_error beams b = Some beam ->
      exists o, nth_error os b = Some o /\
        (exists w, is_int16 beam w /\ out_scalar o (str "bmnum") (VNpInt NI16 w)) /\
        (exists vals, lag_values (scale_acf norm k) nr nl main b vals /\ out_array o (str "acfd") DF32 [nr; (nl - 1)%nat; 2%nat] vals) /\
        (exists vals, lag_values (scale_acf norm k) nr nl xcfs b vals /\ out_array o (str "xcfd") DF32 [nr; (nl - 1)%nat; 2%nat] vals) /\
        (exists vals, lag0_values (scale_acf norm k) power nr nl main b vals /\ out_array o (str "pwr0") DF32 [nr] vals) /\
        out_array o (str "slist") DI16 [nr] (map (fun i => wrap16 (Z.of_nat i)) (seq 0 nr))) rs outs.
Proof.
  intros H. cbn [converted_records] in H. apply rbind_ok in H as (u & _ & H). apply wrap_convert_ok in H.
  apply convert_all_split in H as (outs & -> & H). exists outs. split; [reflexivity|].
  eapply Forall2_impl; [|exact H]. clear H. intros [key r] os (ls & E & D) beams norm nb nr nl main xcfs [SB SN (dk & SK & SM & SX)]. cbn [snd] in *.
  unfold convert_rawacf_record in E. pose proof SM as (SMD & _ & SML). pose proof SX as (_ & (shx & SXD) & SXL).
  destruct (shaped_ok _ _ _ _ _ SM) as (d & ED & ESM). destruct (shaped_ok _ _ _ _ _ SX) as (d' & ED' & ESX).
  rewrite ED in ED'. injection ED' as <-.
  assert (EDIM : match dict_get r (str "correlation_dimensions") with
               | Some d => Ok d
               | None => match dict_get r (str "data_dimensions") with
                         | Some d => Ok d
                         | None => Raise OutOfModel
                         end
               end = Ok d).
  { destruct SK as [->|[NK ->]]; [now rewrite ED|]. now rewrite NK, ED. }
  rewrite EDIM in E. cbn [rbind] in E. rewrite (get_float_ok _ _ _ _ SN eq_refl) in E. cbn [rbind] in E. cbv zeta in E.
  rewrite ESM in E. cbn [rbind fst snd] in E. apply rbind_ok in E as (u1 & _ & E).
  unfold shaped_if in E. rewrite SXD, ESX in E. cbn [rbind fst snd] in E. unwind E.
  unfold beams_of in *. rewrite (get_vector_ok _ _ _ _ SB eq_refl) in *. cbn [rbind] in *.
  match goal with X : Ok (combine _ _) = Ok ?v |- _ => apply ok_inj in X; subst v end.
  apply (beams_split (fun b beam => rawacf_record power ctime sid key origin k r [nb; nr; nl] (map (scale_acf norm k) main) (Some (map (scale_acf norm k) xcfs)) b beam) beams ls os) in E as [LE NE]; [|exact D].
  split; [exact LE|]. intros b beam HB. destruct (NE b beam HB) as (o & raw & NO & ER & RR). exists o. split; [exact NO|].
  eapply rawacf_record_fields; eassumption.
Qed.
