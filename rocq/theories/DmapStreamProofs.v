(** Prefixes, suffixes and concatenations of DMAP files; the conversion of what
    was read to plain dictionaries; rejected headers. *)
From Coq Require Import ZArith List Bool Lia ZifyBool ZifyNat.
From Verif Require Import Base Bytes BytesSpec BytesProofs Utf8 Utf8Proofs FloatBits DmapTypes
  DmapRead DmapWrite Conversions DmapSpec DmapReadProofs DmapFileProofs.
Import ListNotations.
Open Scope Z_scope.
Ltac Zify.zify_post_hook ::= Z.div_mod_to_equations.

(** ** A file without a negative slist size yields no negative size *)

Section Nonneg.
Variable buf : bytes.
Hypothesis Hbytes : Forall is_byte buf.
Hypothesis Hslist : ~ negative_slist buf.

Lemma read_array_sizes blk c a c' :
  0 <= c -> read_array buf blk c = (Ok a, c') ->
  Forall (fun n => 0 <= n) (ar_shape a) /\ 0 <= c'.
Proof.
  intros H0 H. unfold read_array in H.
  inv_bindn H as name. apply read_s_ok in H1 as (nb & HO1 & HW1 & ->); auto.
  pose proof (zlen_nonneg nb) as Hnb.
  inv_bindn H as ty. apply read_c_ok in H1 as (HO2 & ->); [|lia].
  inv_bindn H as of. apply check_data_type_ok in H1 as (HD & ->).
  inv_bindn H as dim. apply read_i_ok in H1 as (db & HO3 & HW3 & ->); auto; [|lia].
  pose proof (wire_int_len _ _ _ _ HW3) as HL3. pose proof (occurs_bounds _ _ _ HO3) as HB3.
  inv_bind H. apply bytes_check_ok in H1 as [HC1 ->].
  inv_bind H. apply zn_check_ok in H1 as [HC2 ->].
  inv_bindn H as shp0. apply read_shape_ok in H1 as (HLs & sb & HO4 & HW4 & ->); auto; [|lia].
  pose proof (zlen_nonneg sb) as Hsb.
  cbv zeta in H. set (shp := if 1 <? dim then rev shp0 else shp0) in *.
  destruct (existsb (fun x => x <=? 0) shp && negb (str_eqb name s_slist)) eqn:EX1; [discriminate|].
  destruct (existsb (fun x => blk <=? x) shp) eqn:EX2; [discriminate|].
  inv_bind H. apply bytes_check_ok in H1 as [HC3 ->].
  inv_bind H. apply bytes_check_ok in H1 as [HC4 ->].
  assert (HNN : Forall (fun n => 0 <= n) shp).
  { rewrite Forall_forall. intros n Hn. destruct (Z_lt_le_dec n 0); auto. exfalso.
    assert (HE : existsb (fun x => x <=? 0) shp = true).
    { apply existsb_exists. exists n. split; auto. lia. }
    rewrite HE in EX1. cbn [andb] in EX1. destruct (str_eqb name s_slist) eqn:EN; [|discriminate].
    apply str_eqb_eq in EN. subst name. apply Hslist.
    destruct HW1 as (e & HE1 & HE2 & ->).
    assert (e = s_slist) as -> by (vm_compute in HE1; injection HE1 as <-; reflexivity).
    exists c, ty, shp0, db, sb. splits.
    - change (s_slist ++ [0] ++ [ty] ++ db ++ sb) with ((s_slist ++ [0]) ++ [ty] ++ db ++ sb).
      rewrite occurs_app. split; auto. rewrite !occurs_app. change (zlen [ty]) with 1.
      rewrite HL3. auto.
    - replace (zlen shp0) with dim by (unfold zlen; lia). exact HW3.
    - exact HW4.
    - rewrite Exists_exists. exists n. split; auto. unfold shp in Hn.
      destruct (1 <? dim); auto. now apply in_rev. }
  pose proof (product_nonneg _ HNN) as HPN. rewrite <- prod_product in HPN.
  destruct of as [f|]; [|discriminate].
  assert (HF : f = Fs \/ f <> Fs) by (destruct f; auto; right; discriminate).
  destruct HF as [->|HF]; [discriminate|].
  replace (match f with Fs => fail DmapDataError | _ => _ end)
    with (do array_value <- read_numerical_array buf shp f (prod shp);
          ret (mk_darray name array_value ty f dim shp)) in H
    by (destruct f; auto; congruence).
  inv_bind H. injection H as <- <-. cbn [ar_shape]. split; auto.
  unfold read_numerical_array in H1. rewrite fmt_dtype_eq in H1 by auto.
  inv_bind H1. injection H as <- <-. inv_bind H1. unfold lift in H. injection H as _ <-.
  inv_bind H1. unfold advance in H. injection H as _ <-. inv_bind H1.
  unfold lift in H. injection H as _ <-. injection H1 as _ <-. nia.
Qed.

Lemma read_arrays_sizes blk n : forall c aa c',
  0 <= c -> read_arrays buf blk n c = (Ok aa, c') ->
  Forall (fun a => Forall (fun n => 0 <= n) (ar_shape a)) aa.
Proof.
  induction n as [|n IH]; intros c aa c' H0 H; cbn [read_arrays] in H.
  - injection H as <- <-. constructor.
  - inv_bind H. inv_bind H. injection H as <- <-.
    apply read_array_sizes in H1 as [HA HC]; auto. constructor; eauto.
Qed.

Lemma read_block_sizes c b c' :
  zlen buf <= ssize_max -> 0 <= c -> read_record_fields buf c = (Ok b, c') ->
  Forall (fun a => Forall (fun n => 0 <= n) (ar_shape a)) (snd b).
Proof.
  intros HM H0 H. unfold read_record_fields in H.
  inv_bind H. injection H1 as <- <-.
  inv_bind H. injection H1 as <- <-.
  inv_bindn H as size. apply read_i_ok in H1 as (szb & HO1 & HW1 & ->); auto; [|lia].
  inv_bind H. injection H1 as <- <-. cbv zeta in H.
  inv_bind H. apply bytes_check_ok in H1 as [HC1 ->].
  inv_bind H. apply zn_check_ok in H1 as [HC2 ->].
  inv_bindn H as ns. apply read_i_ok in H1 as (nsb & _ & _ & ->); auto; [|lia].
  inv_bindn H as na. apply read_i_ok in H1 as (nab & _ & _ & ->); auto; [|lia].
  inv_bind H. apply zn_check_ok in H1 as [_ ->].
  inv_bind H. apply zn_check_ok in H1 as [_ ->].
  inv_bind H. apply bytes_check_ok in H1 as [_ ->].
  inv_bindn H as ss. inv_bindn H as aa.
  pose proof (out_scalars buf HM (Z.to_nat ns) (c + 4 + 4 + 4 + 4) ltac:(lia)) as HO.
  rewrite H1 in HO. cbn [outcome] in HO.
  inv_bind H. destruct (negb _); [discriminate|]. injection H as <- <-. cbn [snd].
  eapply read_arrays_sizes; eauto.
Qed.

Lemma read_blocks_sizes : zlen buf <= ssize_max -> forall fuel c bl c',
  0 <= c -> read_blocks buf fuel c = (Ok bl, c') -> nonneg_sizes bl.
Proof.
  intros HM. induction fuel as [|fuel IH]; intros c bl c' H0 H; cbn [read_blocks] in H;
    unfold bind at 1, get_cursor, end_bytes in H; destruct (c <? zlen buf); try discriminate.
  - injection H as <- <-. constructor.
  - inv_bind H. inv_bind H. injection H as <- <-.
    pose proof (block_progress _ _ _ _ H1).
    constructor; [eapply read_block_sizes; [| |exact H1]; auto|].
    eapply IH; [|exact H2]. lia.
  - injection H as <- <-. constructor.
Qed.

Lemma fields_sizes bl :
  zlen buf <= ssize_max -> dmap_read_fields buf = Ok bl -> nonneg_sizes bl.
Proof.
  intros HM H. unfold dmap_read_fields in H.
  destruct (zlen buf =? 0); [discriminate|].
  destruct (read_blocks buf (S (length buf)) 0) as [[bl'|e'] c] eqn:EB; [|discriminate].
  destruct (_ <? _); [discriminate|]. injection H as ->.
  eapply read_blocks_sizes; [auto| |exact EB]. lia.
Qed.

End Nonneg.

(** ** Truncation and concatenation *)

Lemma prefix_split {A} (a b c d : list A) :
  a ++ b = c ++ d -> (length a <= length c)%nat -> exists e, c = a ++ e /\ b = e ++ d.
Proof.
  revert c; induction a as [|x a IH]; intros c H HL; cbn [app] in *.
  - exists c. auto.
  - destruct c as [|y c]; cbn [length app] in *; [lia|]. injection H as <- H.
    apply IH in H as (e & -> & ->); [|lia]. exists e. auto.
Qed.

Lemma walk_prefix bl S : wire_file bl S -> forall P Q pre ns,
  S = P ++ Q -> walk (pre ++ P) (zlen pre) ns ->
  exists bl1 bl2, bl = bl1 ++ bl2 /\ wire_file bl1 P /\ wire_file bl2 Q /\ length bl1 = length ns.
Proof.
  intros HW. induction HW as [|b bl bs S [id HR] HW IH]; intros P Q pre ns HS HK.
  - symmetry in HS. apply app_eq_nil in HS as [-> ->]. exists [], [].
    inversion HK as [HE|p n ns' szb HO HI HP HK']; subst.
    + splits; auto; constructor.
    + apply occurs_bounds in HO. pose proof (wire_int_len _ _ _ _ HI).
      rewrite app_nil_r in *. lia.
  - inversion HK as [HE|p n ns' szb HO HI HP HK']; subst.
    + rewrite zlen_app in HE. assert (P = []) as -> by (apply zlen_0; lia).
      exists [], (b :: bl). splits; auto; [constructor|].
      cbn [app] in HS. subst Q. constructor; eauto.
    + pose proof (wire_block_len _ _ _ HR) as HLb.
      assert (Hn : n = zlen bs).
      { pose proof (occurs_bounds _ _ _ HO) as HB. rewrite zlen_app in HB.
        pose proof (wire_int_len _ _ _ _ HI) as HLi.
        assert (HOP : occurs P 4 szb).
        { apply occurs_in_suffix in HO; [|lia]. now replace (zlen pre + 4 - zlen pre) with 4 in HO by lia. }
        assert (HOS : occurs (P ++ Q) 4 szb) by (now apply occurs_extend).
        rewrite <- HS in HOS.
        destruct HR as [ss aa szb2 nsb nab sb ab HI1 HIB HSS HAA HSZ HNS HNA HSc HAr].
        set (L := zlen (id ++ szb2 ++ _)) in *.
        assert (HO2 : occurs ((id ++ szb2 ++ nsb ++ nab ++ sb ++ ab) ++ S) 4 szb2).
        { exists id, (nsb ++ nab ++ sb ++ ab ++ S). split.
          - now rewrite <- !app_assoc.
          - unfold zlen. lia. }
        assert (szb2 = szb) as -> by
          (eapply occurs_eq; eauto; pose proof (wire_int_len _ _ _ _ HSZ); lia).
        apply wire_int_iff in HSZ as (_ & _ & ->); [|lia].
        apply wire_int_iff in HI as (_ & _ & ->); [|lia]. reflexivity. }
      subst n.
      destruct (walk_le _ _ _ HK') as [HLe _]; [pose proof (zlen_nonneg pre); lia|].
      rewrite zlen_app in HLe.
      destruct (prefix_split bs S P Q) as (P' & -> & ->); auto; [unfold zlen in *; lia|].
      rewrite app_assoc, <- zlen_app in HK'.
      destruct (IH P' Q (pre ++ bs) ns' eq_refl HK') as (bl1 & bl2 & -> & H1 & H2 & HL).
      exists (b :: bl1), bl2. splits; auto.
      * constructor; eauto.
      * cbn [length]. lia.
Qed.

Lemma fields_nonempty buf bl : dmap_read_fields buf = Ok bl -> bl <> [] /\ zlen buf <> 0.
Proof.
  unfold dmap_read_fields. destruct (zlen buf =? 0) eqn:E0; [discriminate|].
  cbn [read_blocks]. unfold bind at 1, get_cursor, end_bytes.
  pose proof (zlen_nonneg buf). replace (0 <? zlen buf) with true by lia.
  unfold bind at 1. destruct (read_record_fields buf 0) as [[b|e] c]; [|discriminate].
  unfold bind. destruct (read_blocks buf (length buf) c) as [[bs|e] c2]; [|discriminate].
  unfold ret. destruct (_ <? _); [discriminate|]. intros [= <-]. split; [discriminate|lia].
Qed.

Lemma fields_split A B bl blA :
  is_bytearray (A ++ B) ->
  dmap_read_fields (A ++ B) = Ok bl -> nonneg_sizes bl ->
  dmap_read_fields A = Ok blA ->
  exists bl2, bl = blA ++ bl2 /\ wire_file blA A /\ wire_file bl2 B.
Proof.
  intros [HB HM] HR HN HA.
  assert (HBA : Forall is_byte A) by (apply Forall_app in HB; tauto).
  apply fields_sound in HR; auto.
  destruct (fields_nonempty _ _ HA) as [HnA HzA].
  apply fields_walk in HA as HK; auto. destruct HK as (ns & HK & HL).
  destruct (walk_prefix _ _ HR A B [] ns eq_refl HK) as (bl1 & bl2 & -> & H1 & H2 & HL1).
  assert (bl1 <> []) by (destruct bl1; [destruct blA; [congruence|cbn in *; lia]|discriminate]).
  rewrite zlen_app in HM. pose proof (zlen_nonneg B).
  assert (dmap_read_fields A = Ok bl1) by (apply fields_complete; auto; lia).
  assert (bl1 = blA) as -> by congruence. eauto.
Qed.

Lemma fields_concat A B blA blB :
  is_bytearray (A ++ B) ->
  dmap_read_fields A = Ok blA -> nonneg_sizes blA ->
  dmap_read_fields B = Ok blB -> nonneg_sizes blB ->
  dmap_read_fields (A ++ B) = Ok (blA ++ blB).
Proof.
  intros [HB HM] HA HNA HRB HNB. apply Forall_app in HB as [H1 H2].
  destruct (fields_nonempty _ _ HA) as [HnA _].
  apply fields_complete; auto.
  - destruct blA; [congruence|discriminate].
  - apply wire_list_app; apply fields_sound; auto.
Qed.

(** ** Conversion of what was read to plain values *)

Definition value_kind (f : fmt) (v : pyval) : Prop :=
  match f with
  | Fs => exists s, v = VStr s
  | Ff | Fd => exists b, v = VFloat b
  | Fi => exists z, v = VInt z
  | FI | FQ => exists z, v = VInt z /\ - 2 ^ 63 <= z < 2 ^ 64
  | _ => exists z, v = VInt z /\ - 2 ^ 63 <= z < 2 ^ 63
  end.

Lemma unpack_from_bytes buf c n x : Forall is_byte buf -> 0 <= n -> unpack_from buf c n = Ok x ->
  Forall is_byte x /\ length x = Z.to_nat n.
Proof.
  intros HB Hn. unfold unpack_from, slice.
  assert (X : forall k, 0 <= k -> n <= zlen buf - k ->
    Forall is_byte (firstn (Z.to_nat n) (skipn (Z.to_nat k) buf)) /\
    length (firstn (Z.to_nat n) (skipn (Z.to_nat k) buf)) = Z.to_nat n).
  { intros k Hk HL. split.
    - rewrite <- (firstn_skipn (Z.to_nat k) buf) in HB. apply Forall_app in HB as [_ HB].
      rewrite <- (firstn_skipn (Z.to_nat n) (skipn (Z.to_nat k) buf)) in HB. now apply Forall_app in HB as [HB _].
    - rewrite firstn_length, skipn_length. unfold zlen in HL. lia. }
  destruct (_ || _); [discriminate|]. destruct (c <? 0) eqn:E0.
  - destruct (0 <? c + n); [discriminate|]. destruct (c + zlen buf <? 0) eqn:E1; [discriminate|].
    destruct (_ <? n) eqn:E2; [discriminate|]. intros [= <-]. apply X; lia.
  - destruct (_ <? n) eqn:E2; [discriminate|]. intros [= <-]. apply X; lia.
Qed.

Lemma read_raw_bytes buf n c x c' : Forall is_byte buf -> read_data_raw buf n c = (Ok x, c') ->
  Forall is_byte x /\ length x = n.
Proof.
  intros HB H. unfold read_data_raw in H. inv_bind H. inv_bind H. inv_bind H. inv_bind H.
  injection H as <- <-. unfold lift in *.
  match goal with HU : context [unpack_from] |- _ => rename HU into HU0 end.
  destruct (unpack_from buf _ _) as [y|] eqn:E in HU0; [|discriminate]. injection HU0 as <- <-.
  apply unpack_from_bytes in E as [E1 E2]; [|exact HB|lia]. rewrite Nat2Z.id in E2. auto.
Qed.

Lemma read_data_kind buf f c v c' : Forall is_byte buf -> read_data buf f c = (Ok v, c') -> value_kind f v.
Proof.
  intros HB H. destruct f; cbn [read_data] in H; inv_bindn H as w; injection H as <- <-; cbn [value_kind]; eauto.
  1: { match goal with HU : read_data_c _ _ = _ |- _ => rename HU into HU0 end.
       eexists; split; [reflexivity|]. unfold read_data_c in HU0.
       inv_bind HU0. inv_bind HU0. inv_bind HU0. inv_bind HU0. injection HU0 as <- <-.
       match goal with HU : lift (py_index _ _) _ = _ |- _ => rename HU into HU1 end.
       unfold lift in HU1. destruct (py_index buf _) as [y|] eqn:E in HU1; [|discriminate]. injection HU1 as <- <-.
       apply py_index_byte in E; [|exact HB]. unfold is_byte in E. lia. }
  all: match goal with HU : read_data_raw _ _ _ = _ |- _ => apply read_raw_bytes in HU as [HU1 HU2]; [|exact HB] end.
  all: eexists; split; [reflexivity|].
  all: cbn [fmt_size fmt_signed] in *.
  all: match type of HU2 with length ?w = ?n =>
      pose proof (le_dec_range w HU1) as HR; rewrite HU2 in HR; unfold to_signed, wrap_mod in *;
      cbn [Z.of_nat Pos.of_succ_nat Pos.succ Z.mul Pos.mul] in *; try destruct (_ <? _) eqn:?; lia end.
Qed.

Lemma read_scalars_kind buf n : Forall is_byte buf -> forall c ss c',
  read_scalars buf n c = (Ok ss, c') -> Forall (fun s => value_kind (sc_fmt s) (sc_value s)) ss.
Proof.
  intros HB. induction n as [|n IH]; intros c ss c' H; cbn [read_scalars] in H.
  - injection H as <- <-. constructor.
  - inv_bind H. inv_bind H. injection H as <- <-. constructor; [|eauto].
    unfold read_scalar in H0. inv_bind H0. inv_bind H0. inv_bindn H0 as of.
    destruct of as [f|]; [|discriminate]. inv_bind H0. injection H0 as <- <-.
    cbn [sc_fmt sc_value]. eapply read_data_kind; eauto.
Qed.

Lemma read_blocks_kind buf fuel : Forall is_byte buf -> forall c bl c',
  read_blocks buf fuel c = (Ok bl, c') ->
  Forall (fun b : block => Forall (fun s => value_kind (sc_fmt s) (sc_value s)) (fst b)) bl.
Proof.
  intros HB. induction fuel as [|fuel IH]; intros c bl c' H; cbn [read_blocks] in H;
    unfold bind at 1, get_cursor in H; destruct (_ <? _); try discriminate.
  - injection H as <- <-. constructor.
  - inv_bind H. inv_bind H. injection H as <- <-. constructor; [|eauto].
    unfold read_record_fields in H0. do 11 inv_bind H0. cbv zeta in H0.
    inv_bindn H0 as ss. inv_bindn H0 as aa. inv_bind H0.
    destruct (negb _); [discriminate|]. injection H0 as <- <-. cbn [fst].
    eapply read_scalars_kind; eauto.
  - injection H as <- <-. constructor.
Qed.

Lemma fields_kind buf bl : Forall is_byte buf ->
  dmap_read_fields buf = Ok bl ->
  Forall (fun b : block => Forall (fun s => value_kind (sc_fmt s) (sc_value s)) (fst b)) bl.
Proof.
  intros HB H. unfold dmap_read_fields in H.
  destruct (zlen buf =? 0); [discriminate|].
  destruct (read_blocks buf (S (length buf)) 0) as [[bl'|e'] c] eqn:EB; [|discriminate].
  destruct (_ <? _); [discriminate|]. injection H as ->.
  eapply read_blocks_kind; eauto.
Qed.

Lemma cast_value_kind f v : value_kind f v -> exists w, cast_value f v = Ok w.
Proof.
  assert (R : forall z hi, - 2 ^ 63 <= z < hi -> (z <? - 2 ^ 63) || (hi <=? z) = false) by lia.
  destruct f; cbn [value_kind]; intros H; destruct H as [x H]; try (subst v; cbn; eauto; fail);
    destruct H as [-> H]; cbn [cast_value np_int np_limit]; rewrite R by exact H; eauto.
Qed.

(** Items of a record built from a block are items of the block. *)
Lemma dict_set_Forall {A} (P : A -> Prop) (d : dict A) k v :
  Forall (fun p => P (snd p)) d -> P v -> Forall (fun p => P (snd p)) (dict_set d k v).
Proof.
  intros H HV. induction H as [|[k' v'] d Hp H IH]; cbn [dict_set].
  - constructor; auto.
  - destruct (str_eqb k' k); constructor; auto.
Qed.

Lemma dict_build_Forall {A} (P : A -> Prop) l : forall (d : dict A),
  Forall (fun p => P (snd p)) d -> Forall (fun p => P (snd p)) l ->
  Forall (fun p => P (snd p)) (dict_build l d).
Proof.
  unfold dict_build. induction l as [|[k v] l IH]; intros d Hd Hl; cbn [fold_left fst snd]; auto.
  inversion Hl; subst. apply IH; auto. apply dict_set_Forall; auto.
Qed.

Definition item_kind (it : item) : Prop :=
  match it with
  | IScalar s => value_kind (sc_fmt s) (sc_value s)
  | IArray _ => True
  | IPlain _ => False
  end.

Lemma record_of_fields_kind b :
  Forall (fun s => value_kind (sc_fmt s) (sc_value s)) (fst b) ->
  Forall (fun p => item_kind (snd p)) (record_of_fields b).
Proof.
  intros H. rewrite record_of_fields_build. apply dict_build_Forall; [constructor|].
  unfold block_fields. apply Forall_app. split; rewrite Forall_map.
  - eapply Forall_impl; [|exact H]. cbn. auto.
  - apply Forall_forall. cbn. auto.
Qed.

Lemma record2dict_ok r :
  Forall (fun p => item_kind (snd p)) r -> exists r', record2dict r = Ok r'.
Proof.
  intros H. induction H as [|[k it] r Hp H IH]; cbn [record2dict]; [eauto|].
  destruct IH as [r' ->]. cbn [snd] in Hp.
  assert (HI : exists it', field2dict it = Ok it').
  { destruct it as [s|a|v]; cbn [field2dict item_kind] in *; eauto.
    - apply cast_value_kind in Hp as [w ->]. cbn [rbind]. destruct (sc_value s); eauto.
    - tauto. }
  destruct HI as [it' ->]. cbn. eauto.
Qed.

Lemma dmap2dict_ok rs :
  Forall (fun r : record => Forall (fun p => item_kind (snd p)) r) rs ->
  exists rs', dmap2dict rs = Ok rs'.
Proof.
  intros H. induction H as [|r rs Hp H IH]; cbn [dmap2dict]; [eauto|].
  destruct IH as [rs' ->]. apply record2dict_ok in Hp as [r' ->]. cbn. eauto.
Qed.

Lemma dmap_read_kind buf rs : Forall is_byte buf ->
  dmap_read buf = Ok rs ->
  Forall (fun r : record => Forall (fun p => item_kind (snd p)) r) rs.
Proof.
  intros HB. rewrite dmap_read_trace. destruct (dmap_read_fields buf) as [bl|e] eqn:E; [|discriminate].
  intros [= <-]. apply fields_kind in E; [|exact HB]. apply Forall_map.
  eapply Forall_impl; [|exact E]. intros b. apply record_of_fields_kind.
Qed.

Definition item_dmap (it : item) : Prop := match it with IPlain _ => False | _ => True end.

Lemma dmap_read_items buf rs :
  dmap_read buf = Ok rs -> Forall (fun r : record => Forall (fun p => item_dmap (snd p)) r) rs.
Proof.
  rewrite dmap_read_trace. destruct (dmap_read_fields buf) as [bl|e] eqn:E; [|discriminate].
  intros [= <-]. apply Forall_map. apply Forall_forall. intros b _.
  rewrite record_of_fields_build. apply dict_build_Forall; [constructor|].
  unfold block_fields. apply Forall_app. split; rewrite Forall_map; apply Forall_forall; cbn; auto.
Qed.

Lemma read_dicts_spec buf : Forall is_byte buf ->
  match dmap_read buf with
  | Ok rs => exists ds, dmap_read_dicts buf = Ok ds
  | Raise e => dmap_read_dicts buf = Raise e
  end.
Proof.
  intros HB. unfold dmap_read_dicts. destruct (dmap_read buf) as [rs|e] eqn:E; [|reflexivity].
  cbn [rbind]. apply dmap2dict_ok. eapply dmap_read_kind; eauto.
Qed.

(** ** Headers without scalars or arrays *)

Lemma zero_counts_rejected buf id szb nsb nab rest n ns na :
  zlen buf <= ssize_max ->
  buf = id ++ szb ++ nsb ++ nab ++ rest -> length id = 4%nat ->
  wire_int32 n szb -> 0 < n <= zlen buf ->
  wire_int32 ns nsb -> wire_int32 na nab -> 0 <= ns -> 0 <= na -> ns = 0 \/ na = 0 ->
  dmap_read_fields buf = Raise ZeroByteError.
Proof.
  intros HM -> Hid HW1 Hn HW2 HW3 H2 H3 HZ.
  set (buf := id ++ szb ++ nsb ++ nab ++ rest) in *.
  pose proof (wire_int_len _ _ _ _ HW1) as L1. pose proof (wire_int_len _ _ _ _ HW2) as L2.
  pose proof (wire_int_len _ _ _ _ HW3) as L3.
  assert (HO : occurs buf 0 buf) by apply occurs_all.
  unfold buf in HO at 2. rewrite !occurs_app in HO. destruct HO as (_ & O1 & O2 & O3 & _).
  assert (zlen id = 4) as Li by (unfold zlen; lia).
  rewrite Li, ?L1, ?L2 in *. cbn [Z.add] in O1.
  unfold dmap_read_fields. replace (zlen buf =? 0) with false by lia.
  cbn [read_blocks]. unfold bind at 1, get_cursor, end_bytes.
  replace (0 <? zlen buf) with true by lia.
  assert (HR : exists c, read_record_fields buf 0 = (Raise ZeroByteError, c)).
  { unfold read_record_fields. unfold bind at 1, get_cursor. unfold bind at 1, advance.
    erewrite bind_eq by (eapply read_i_occ; [exact HM|exact O1|exact HW1]).
    unfold bind at 1, get_cursor. cbv zeta.
    erewrite bind_eq by (apply bytes_check_pass; unfold end_bytes; lia).
    erewrite bind_eq by (apply zn_check_pass; lia).
    erewrite bind_eq by (eapply read_i_occ; [exact HM|exact O2|exact HW2]).
    erewrite bind_eq by (eapply read_i_occ; [exact HM|exact O3|exact HW3]).
    unfold bind at 1, zero_negative_check at 1.
    destruct (ns =? 0) eqn:E1; [eexists; reflexivity|].
    replace (ns <? 0) with false by lia. unfold ret at 1.
    unfold bind at 1, zero_negative_check at 1.
    replace (na =? 0) with true by lia. eexists; reflexivity. }
  destruct HR as [c HR]. unfold bind at 1. rewrite HR. reflexivity.
Qed.

(** ** Records as dictionaries of blocks *)

Lemma record_of_fields_dict b : dict_of_block b (record_of_fields b).
Proof. split; [apply record_keys|intros; apply record_get]. Qed.

Lemma dict_of_block_fun b r1 r2 : dict_of_block b r1 -> dict_of_block b r2 -> r1 = r2.
Proof.
  intros [K1 V1] [K2 V2]. rewrite <- K2 in K1.
  assert (HN : NoDup (map fst r2)) by (rewrite K2; apply first_occurrences_NoDup).
  assert (HV : forall k, dict_get r1 k = dict_get r2 k) by (intros; now rewrite V1, V2).
  clear V1 V2 K2. revert r2 K1 HN HV. induction r1 as [|[k v] r1 IH]; intros [|[k2 v2] r2] K1 HN HV;
    cbn [map fst] in *; try discriminate; auto.
  injection K1 as <- K1. inversion HN as [|? ? HnI HN']; subst.
  assert (v2 = v) as ->.
  { specialize (HV k). cbn [dict_get] in HV. rewrite str_eqb_refl in HV. congruence. }
  f_equal. apply IH; auto. intros k'. specialize (HV k'). cbn [dict_get] in HV.
  destruct (str_eqb k k') eqn:E; auto. apply str_eqb_eq in E. subst k'.
  assert (HG : forall r : record, ~ In k (map fst r) -> dict_get r k = None).
  { clear. induction r as [|[a b] r IH]; cbn [dict_get map fst In]; auto. intros H.
    destruct (str_eqb a k) eqn:E; [apply str_eqb_eq in E; tauto|]. apply IH. tauto. }
  rewrite !HG; auto. now rewrite K1.
Qed.

Lemma Forall2_dict bl rs : Forall2 dict_of_block bl rs <-> rs = map record_of_fields bl.
Proof.
  split.
  - intros H. induction H as [|b r bl rs HD H IH]; cbn [map]; auto.
    rewrite <- IH. f_equal. eapply dict_of_block_fun; eauto. apply record_of_fields_dict.
  - intros ->. induction bl; cbn [map]; constructor; auto using record_of_fields_dict.
Qed.

Lemma Forall2_len {A B} (R : A -> B -> Prop) l l' : Forall2 R l l' -> length l = length l'.
Proof. induction 1; cbn [length]; auto. Qed.

Lemma dmap_read_iff_trace buf rs :
  dmap_read buf = Ok rs <->
  exists bl, dmap_read_fields buf = Ok bl /\ Forall2 dict_of_block bl rs.
Proof.
  rewrite dmap_read_trace. destruct (dmap_read_fields buf) as [bl|e].
  - split.
    + intros [= <-]. exists bl. split; auto. now apply Forall2_dict.
    + intros (bl' & [= <-] & H). apply Forall2_dict in H. now subst.
  - split; [discriminate|]. intros (bl' & H & _). discriminate.
Qed.

Lemma read_sound buf rs :
  is_bytearray buf -> ~ negative_slist buf -> dmap_read buf = Ok rs ->
  exists bl, wire_file bl buf /\ Forall2 dict_of_block bl rs.
Proof.
  intros [HB HM] HN H. apply dmap_read_iff_trace in H as (bl & HF & HD).
  exists bl. split; auto. apply fields_sound; auto. eapply fields_sizes; eauto.
Qed.

Lemma read_complete buf bl :
  zlen buf <= 2 ^ 63 - 1 -> bl <> [] -> wire_file bl buf ->
  exists rs, dmap_read buf = Ok rs /\ Forall2 dict_of_block bl rs.
Proof.
  intros HM HN HW. exists (map record_of_fields bl). split; [|now apply Forall2_dict].
  rewrite dmap_read_trace. now rewrite (fields_complete _ _ HM HN HW).
Qed.

Lemma read_truncated P Q rs :
  is_bytearray (P ++ Q) -> ~ negative_slist (P ++ Q) -> dmap_read (P ++ Q) = Ok rs ->
  forall rsP, dmap_read P = Ok rsP <->
  exists bl1 bl2, bl1 <> [] /\ wire_file bl1 P /\ wire_file bl2 Q /\
    Forall2 dict_of_block (bl1 ++ bl2) rs /\ rsP = firstn (length bl1) rs.
Proof.
  intros HA HN HR rsP. apply dmap_read_iff_trace in HR as (bl & HF & HD).
  assert (HS : nonneg_sizes bl) by (destruct HA; eapply fields_sizes; eauto).
  split.
  - intros HP. apply dmap_read_iff_trace in HP as (bl1 & HF1 & HD1).
    destruct (fields_split _ _ _ _ HA HF HS HF1) as (bl2 & -> & H1 & H2).
    exists bl1, bl2. splits; auto; [apply (fields_nonempty _ _ HF1)|].
    apply Forall2_dict in HD, HD1. subst. rewrite map_app, firstn_app, map_length, Nat.sub_diag.
    cbn [firstn]. now rewrite app_nil_r, firstn_all2 by (rewrite map_length; apply le_n).
  - intros (bl1 & bl2 & HN1 & H1 & H2 & HD1 & ->). apply dmap_read_iff_trace.
    destruct HA as [HB HM]. rewrite zlen_app in HM. pose proof (zlen_nonneg Q).
    exists bl1. split; [apply fields_complete; auto; lia|].
    apply Forall2_dict in HD1. subst rs. apply Forall2_dict.
    rewrite map_app, firstn_app, map_length, Nat.sub_diag.
    cbn [firstn]. now rewrite app_nil_r, firstn_all2 by (rewrite map_length; apply le_n).
Qed.

Lemma read_concat A B rsA rsB :
  is_bytearray (A ++ B) -> ~ negative_slist A -> ~ negative_slist B ->
  dmap_read A = Ok rsA -> dmap_read B = Ok rsB -> dmap_read (A ++ B) = Ok (rsA ++ rsB).
Proof.
  intros HA HNA HNB H1 H2. pose proof HA as [HB HM]. apply Forall_app in HB as [HB1 HB2].
  rewrite zlen_app in HM. pose proof (zlen_nonneg A). pose proof (zlen_nonneg B).
  apply dmap_read_iff_trace in H1 as (bl1 & HF1 & HD1).
  apply dmap_read_iff_trace in H2 as (bl2 & HF2 & HD2).
  apply dmap_read_iff_trace. exists (bl1 ++ bl2). split; [|now apply Forall2_app].
  apply fields_concat; auto.
  - apply (fields_sizes A); auto. unfold ssize_max; lia.
  - apply (fields_sizes B); auto. unfold ssize_max; lia.
Qed.

Lemma read_remainder A B rsA rs :
  is_bytearray (A ++ B) -> ~ negative_slist (A ++ B) -> B <> [] ->
  dmap_read A = Ok rsA -> dmap_read (A ++ B) = Ok rs ->
  exists rsB, dmap_read B = Ok rsB /\ rs = rsA ++ rsB.
Proof.
  intros HA HN HB0 H1 HR. pose proof HA as [HB HM].
  apply dmap_read_iff_trace in HR as (bl & HF & HD).
  assert (HS : nonneg_sizes bl) by (eapply fields_sizes; eauto).
  apply dmap_read_iff_trace in H1 as (bl1 & HF1 & HD1).
  destruct (fields_split _ _ _ _ HA HF HS HF1) as (bl2 & -> & W1 & W2).
  apply Forall2_dict in HD, HD1. subst rs rsA.
  exists (map record_of_fields bl2). split; [|now rewrite map_app].
  rewrite dmap_read_trace, (fields_complete B bl2); auto.
  - rewrite zlen_app in HM. pose proof (zlen_nonneg A). lia.
  - intros ->. inversion W2. congruence.
Qed.

(** Bytes that never contain the letter s hold no slist. *)
Lemma no_s_no_slist buf : ~ In 115 buf -> ~ negative_slist buf.
Proof.
  intros H (p & ty & dims & db & sb & (pre & post & -> & _) & _). apply H.
  apply in_or_app. right. apply in_or_app. left. cbn. auto.
Qed.

(** ** Reading again *)

Fixpoint iterate {A} (n : nat) (f : A -> A) (x : A) : A :=
  match n with O => x | S n' => iterate n' f (f x) end.

Lemma read_repeated buf rs n :
  is_bytearray buf -> dmap_read buf = Ok rs ->
  forall r, dmap_reader_init (fun _ => None) (FromStream buf) = Ok r ->
  fst (read_records (iterate n (fun x => snd (read_records x)) r)) = Ok rs.
Proof.
  intros [HB HM] H r Hr. unfold dmap_reader_init, reader_new in Hr.
  destruct (zlen buf =? 0) eqn:E; [discriminate|]. injection Hr as <-.
  rewrite dmap_read_trace in H. destruct (dmap_read_fields buf) as [bl|e] eqn:EF; [|discriminate].
  injection H as <-. pose proof (read_records_fresh _ _ EF HB) as HF.
  destruct n as [|n]; cbn [iterate]; [now rewrite HF|]. rewrite HF. cbn [snd].
  set (r := mk_reader buf (zlen buf) (map record_of_fields bl) (zlen bl)) in *.
  assert (HA : read_records r = (Ok (map record_of_fields bl), r)) by (now apply read_records_again).
  assert (HI : iterate n (fun x => snd (read_records x)) r = r).
  { clear - HA. induction n; cbn [iterate]; auto. rewrite HA. exact IHn. }
  now rewrite HI, HA.
Qed.
