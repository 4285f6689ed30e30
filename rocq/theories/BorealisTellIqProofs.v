(** Proofs for C109: restructuring as the wrong one of antennas_iq and bfiq. *)
From Coq Require Import String ZArith List Bool Lia.
From Verif Require Import Base BytesProofs SDarnFormats SDarnChecks BorealisTypes BorealisFormats BorealisChecks BorealisArrays BorealisSpec
  BorealisTime BorealisFile BorealisFileProofs BorealisFillProofs DmapFileProofs.
Import ListNotations.
Open Scope list_scope.

Lemma reshaped_first F n r rs rs' : fm_flat F = flat_data -> reshape_site_arrays F ((n, r) :: rs) = Ok rs' ->
  exists d v v' rest, dict_get r (str "data_dimensions") = Some d /\ dict_get r (str "data") = Some v /\ reshape_field d v = Ok v' /\
    rs' = (n, dict_set r (str "data") v') :: rest.
Proof.
  intros HF. unfold reshape_site_arrays. rewrite HF. unfold flat_data. cbn [mapM snd fst].
  unfold dict_item at 1. destruct (dict_get r (str "data_dimensions")) as [d|]; cbn [rbind]; [|discriminate]. cbn [reshape_record].
  unfold dict_item at 1. destruct (dict_get r (str "data")) as [v|]; cbn [rbind]; [|discriminate].
  destruct (reshape_field d v) as [v'|] eqn:E; cbn [rbind]; [|discriminate].
  match goal with |- context [mapM ?f rs] => destruct (mapM f rs) as [rest|] end; cbn [rbind]; [|discriminate]. intros H. injection H as <-. exists d, v, v', rest. auto.
Qed.

Lemma bfiq_facts g : let F := format_class g Bfiq in fm_flat F = flat_data /\ fm_restructureable F = true /\
  (exists ds, fm_dims_array F = Ok ds /\ In (str "data", [AFirstItem (str "data_dimensions") 0; AMaxSequences; AMaxBeams; AFirstItem (str "data_dimensions") 3]) ds) /\
  In (str "data_dimensions", HDims [SShape (str "data") 1; SItem (str "num_sequences"); SItem (str "num_beams"); SShape (str "data") 4]) (fm_site_gen F).
Proof.
  destruct g; (split; [reflexivity|split; [reflexivity|split; [eexists; split; [reflexivity|]|]]]); vm_compute; tauto.
Qed.
Lemma antennas_facts g : let F := format_class g AntennasIq in fm_flat F = flat_data /\ fm_restructureable F = true /\
  (exists ds, fm_dims_array F = Ok ds /\ In (str "data", [AFirstItem (str "data_dimensions") 0; AMaxSequences; AFirstItem (str "data_dimensions") 2]) ds).
Proof.
  destruct g; (split; [reflexivity|split; [reflexivity|eexists; split; [reflexivity|]]]); vm_compute; tauto.
Qed.

(** Records with three sizes of data, as bfiq. *)
Lemma bfiq_site g n r rs ty l a : dict_get r (str "data_dimensions") = Some (BArr ty [3%nat] l) ->
  site_to_array (format_class g Bfiq) ((n, r) :: rs) <> Ok a.
Proof.
  intros HD. destruct (bfiq_facts g) as (F1 & F2 & (ds & F3 & F4) & _). cbv zeta in *. set (F := format_class g Bfiq) in *. clearbody F.
  unfold site_to_array. rewrite F2. cbn [negb].
  destruct (reshape_site_arrays F ((n, r) :: rs)) as [rs'|] eqn:ER; cbn [rbind]; [|discriminate].
  destruct (reshaped_first F n r rs rs' F1 ER) as (d & v & v' & rest & _ & _ & _ & ->).
  destruct (mapM _ (fm_shared F)) as [sh|]; cbn [rbind]; [|discriminate]. destruct (mapM _ (fm_array_gen F)) as [sp|]; cbn [rbind]; [|discriminate].
  rewrite F3. cbn [rbind]. destruct (mapM (temp_init F _) ds) as [te|] eqn:EM; cbn [rbind]; [exfalso|discriminate].
  destruct (mapM_in _ _ _ _ EM F4) as (y & EY). unfold temp_init in EY. cbn [snd] in EY.
  destruct (mapM _ _) as [dims|] eqn:ED in EY; cbn [rbind] in EY; [clear EY|discriminate EY].
  destruct (mapM_in _ _ _ (AFirstItem (str "data_dimensions") 3) ED) as (z & EZ); [cbn; tauto|].
  cbn [adim_eval] in EZ. unfold dict_item in EZ. rewrite dict_get_set in EZ.
  change (str_eqb (str "data") (str "data_dimensions")) with false in EZ. cbn [rbind] in EZ. rewrite HD in EZ. cbn [rbind array_int] in EZ.
  destruct (negb (is_int_type ty)); cbn in EZ; discriminate EZ.
Qed.

(** Arrays whose data have four dimensions, as bfiq. *)
Lemma bfiq_array g a rs t n w tl ty s1 s2 s3 s4 l : dict_get a (str "sqn_timestamps") = Some (BArr t [S n; w] tl) ->
  dict_get a (str "data") = Some (BArr ty [s1; s2; s3; s4] l) -> array_to_site record_name (format_class g Bfiq) a <> Ok rs.
Proof.
  intros HS HD. destruct (bfiq_facts g) as (F1 & F2 & _ & F4). cbv zeta in *. set (F := format_class g Bfiq) in *. clearbody F.
  unfold array_to_site. rewrite F2. cbn [negb]. unfold dict_item at 1. rewrite HS. cbn [rbind]. destruct (negb (time_type t)); [discriminate|].
  cbn [rows]. destruct (site_loop _ F a _ 0 []) as [out|] eqn:EL; cbn [rbind]; [exfalso|discriminate]. cbn [site_loop] in EL.
  destruct (firstn w tl) as [|[b| |] row]; try discriminate EL. destruct (record_name b) as [key|]; cbn [rbind] in EL; [|discriminate EL].
  destruct (site_record F a 0) as [r|] eqn:ER; cbn [rbind] in EL; [clear EL|discriminate EL]. unfold site_record in ER.
  destruct (mapM _ (fm_shared F)) as [sh|]; cbn [rbind] in ER; [|discriminate ER].
  destruct (mapM _ (fm_site_gen F)) as [sp|] eqn:EM; cbn [rbind] in ER; [clear ER|discriminate ER].
  destruct (mapM_in _ _ _ _ EM F4) as (y & EY). cbn [snd sgen_eval] in EY.
  destruct (mapM _ _) as [zs|] eqn:EZ in EY; cbn [rbind] in EY; [clear EY|discriminate EY].
  destruct (mapM_in _ _ _ (SShape (str "data") 4) EZ) as (z & EQ); [cbn; tauto|].
  cbn [sdim_eval] in EQ. unfold dict_item in EQ. rewrite HD in EQ. cbn in EQ. discriminate EQ.
Qed.

(** Records with four sizes of data, none of them 0, as antennas_iq. *)
Lemma antennas_site g n r rs ty z1 z2 z3 z4 a : dict_get r (str "data_dimensions") = Some (BArr ty [4%nat] [CZ z1; CZ z2; CZ z3; CZ z4]) ->
  (0 < z1)%Z -> (0 < z2)%Z -> (0 < z3)%Z -> (0 < z4)%Z -> site_to_array (format_class g AntennasIq) ((n, r) :: rs) <> Ok a.
Proof.
  intros HD P1 P2 P3 P4. destruct (antennas_facts g) as (F1 & F2 & (ds & F3 & F4)). cbv zeta in *. set (F := format_class g AntennasIq) in *. clearbody F.
  unfold site_to_array. rewrite F2. cbn [negb].
  destruct (reshape_site_arrays F ((n, r) :: rs)) as [rs'|] eqn:ER; cbn [rbind]; [|discriminate].
  destruct (reshaped_first F n r rs rs' F1 ER) as (d & v & v' & rest & E1 & E2 & E3 & ->). rewrite HD in E1. injection E1 as <-.
  destruct (mapM _ (fm_shared F)) as [sh|]; cbn [rbind]; [|discriminate]. destruct (mapM _ (fm_array_gen F)) as [sp|]; cbn [rbind]; [|discriminate].
  rewrite F3. cbn [rbind]. destruct (mapM (temp_init F _) ds) as [te|] eqn:EM; cbn [rbind]; [|discriminate].
  destruct (fill_loop _ _ 0 te) as [out|] eqn:EL; cbn [rbind]; [exfalso|discriminate]. cbn [fill_loop] in EL.
  destruct (mapM _ te) as [te'|] eqn:ET in EL; cbn [rbind] in EL; [clear EL|discriminate EL].
  destruct (mapM_in _ _ _ _ EM F4) as (y & EY).
  assert (IY : In y te). { apply mapM_inv in EM. clear -EM F4 EY. induction EM as [|p q l m H _ IH]; [destruct F4|]. destruct F4 as [->|F4]; [left; congruence|right; auto]. }
  unfold temp_init in EY. cbn [snd fst] in EY. destruct (mapM _ _) as [dims|] eqn:ED in EY; cbn [rbind] in EY; [|discriminate EY].
  destruct (field_type F (str "data")) as [dt|]; cbn [rbind] in EY; [|discriminate EY]. destruct (fill_cell dt) as [c|]; cbn [rbind] in EY; [|discriminate EY].
  injection EY as <-.
  assert (L : length (concat dims) = 3%nat).
  { cbn [mapM] in ED.
    assert (ONE : forall f i x, adim_eval ((n, dict_set r (str "data") v') :: rest) (AFirstItem f i) = Ok x -> length x = 1%nat).
    { intros f i x. cbn [adim_eval]. destruct (dict_item _ f) as [w|]; cbn [rbind]; [|discriminate]. destruct (array_int w i) as [z|]; cbn [rbind]; [|discriminate].
      destruct (to_dim z) as [k|]; cbn [rbind]; [|discriminate]. intros X. injection X as <-. reflexivity. }
    assert (TWO : forall x, adim_eval ((n, dict_set r (str "data") v') :: rest) AMaxSequences = Ok x -> length x = 1%nat).
    { intros x. cbn [adim_eval]. destruct (find_max_sequences _ 0) as [z|]; cbn [rbind]; [|discriminate].
      destruct (to_dim z) as [k|]; cbn [rbind]; [|discriminate]. intros X. injection X as <-. reflexivity. }
    destruct (adim_eval _ (AFirstItem _ 0)) as [x1|] eqn:X1 in ED; cbn [rbind] in ED; [|discriminate ED].
    destruct (adim_eval _ AMaxSequences) as [x2|] eqn:X2 in ED; cbn [rbind] in ED; [|discriminate ED].
    destruct (adim_eval _ (AFirstItem _ 2)) as [x3|] eqn:X3 in ED; cbn [rbind] in ED; [|discriminate ED]. injection ED as <-.
    cbn [concat]. rewrite !app_length. cbn [length]. rewrite (ONE _ _ _ X1), (TWO _ X2), (ONE _ _ _ X3). reflexivity. }
  destruct (mapM_in _ _ _ _ ET IY) as (q & EQ). unfold temp_fill in EQ. unfold dict_item in EQ. rewrite !dict_get_set in EQ.
  replace (str_eqb (str "data") [100; 97; 116; 97]%Z) with true in EQ by reflexivity. cbn [rbind ta_type ta_dims ta_data] in EQ.
  destruct v as [|?| t' sv data| |]; cbn [reshape_field] in E3;
    try (destruct (mapM _ _) in E3; discriminate E3).
  cbn [mapM] in E3. destruct (is_int_type ty); [|discriminate E3]. unfold reshape_dim in E3.
  replace (z1 <? 0)%Z with false in E3 by lia. replace (z2 <? 0)%Z with false in E3 by lia.
  replace (z3 <? 0)%Z with false in E3 by lia. replace (z4 <? 0)%Z with false in E3 by lia. cbn [rbind] in E3.
  destruct (Nat.eqb _ _) in E3; [|discriminate E3]. injection E3 as <-. cbn [is_ndarray needs_shape bshape rbind] in EQ.
  assert (EA : forall x, assigned dt (BArr t' [Z.to_nat z1; Z.to_nat z2; Z.to_nat z3; Z.to_nat z4] data) = Ok x -> fst x = [Z.to_nat z1; Z.to_nat z2; Z.to_nat z3; Z.to_nat z4]).
  { intros x. unfold assigned. destruct dt; (destruct (btype_eqb _ t'); [intros X; injection X as <-; reflexivity|discriminate]). }
  destruct (assigned dt _) as [sb|] eqn:ES in EQ; cbn [rbind] in EQ; [|discriminate EQ]. rewrite (EA sb ES) in EQ.
  cbn [filter] in EQ. rewrite !(proj2 (Nat.eqb_neq _ 0)) in EQ by lia. cbn [negb] in EQ.
  unfold assign in EQ. destruct (concat dims) as [|d1 [|d2 [|d3 [|d4 dd]]]]; try discriminate L. cbn [region rbind] in EQ. discriminate EQ.
Qed.
