(** Lemmas about the SuperDARN types, SDarnRead and SDarnWrite. *)
From Coq Require Import ZArith List Bool Lia Permutation.
From Verif Require Import Base Bytes BytesSpec BytesProofs DmapTypes DmapRead DmapWrite Conversions
  DmapSpec DmapReadProofs DmapFileProofs DmapStreamProofs DmapWriteSpec DmapObjectProofs
  SDarnFormats SDarn SDarnSpec SDarnChecks.
Import ListNotations.
Open Scope Z_scope.

(** ** The tables *)

Fixpoint nodupb (l : list pystr) : bool :=
  match l with [] => true | x :: l' => negb (str_mem x l') && nodupb l' end.
Lemma nodupb_NoDup l : nodupb l = true -> NoDup l.
Proof.
  induction l as [|x l IH]; cbn [nodupb]; intros H; constructor; apply andb_true_iff in H as [H1 H2]; auto.
  rewrite <- str_mem_In. now destruct (str_mem x l).
Qed.

Lemma read_nodup t : NoDup (map fst (concat (read_struct_list t))).
Proof. apply nodupb_NoDup. destruct t; vm_compute; reflexivity. Qed.
Lemma write_nodup t : NoDup (map fst (concat (write_struct_list t))).
Proof. apply nodupb_NoDup. destruct t; vm_compute; reflexivity. Qed.
Lemma read_nonempty t : read_struct_list t <> [].
Proof. destruct t; discriminate. Qed.
Lemma write_nonempty t : write_struct_list t <> [].
Proof. destruct t; discriminate. Qed.

(** The groups that count for missing fields are the groups of the
    specification. *)
Lemma read_groups t g :
  In g (read_struct_list t) /\ existsb (group_eqb g) (read_optional_list t) = false <-> In g (sd_groups t).
Proof.
  split.
  - intros [H1 H2]. destruct t; cbn [read_struct_list sd_groups In] in *;
      repeat (destruct H1 as [<-|H1]; [try (vm_compute in H2; discriminate H2); tauto|]); destruct H1.
  - intros H. destruct t; cbn [read_struct_list sd_groups In] in *;
      repeat (destruct H as [<-|H]; [split; [tauto|vm_compute; reflexivity]|]); destruct H.
Qed.
Lemma write_groups t g :
  In g (write_struct_list t) /\ existsb (group_eqb g) (write_optional_list t) = false <-> In g (sd_groups t).
Proof.
  split.
  - intros [H1 H2]. destruct t; cbn [write_struct_list sd_groups In] in *;
      repeat (destruct H1 as [<-|H1]; [try (vm_compute in H2; discriminate H2); tauto|]); destruct H1.
  - intros H. destruct t; cbn [write_struct_list sd_groups In] in *;
      repeat (destruct H as [<-|H]; [split; [tauto|vm_compute; reflexivity]|]); destruct H.
Qed.

Lemma read_declared t k f : In (k, f) (concat (read_struct_list t)) <-> declared t k f.
Proof.
  unfold declared. rewrite in_concat. split.
  - intros (g & Hg & Hk). destruct t; cbn [read_struct_list sd_groups sd_loose In] in *;
      repeat (destruct Hg as [<-|Hg]; [try (left; exact Hk); try (right; eexists; split; [|exact Hk]; tauto);
                                       try (destruct Hk; fail)|]); destruct Hg.
  - intros [H|(g & Hg & Hk)].
    + destruct t; cbn [sd_loose In] in H; try contradiction.
      exists fitacf_optional_fields. split; auto. cbn. tauto.
    + exists g. split; auto. apply read_groups in Hg. tauto.
Qed.
Lemma write_declared t k f : In (k, f) (concat (write_struct_list t)) <-> declared t k f.
Proof.
  unfold declared. rewrite in_concat. split.
  - intros (g & Hg & Hk). destruct t; cbn [write_struct_list sd_groups sd_loose In] in *;
      repeat (destruct Hg as [<-|Hg]; [try (left; exact Hk); try (right; eexists; split; [|exact Hk]; tauto);
                                       try (destruct Hk; fail)|]); destruct Hg.
  - intros [H|(g & Hg & Hk)].
    + destruct t; cbn [sd_loose In] in H; try contradiction.
      exists fitacf_optional_fields. split; auto. cbn. tauto.
    + exists g. split; auto. apply write_groups in Hg. tauto.
Qed.

Lemma names_pair {A} k (l : list (pystr * A)) : In k (names l) <-> exists f, In (k, f) l.
Proof.
  unfold names. rewrite in_map_iff. split.
  - intros ([k' f] & <- & H). exists f. exact H.
  - intros (f & H). exists (k, f). auto.
Qed.

Section OneType.
Variable t : sd_type.
Variables gs opts : list group.
Hypothesis Hg : forall g, In g gs /\ existsb (group_eqb g) opts = false <-> In g (sd_groups t).
Hypothesis Hd : forall k f, In (k, f) (concat gs) <-> declared t k f.

Lemma missing_iff r k : g_missing gs opts r k <-> missing t r k.
Proof.
  unfold g_missing, missing. split.
  - intros (g & k' & H1 & H2 & H3). exists g, k'. rewrite <- Hg. tauto.
  - intros (g & k' & H1 & H3). exists g, k'. rewrite <- Hg in H1. tauto.
Qed.
Lemma unknown_iff r k : g_unknown gs r k <-> unknown t r k.
Proof.
  unfold g_unknown, unknown. split; intros [H1 H2]; split; auto.
  - intros f Hf. apply H2. apply names_pair. exists f. now apply Hd.
  - intros H. apply names_pair in H as (f & Hf). apply (H2 f). now apply Hd.
Qed.
Lemma mistyped_iff r k : g_mistyped gs r k <-> mistyped t r k.
Proof.
  unfold g_mistyped, mistyped.
  split; intros (it & f & H1 & H2 & H3); exists it, f; (split; [auto|split; [now apply Hd|auto]]).
Qed.

Lemma acceptable_iff (Hnd : NoDup (map fst (concat gs))) r :
  g_acceptable gs opts r <-> acceptable t r.
Proof.
  unfold g_acceptable, acceptable. split.
  - intros (HD & HM & HU & HT). split.
    + intros g H. destruct (existsb (fun k => str_mem k (names r)) (names g)) eqn:E.
      * left. intros k Hk. apply existsb_exists in E as (k' & H1 & H2). apply str_mem_In in H2.
        destruct (in_dec (list_eq_dec Z.eq_dec) k (names r)) as [HI|HI]; auto. exfalso.
        apply (HM k). apply missing_iff. exists g, k'. auto.
      * right. intros k Hk HI.
        assert (existsb (fun k => str_mem k (names r)) (names g) = true); [|congruence].
        apply existsb_exists. exists k. rewrite str_mem_In. auto.
    + intros k it HI. assert (HK : In k (names (concat gs))).
      { destruct (in_dec (list_eq_dec Z.eq_dec) k (names (concat gs))) as [H|H]; auto. exfalso.
        apply (HU k). split; auto. apply names_pair. eauto. }
      apply names_pair in HK as (f & Hf). exists f. split; [now apply Hd|].
      rewrite Forall_forall in HD. destruct (HD _ HI) as [f' Hf']. cbn [snd] in Hf'.
      destruct (fmt_eqb f' f) eqn:EF; [apply fmt_eqb_eq in EF; congruence|]. exfalso.
      apply (HT k). exists it, f. split; [auto|]. split; [auto|]. intros Hf2.
      assert (HE : f' = f). { destruct Hf'; inversion Hf2; subst; auto. }
      apply fmt_eqb_eq in HE. congruence.
  - intros [HA HB]. assert (HD : Forall (fun p => dmap_item (snd p)) r).
    { rewrite Forall_forall. intros [k it] HI. destruct (HB k it HI) as (f & _ & Hf). exists f. exact Hf. }
    split; [auto|]. split; [|split].
    + intros k Hk. apply missing_iff in Hk as (g & k' & H1 & H2 & H3 & H4 & H5).
      destruct (HA g H1) as [H|H]; [now apply H3, H|]. exact (H k' H4 H5).
    + intros k [H1 H2]. apply names_pair in H1 as (it & HI). destruct (HB _ _ HI) as (f & Hf & _).
      apply H2. apply names_pair. exists f. now apply Hd.
    + intros k (it & f & HI & H2 & H3). destruct (HB _ _ HI) as (f' & Hf & Hf').
      apply Hd in Hf. apply (dict_get_nodup _ _ _ Hnd) in Hf, H2. congruence.
Qed.
End OneType.

Lemma read_accepts t r n :
  read_checks (read_struct_list t) (read_optional_list t) r n = Ok tt <-> acceptable t r.
Proof.
  rewrite read_checks_ok by (apply read_nonempty || apply read_nodup).
  apply acceptable_iff; [apply read_groups|apply read_declared|apply read_nodup].
Qed.
Lemma write_accepts t r n :
  write_checks (write_struct_list t) (write_optional_list t) r n = Ok tt <-> acceptable t r.
Proof.
  rewrite write_checks_ok by (apply write_nonempty || apply write_nodup).
  apply acceptable_iff; [apply write_groups|apply write_declared|apply write_nodup].
Qed.

Lemma acceptable_dec t r : acceptable t r \/ ~ acceptable t r.
Proof.
  destruct (read_checks (read_struct_list t) (read_optional_list t) r 0) as [[]|e] eqn:E.
  - left. now apply (read_accepts t r 0).
  - right. intros H. apply (read_accepts t r 0) in H. congruence.
Qed.

(** The errors in terms of the specification. *)
Lemma read_error t r n :
  Forall (fun p => dmap_item (snd p)) r ->
  ((exists k, missing t r k) ->
     exists l, read_checks (read_struct_list t) (read_optional_list t) r n =
                 Raise (SuperDARNFieldMissingError n l) /\ forall k, In k l <-> missing t r k) /\
  ((forall k, ~ missing t r k) -> (exists k, unknown t r k) ->
     exists l, read_checks (read_struct_list t) (read_optional_list t) r n =
                 Raise (SuperDARNExtraFieldError n l) /\ forall k, In k l <-> unknown t r k) /\
  ((forall k, ~ missing t r k) -> (forall k, ~ unknown t r k) -> (exists k, mistyped t r k) ->
     exists l, read_checks (read_struct_list t) (read_optional_list t) r n =
                 Raise (SuperDARNDataFormatTypeError l n) /\ forall k, In k l <-> mistyped t r k).
Proof.
  intros HD. set (gs := read_struct_list t) in *. set (os := read_optional_list t) in *.
  pose proof (missing_iff t gs os (read_groups t) r) as EM.
  pose proof (unknown_iff t gs (read_declared t) r) as EU.
  pose proof (mistyped_iff t gs (read_declared t) r) as ET.
  destruct (read_checks_error gs os (read_nonempty t) (read_nodup t) r n HD) as (H1 & H2 & H3).
  split; [|split].
  - intros (k & Hk). destruct H1 as (l & HE & HL); [exists k; now apply EM|].
    exists l. split; auto. intros k0. now rewrite HL, EM.
  - intros HM (k & Hk). destruct H2 as (l & HE & HL).
    + intros k0 H0. apply EM in H0. now apply (HM k0).
    + exists k; now apply EU.
    + exists l. split; auto. intros k0. now rewrite HL, EU.
  - intros HM HU (k & Hk). destruct H3 as (l & HE & HL).
    + intros k0 H0. apply EM in H0. now apply (HM k0).
    + intros k0 H0. apply EU in H0. now apply (HU k0).
    + exists k; now apply ET.
    + exists l. split; auto. intros k0. now rewrite HL, ET.
Qed.

Lemma write_error t r n :
  Forall (fun p => dmap_item (snd p)) r ->
  ((exists k, unknown t r k) ->
     exists l, write_checks (write_struct_list t) (write_optional_list t) r n =
                 Raise (SuperDARNExtraFieldError n l) /\ forall k, In k l <-> unknown t r k) /\
  ((forall k, ~ unknown t r k) -> (exists k, missing t r k) ->
     exists l, write_checks (write_struct_list t) (write_optional_list t) r n =
                 Raise (SuperDARNFieldMissingError n l) /\ forall k, In k l <-> missing t r k) /\
  ((forall k, ~ unknown t r k) -> (forall k, ~ missing t r k) -> (exists k, mistyped t r k) ->
     exists l, write_checks (write_struct_list t) (write_optional_list t) r n =
                 Raise (SuperDARNDataFormatTypeError l n) /\ forall k, In k l <-> mistyped t r k).
Proof.
  intros HD. set (gs := write_struct_list t) in *. set (os := write_optional_list t) in *.
  pose proof (missing_iff t gs os (write_groups t) r) as EM.
  pose proof (unknown_iff t gs (write_declared t) r) as EU.
  pose proof (mistyped_iff t gs (write_declared t) r) as ET.
  destruct (write_checks_error gs os (write_nonempty t) (write_nodup t) r n HD) as (H1 & H2 & H3).
  split; [|split].
  - intros (k & Hk). destruct H1 as (l & HE & HL); [exists k; now apply EU|].
    exists l. split; auto. intros k0. now rewrite HL, EU.
  - intros HU (k & Hk). destruct H2 as (l & HE & HL).
    + intros k0 H0. apply EU in H0. now apply (HU k0).
    + exists k; now apply EM.
    + exists l. split; auto. intros k0. now rewrite HL, EM.
  - intros HU HM (k & Hk). destruct H3 as (l & HE & HL).
    + intros k0 H0. apply EU in H0. now apply (HU k0).
    + intros k0 H0. apply EM in H0. now apply (HM k0).
    + exists k; now apply ET.
    + exists l. split; auto. intros k0. now rewrite HL, ET.
Qed.

(** An unacceptable record of DMAP items gives a field error. *)
Lemma not_acceptable_cases t r : Forall (fun p => dmap_item (snd p)) r -> ~ acceptable t r ->
  (exists k, missing t r k) \/ (exists k, unknown t r k) \/
  ((forall k, ~ missing t r k) /\ (forall k, ~ unknown t r k) /\ exists k, mistyped t r k).
Proof.
  intros HD HN. set (gs := read_struct_list t). set (os := read_optional_list t).
  pose proof (missing_iff t gs os (read_groups t) r) as EM.
  pose proof (unknown_iff t gs (read_declared t) r) as EU.
  pose proof (mistyped_iff t gs (read_declared t) r) as ET.
  destruct (g_missing_dec gs os r) as [(k & Hk)|HM]; [left; exists k; now apply EM|].
  destruct (g_unknown_dec gs r) as [(k & Hk)|HU]; [right; left; exists k; now apply EU|].
  destruct (g_mistyped_dec gs (read_nodup t) r HU HD) as [(k & Hk)|HT].
  - right. right. split; [|split; [|exists k; now apply ET]].
    + intros k0 H0. apply EM in H0. now apply (HM k0).
    + intros k0 H0. apply EU in H0. now apply (HU k0).
  - exfalso. apply HN. apply (acceptable_iff t gs os (read_groups t) (read_declared t) (read_nodup t)).
    split; auto.
Qed.

Lemma read_not_acceptable t r n : Forall (fun p => dmap_item (snd p)) r -> ~ acceptable t r ->
  exists e, read_checks (read_struct_list t) (read_optional_list t) r n = Raise e /\ field_error e n.
Proof.
  intros HD HN. destruct (read_error t r n HD) as (H1 & H2 & H3).
  set (gs := read_struct_list t) in *. set (os := read_optional_list t) in *.
  pose proof (missing_iff t gs os (read_groups t) r) as EM.
  destruct (g_missing_dec gs os r) as [(k & Hk)|HM].
  - destruct H1 as (l & HE & _); [exists k; now apply EM|].
    eexists. split; [exact HE|]. left. eauto.
  - assert (HM' : forall k, ~ missing t r k) by (intros k0 H0; apply EM in H0; now apply (HM k0)).
    destruct (not_acceptable_cases t r HD HN) as [(k & Hk)|[HU|(_ & HU & HT)]].
    + exfalso. now apply (HM' k).
    + destruct H2 as (l & HE & _); auto. eexists. split; [exact HE|]. right. left. eauto.
    + destruct H3 as (l & HE & _); auto. eexists. split; [exact HE|]. right. right. eauto.
Qed.
Lemma write_not_acceptable t r n : Forall (fun p => dmap_item (snd p)) r -> ~ acceptable t r ->
  exists e, write_checks (write_struct_list t) (write_optional_list t) r n = Raise e /\ field_error e n.
Proof.
  intros HD HN. destruct (write_error t r n HD) as (H1 & H2 & H3).
  set (gs := write_struct_list t) in *. set (os := write_optional_list t) in *.
  pose proof (unknown_iff t gs (write_declared t) r) as EU.
  pose proof (missing_iff t gs os (write_groups t) r) as EM.
  destruct (g_unknown_dec gs r) as [(k & Hk)|HU].
  - destruct H1 as (l & HE & _); [exists k; now apply EU|].
    eexists. split; [exact HE|]. right. left. eauto.
  - assert (HU' : forall k, ~ unknown t r k) by (intros k0 H0; apply EU in H0; now apply (HU k0)).
    destruct (not_acceptable_cases t r HD HN) as [HM|[(k & Hk)|(HM & _ & HT)]].
    + destruct H2 as (l & HE & _); auto. eexists. split; [exact HE|]. left. eauto.
    + exfalso. now apply (HU' k).
    + destruct H3 as (l & HE & _); auto. eexists. split; [exact HE|]. right. right. eauto.
Qed.
