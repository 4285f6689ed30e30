(** Facts about the dimension tables, found by computation for the twelve formats,
    and what they say about each varying field. *)
From Coq Require Import String ZArith List Bool Lia.
From Verif Require Import Base SDarnFormats BorealisTypes BorealisFormats BorealisChecks BorealisArrays
  BytesProofs DmapWriteProofs DmapWriteFacts DmapFileProofs SDarnChecks BorealisSpec BorealisCheckProofs
  BorealisCatalogue BorealisCatalogueProofs BorealisShapes BorealisNumpyProofs BorealisFillProofs.
Import ListNotations.
Open Scope list_scope.
Open Scope nat_scope.

Definition dim_eqb (a b : dim) : bool :=
  match a, b with
  | DSeq, DSeq | DBeam, DBeam | DBlank, DBlank | DArr, DArr | DRange, DRange | DLag, DLag
  | DSamp, DSamp | DPhase, DPhase => true
  | _, _ => false
  end.
Lemma dim_eqb_eq a b : dim_eqb a b = true <-> a = b.
Proof. destruct a, b; cbn; split; congruence. Qed.

(** The dimensions that are the same in all records. *)
Definition fixed_dim (d : dim) : bool := match d with DSeq | DBeam | DBlank => false | _ => true end.

Definition fixed_at (t : filetype) (i : nat) : option dim :=
  match nth_error (data_layout t) i with
  | Some d => if fixed_dim d then Some d else None
  | None => None
  end.

Definition tx_dim (g : generation) (t : filetype) (f : pystr) : option dim :=
  match g, t with
  | G7, (Bfiq | BRawacf) => if str_eqb f (str "tx_antenna_phases") then Some DPhase else None
  | _, _ => None
  end.

(** The dimension a function of the tables computes. *)
Definition adim_sym (g : generation) (t : filetype) (d : adim) : option dim :=
  match d with
  | AMaxSequences => Some DSeq
  | AMaxBeams => Some DBeam
  | AMaxLen f => if str_eqb f (str "blanked_samples") then Some DBlank else None
  | AMaxPpo => None
  | AFirstItem f i => if str_eqb f (dims_field g t) then fixed_at t i else None
  | AFirstShape f O => tx_dim g t f
  | AFirstShape _ _ => None
  end.
Definition sdim_sym (g : generation) (t : filetype) (d : sdim) : option dim :=
  match d with
  | SItem f => if str_eqb f (str "num_sequences") then Some DSeq
               else if str_eqb f (str "num_beams") then Some DBeam
               else if str_eqb f (str "num_blanked_samples") then Some DBlank else None
  | SShape f (S i) => if data_field t f then fixed_at t i
                      else match i with O => tx_dim g t f | _ => None end
  | _ => None
  end.

Fixpoint syms_are (l : list (option dim)) (m : list dim) : bool :=
  match l, m with
  | [], [] => true
  | Some d :: l', d' :: m' => dim_eqb d d' && syms_are l' m'
  | _, _ => false
  end.

Lemma syms_are_ok {A} (f : A -> option dim) l m : syms_are (map f l) m = true ->
  Forall2 (fun x d => f x = Some d) l m.
Proof.
  revert m. induction l as [|x l IH]; intros [|d m] H; cbn [map syms_are] in H; try discriminate; [constructor|..].
  - destruct (f x); discriminate.
  - destruct (f x) as [d'|] eqn:E; [|discriminate]. apply andb_true_iff in H as [H1 H2]. apply dim_eqb_eq in H1. subst.
    constructor; auto.
Qed.

(** ** The computed facts *)

Definition s_ppo_name : pystr := str "pulse_phase_offset".

Definition is_ok {A} (r : res A) : bool := match r with Ok _ => true | _ => false end.

(** One row of the dimension tables. *)
Definition row_facts (g : generation) (t : filetype) (p : pystr * list adim) : bool :=
  let F := format_class g t in
  let '(k, ads) := p in
  match dict_get (fm_single F) k with
  | Some ty => (match ads with [] => true | _ => false end) && is_ok (fill_cell ty) &&
               negb (btype_eqb ty BNpStr) && negb (flat g t k) && negb (str_eqb k s_ppo_name)
  | None =>
      match dict_get (fm_array F) k, dict_get (fm_dims_site F) k with
      | Some ty, Some sds =>
          is_ok (fill_cell ty) && negb (btype_eqb ty BStr) &&
          (if str_eqb k s_ppo_name
           then (match ads with [AMaxPpo] => true | _ => false end) &&
                (match sds with [SPpo] => true | _ => false end) && btype_eqb ty BF32
           else syms_are (map (adim_sym g t) ads) (layout t k) &&
                syms_are (map (sdim_sym g t) sds) (layout t k))
      | _, _ => false
      end
  end.

Definition many_in (g : generation) (t : filetype) (dims : dict (list adim)) (k : pystr) (ty : btype) : bool :=
  let F := format_class g t in
  str_mem k (map fst dims) &&
  (match dict_get (fm_single F) k with None => true | _ => false end) &&
  (match dict_get (fm_array F) k with Some ty' => btype_eqb ty ty' | _ => false end).

Definition data_names : list pystr := [str "data"; str "main_acfs"; str "intf_acfs"; str "xcfs"].

Definition site_gen_fact (g : generation) (t : filetype) (p : pystr * sgen) : bool :=
  match p with
  | (k, HNames ty l) => str_eqb k (names_field g t) && btype_eqb ty (names_type g t) &&
                        same_list str_eqb l (dim_names t) && Nat.eqb (length l) (length (dim_names t)) &&
                        forallb (fun q => str_eqb (fst q) (snd q)) (combine l (dim_names t))
  | (k, HDims l) => str_eqb k (dims_field g t) && syms_are (map (sdim_sym g t) l) (data_layout t)
  end.

Definition counts_from (F : format) (k f : pystr) : bool :=
  match dict_get (fm_array_gen F) k with Some (GCounts f') => str_eqb f f' | _ => false end.

(** The generators of the array structure. *)
Definition array_gen_fact (g : generation) (t : filetype) (p : pystr * agen) : bool :=
  match p with
  | (k, GCounts f) => (str_eqb k (str "num_beams") && str_eqb f (str "beam_nums")) ||
                      (str_eqb k (str "num_blanked_samples") && str_eqb f (str "blanked_samples") &&
                       negb (match g with G4 => true | _ => false end))
  | (k, GNames ty l) => str_eqb k (names_field g t)
  end.

Definition restruct_facts (g : generation) (t : filetype) : bool :=
  let F := format_class g t in
  fm_restructureable F &&
  match fm_dims_array F with
  | Raise _ => false
  | Ok dims =>
      nodupb (map fst dims) && nodupb (fm_shared F) && nodupb (map fst (fm_array_gen F)) &&
      nodupb (map fst (fm_site_gen F)) && nodupb (map fst (fm_single F)) && nodupb (map fst (fm_array F)) &&
      forallb (row_facts g t) dims &&
      forallb (fun k => negb (data_field t k) || many_in g t dims k BC64) data_names &&
      many_in g t dims (str "beam_nums") BU32 &&
      many_in g t dims (str "sqn_timestamps") BF64 &&
      (match g with G4 => true | _ => many_in g t dims (str "blanked_samples") BU32 end) &&
      (match tx_dim g t (str "tx_antenna_phases") with
       | None => true | Some _ => many_in g t dims (str "tx_antenna_phases") BC64 end) &&
      str_mem (str "num_sequences") (map fst dims) &&
      (match dict_get (fm_single F) (str "num_sequences") with Some BI64 => true | _ => false end) &&
      counts_from F (str "num_beams") (str "beam_nums") &&
      (match g with G4 => true | _ => counts_from F (str "num_blanked_samples") (str "blanked_samples") end) &&
      forallb (array_gen_fact g t) (fm_array_gen F) &&
      forallb (site_gen_fact g t) (fm_site_gen F) &&
      forallb (fun k => negb (str_mem k (map fst (fm_site_gen F)))) (map fst dims) &&
      forallb (fun k => negb (str_mem k (map fst (fm_array_gen F)))) (map fst dims) &&
      forallb (fun k => negb (str_mem k (map fst (fm_site_gen F)))) (fm_shared F) &&
      forallb (fun k => negb (str_mem k (map fst (fm_array_gen F)))) (fm_shared F) &&
      str_mem (names_field g t) (map fst (fm_site_gen F)) &&
      str_mem (dims_field g t) (map fst (fm_site_gen F)) &&
      negb (str_eqb (names_field g t) (dims_field g t)) &&
      negb (flat g t (names_field g t)) && negb (flat g t (dims_field g t)) &&
      forallb (fun k => negb (flat g t k)) (fm_shared F) &&
      match fm_flat F with
      | None => match g, t with G7, BRawacf => true | _, _ => false end
      | Some (df, fs) => (match g, t with G7, BRawacf => false | _, _ => true end) &&
                         str_eqb df (dims_field g t) && nodupb fs &&
                         same_list str_eqb fs (filter (data_field t) data_names)
      end
  end.

Lemma all_restruct g t : has_structures t -> restruct_facts g t = true.
Proof. intros H. destruct t; [| | |now destruct H]; destruct g; vm_compute; reflexivity. Qed.

(** The facts in usable form. *)
Record table_facts (g : generation) (t : filetype) (dims : dict (list adim)) : Prop := {
  tf_restr : fm_restructureable (format_class g t) = true;
  tf_dims : fm_dims_array (format_class g t) = Ok dims;
  tf_nd_dims : NoDup (map fst dims);
  tf_nd_shared : NoDup (fm_shared (format_class g t));
  tf_nd_agen : NoDup (map fst (fm_array_gen (format_class g t)));
  tf_nd_sgen : NoDup (map fst (fm_site_gen (format_class g t)));
  tf_nd_single : NoDup (map fst (fm_single (format_class g t)));
  tf_nd_array : NoDup (map fst (fm_array (format_class g t)));
  tf_rows : forall p, In p dims -> row_facts g t p = true;
  tf_data : forall k, data_field t k = true -> many_in g t dims k BC64 = true;
  tf_beam : many_in g t dims (str "beam_nums") BU32 = true;
  tf_time : many_in g t dims (str "sqn_timestamps") BF64 = true;
  tf_blank : g <> G4 -> many_in g t dims (str "blanked_samples") BU32 = true;
  tf_tx : forall d, tx_dim g t (str "tx_antenna_phases") = Some d ->
    many_in g t dims (str "tx_antenna_phases") BC64 = true;
  tf_seq : In (str "num_sequences") (map fst dims);
  tf_seq_type : dict_get (fm_single (format_class g t)) (str "num_sequences") = Some BI64;
  tf_nbeams : dict_get (fm_array_gen (format_class g t)) (str "num_beams") = Some (GCounts (str "beam_nums"));
  tf_nblank : g <> G4 -> dict_get (fm_array_gen (format_class g t)) (str "num_blanked_samples") =
    Some (GCounts (str "blanked_samples"));
  tf_agen : forall p, In p (fm_array_gen (format_class g t)) -> array_gen_fact g t p = true;
  tf_sgen : forall p, In p (fm_site_gen (format_class g t)) -> site_gen_fact g t p = true;
  tf_dims_sgen : forall k, In k (map fst dims) -> ~ In k (map fst (fm_site_gen (format_class g t)));
  tf_dims_agen : forall k, In k (map fst dims) -> ~ In k (map fst (fm_array_gen (format_class g t)));
  tf_shared_sgen : forall k, In k (fm_shared (format_class g t)) -> ~ In k (map fst (fm_site_gen (format_class g t)));
  tf_shared_agen : forall k, In k (fm_shared (format_class g t)) -> ~ In k (map fst (fm_array_gen (format_class g t)));
  tf_names : In (names_field g t) (map fst (fm_site_gen (format_class g t)));
  tf_dimsf : In (dims_field g t) (map fst (fm_site_gen (format_class g t)));
  tf_differ : names_field g t <> dims_field g t;
  tf_names_flat : flat g t (names_field g t) = false;
  tf_dims_flat : flat g t (dims_field g t) = false;
  tf_shared_flat : forall k, In k (fm_shared (format_class g t)) -> flat g t k = false;
  tf_flat : match fm_flat (format_class g t) with
            | None => forall k, flat g t k = false
            | Some (df, fs) => df = dims_field g t /\ NoDup fs /\ forall k, In k fs <-> flat g t k = true
            end
}.

Lemma data_field_names t k : data_field t k = true -> In k data_names.
Proof.
  unfold data_field, is_one_of, data_names. intros H.
  destruct t; cbn [existsb] in H; rewrite ?orb_true_iff in H; repeat destruct H as [H|H];
    try discriminate; apply str_eqb_eq in H; subst; cbn [In]; auto.
Qed.

Lemma forallb_not_mem l m : forallb (fun k => negb (str_mem k m)) l = true -> forall k, In k l -> ~ In k m.
Proof. intros H k Hk C. rewrite forallb_forall in H. apply H in Hk. apply str_mem_In in C. rewrite C in Hk. discriminate. Qed.

Lemma tables g t : has_structures t -> exists dims, table_facts g t dims.
Proof.
  intros HT. pose proof (all_restruct g t HT) as H. unfold restruct_facts in H.
  cbv zeta in H. set (F := format_class g t) in *.
  apply andb_true_iff in H as [H0 H].
  destruct (fm_dims_array F) as [dims|e] eqn:ED; [|discriminate]. exists dims.
  repeat match type of H with _ && _ = true => let H' := fresh "K" in apply andb_true_iff in H as [H H'] end.
  repeat match goal with K : nodupb _ = true |- _ => apply nodupb_ok in K end.
  repeat match goal with K : forallb (fun k => negb (str_mem k _)) _ = true |- _ => pose proof (forallb_not_mem _ _ K); clear K end.
  repeat match goal with K : str_mem _ _ = true |- _ => apply str_mem_In in K end.
  repeat match goal with K : negb _ = true |- _ => apply negb_true_iff in K end.
  constructor; fold F; try assumption.
  - now apply forallb_forall.
  - intros k Hk. match goal with K : forallb _ data_names = true |- _ => rewrite forallb_forall in K; specialize (K k (data_field_names _ _ Hk)) end.
    rewrite Hk in *. assumption.
  - intros Hg. destruct g; [now destruct Hg|assumption..].
  - intros d Hd. rewrite Hd in *. assumption.
  - destruct (dict_get (fm_single F) _) as [[]|]; congruence.
  - unfold counts_from in *. destruct (dict_get (fm_array_gen F) (str "num_beams")) as [[]|]; try discriminate.
    match goal with K : str_eqb (str "beam_nums") _ = true |- _ => apply str_eqb_eq in K; now subst end.
  - intros Hg. unfold counts_from in *. destruct (dict_get (fm_array_gen F) (str "num_blanked_samples")) as [[]|];
      destruct g; try discriminate; try (now destruct Hg);
    match goal with K : str_eqb (str "blanked_samples") _ = true |- _ => apply str_eqb_eq in K; now subst end.
  - now apply forallb_forall.
  - now apply forallb_forall.
  - intros E. match goal with K : str_eqb (names_field g t) _ = false |- _ => rewrite E, str_eqb_refl in K; discriminate end.
  - intros k Hk. match goal with K : forallb (fun k => negb (flat g t k)) _ = true |- _ => rewrite forallb_forall in K; apply K in Hk end.
    now apply negb_true_iff.
  - destruct (fm_flat F) as [[df fs]|].
    + repeat match goal with K : _ && _ = true |- _ => apply andb_true_iff in K as [? ?] end.
      match goal with K : str_eqb df _ = true |- _ => apply str_eqb_eq in K; subst df end.
      splits; auto; [now apply nodupb_ok|]. intros k.
      match goal with K : same_list _ _ _ = true |- _ => rewrite (same_list_In _ str_eqb_eq _ _ K) end.
      rewrite filter_In. unfold flat. rewrite andb_true_iff.
      split; [intros [_ A]; split; [exact A|]|intros [A _]; split; [exact (data_field_names _ _ A)|exact A]].
      clear - H5. destruct g, t; (reflexivity || discriminate).
    + intros k. unfold flat. apply andb_false_intro2.
      clear - K. destruct g, t; (reflexivity || discriminate).
Qed.
