(** C104: what read_string_array would give. *)
From Coq Require Import ZArith List Bool Lia.
From Verif Require Import Base Bytes BytesSpec BytesProofs DmapTypes DmapRead DmapSpec DmapReadProofs DmapReadProps DmapFaultProofs DmapAnySpec DmapAnyProofs
  DmapAnyFaultSpec DmapAnyFaultProofs StringArray.
Import ListNotations.
Open Scope Z_scope.

(** Texts one after the other from [p] to [q]. *)
Inductive texts_at (buf : bytes) : Z -> list pystr -> Z -> Prop :=
| tx_nil p : texts_at buf p [] p
| tx_cons p s q ss r : text_at buf p s q -> texts_at buf q ss r -> texts_at buf p (s :: ss) r.

Lemma times_texts buf (HB : Forall is_byte buf) (HM : zlen buf <= ssize_max) n : forall p vs q,
  read_times buf Fs n p = (Ok vs, q) <-> exists ss, vs = map VStr ss /\ length ss = n /\ texts_at buf p ss q.
Proof.
  induction n as [|n IH]; intros p vs q; cbn [read_times].
  - split.
    + intros H. injection H as <- <-. exists []. repeat split. constructor.
    + intros (ss & -> & L & T). destruct ss; [|discriminate L]. inversion T. reflexivity.
  - split.
    + intros H. inv_bind H. cbn [read_data] in H0. inv_bind H0. injection H0 as <- <-. inv_bind H. injection H as <- <-.
      apply text_iff in H1; auto. apply IH in H0 as (ss & -> & L & T).
      eexists (_ :: ss). split; [reflexivity|]. split; [cbn; now rewrite L|]. econstructor; eauto.
    + intros (ss & -> & L & T). destruct T as [p|p s q ss r T1 T]; [discriminate L|].
      cbn [read_data]. apply text_iff in T1; auto. erewrite bind_eq by (erewrite bind_eq by exact T1; reflexivity).
      injection L as L. erewrite bind_eq by (apply IH; eauto). reflexivity.
Qed.

Lemma times_bad buf (HB : Forall is_byte buf) (HM : zlen buf <= ssize_max) n : forall p e,
  raising (read_times buf Fs n) p e <-> exists ss q, (length ss < n)%nat /\ texts_at buf p ss q /\ text_bad buf q e.
Proof.
  induction n as [|n IH]; intros p e; cbn [read_times].
  - split; [intros [c H]; discriminate H|intros (ss & q & L & _); lia].
  - rewrite raising_bind_iff. cbn [read_data]. rewrite raising_bind_iff, s_iff by auto. split.
    + intros [[H|(s & q & H1 & [c H])]|(v & q & H1 & H)].
      * exists [], p. split; [cbn; lia|]. split; [constructor|exact H].
      * discriminate H.
      * inv_bind H1. injection H1 as <- <-. apply text_iff in H0; auto.
        apply raising_bind_iff in H as [H|(vs & q' & H2 & [c0 H])]; [|discriminate H].
        apply IH in H as (ss & q' & L & T & B). eexists (_ :: ss), q'. split; [cbn; lia|]. split; [econstructor; eauto|exact B].
    + intros (ss & q & L & T & B). destruct T as [p|p s q ss r T1 T]; [left; left; exact B|].
      right. apply text_iff in T1; auto. exists (VStr s), q. split; [erewrite bind_eq by exact T1; reflexivity|].
      apply raising_bind, IH. exists ss, r. cbn in L. split; [lia|]. auto.
Qed.

(** One size [n]: exactly n texts one after the other are read, none if n is not positive. *)
Theorem C104_texts : forall buf n p vs q, is_bytearray buf ->
  fst (read_string_array buf [n] Fs p) = (Ok vs, q) <->
  exists ss, vs = map VStr ss /\ zlen ss = Z.max 0 n /\ texts_at buf p ss q.
Proof.
  intros buf n p vs q [HB HM]. unfold read_string_array. cbn [rev app fst]. rewrite (times_texts buf HB HM).
  split; intros (ss & E & L & T); exists ss; split; auto; split; auto; unfold zlen in *; lia.
Qed.
Print Assumptions C104_texts.

(** A text with a fault gives its exception. *)
Theorem C104_errors : forall buf n p e, is_bytearray buf ->
  (exists q, fst (read_string_array buf [n] Fs p) = (Raise e, q)) <->
  exists ss q, zlen ss < n /\ texts_at buf p ss q /\ text_bad buf q e.
Proof.
  intros buf n p e [HB HM]. unfold read_string_array. cbn [rev app fst].
  change (exists q, read_times buf Fs (Z.to_nat n) p = (Raise e, q)) with (raising (read_times buf Fs (Z.to_nat n)) p e).
  rewrite (times_bad buf HB HM).
  split; intros (ss & q & L & T); exists ss, q; split; auto; unfold zlen in *; lia.
Qed.
Print Assumptions C104_errors.

(** Values of another type. *)
Theorem C104_values : forall buf f p vs bs, zlen buf <= ssize_max -> occurs buf p bs -> wire_list (wire_value f) vs bs ->
  fst (read_string_array buf [zlen vs] f p) = (Ok vs, p + zlen bs).
Proof.
  intros buf f p vs bs HM HO HW. unfold read_string_array. cbn [rev app fst].
  replace (Z.to_nat (zlen vs)) with (length vs) by (unfold zlen; lia). revert p HO.
  induction HW as [|v vs x xs H1 HW IH]; intros p HO; cbn [length read_times].
  - unfold zlen; cbn. unfold ret. f_equal. lia.
  - apply occurs_app in HO as [HO1 HO2]. erewrite bind_eq by (apply read_data_occ; eauto).
    erewrite bind_eq by (apply IH; exact HO2). rewrite zlen_app. unfold ret. f_equal. lia.
Qed.
Print Assumptions C104_values.

(** Two sizes or more: no array is ever read, at most an empty one is returned. *)
Theorem C104_dimensions : forall buf f m ms n p,
  fst (read_string_array buf ((m :: ms) ++ [n]) f p) = (if 0 <? n then Raise AttributeError else Ok [], p).
Proof.
  intros. unfold read_string_array. rewrite rev_app_distr. cbn [rev app]. rewrite rev_app_distr, rev_involutive. reflexivity.
Qed.
Print Assumptions C104_dimensions.

(** The list of sizes of the caller loses its last size, whatever happens; without sizes it
    is an IndexError. *)
Theorem C104_shape : forall buf f ms n p,
  snd (read_string_array buf (ms ++ [n]) f p) = ms /\ read_string_array buf [] f p = (Raise IndexError, p, []).
Proof.
  intros. split; [|reflexivity]. unfold read_string_array. rewrite rev_app_distr. cbn [rev app]. rewrite rev_involutive.
  destruct ms; reflexivity.
Qed.
Print Assumptions C104_shape.

(** ** Cases *)
Definition ex_texts : bytes := [7; 104; 105; 0; 0; 195; 169; 0; 9].
Example C104_case : is_bytearray ex_texts /\ texts_at ex_texts 1 [[104; 105]; []; [233]] 8 /\
  read_string_array ex_texts [3] Fs 1 = (Ok [VStr [104; 105]; VStr []; VStr [233]], 8, []) /\
  (exists q, fst (read_string_array ex_texts [4] Fs 1) = (Raise IndexError, q)) /\
  read_string_array ex_texts [2; 3] Fs 1 = (Raise AttributeError, 1, [2]) /\
  read_string_array ex_texts [2] Fh 1 = (Ok [VInt 26984; VInt 0], 5, []).
Proof.
  assert (A : is_bytearray ex_texts) by (split; [unfold ex_texts; repeat constructor; unfold is_byte; lia|vm_compute; discriminate]).
  assert (R : fst (read_string_array ex_texts [3] Fs 1) = (Ok (map VStr [[104; 105]; []; [233]]), 8)) by reflexivity.
  split; [exact A|]. split.
  - apply (C104_texts ex_texts 3) in R as (ss & E & _ & T); [|exact A].
    assert (ss = [[104; 105]; []; [233]]) as -> by (destruct ss as [|a [|b [|c [|d ss]]]]; try discriminate E; now injection E as -> -> ->).
    exact T.
  - repeat split. eexists. reflexivity.
Qed.
Example C104_values_case : occurs ex_texts 1 [104; 105; 0; 0] /\ wire_list (wire_value Fh) [VInt 26984; VInt 0] [104; 105; 0; 0].
Proof.
  split; [exists [7], [195; 169; 0; 9]; split; reflexivity|].
  change [104; 105; 0; 0] with ([104; 105] ++ [0; 0] ++ []).
  assert (W : forall z bs, wire_int (wire_signed Fh) (wire_size Fh) z bs -> wire_value Fh (VInt z) bs) by (intros; apply wv_int; [cbn; tauto|assumption]).
  constructor; [apply W; wint|]. constructor; [apply W; wint|constructor].
Qed.
