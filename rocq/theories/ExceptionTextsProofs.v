(** Proofs about the messages of the exceptions. *)
From Coq Require Import String ZArith List Bool Lia.
From Verif Require Import Base Bytes BytesProofs SDarnFormats BorealisTime DmapWrite NumeralSpec NumeralProofs ExceptionTexts ExceptionTextsSpec.
Import ListNotations.
Open Scope list_scope.
Open Scope Z_scope.
Ltac Zify.zify_post_hook ::= Z.div_mod_to_equations.

(** [e] can be read off the beginning of a text, on [P]. *)
Definition unique {A} (P : A -> Prop) (e : A -> pystr) : Prop :=
  forall x y r r', P x -> P y -> e x ++ r = e y ++ r' -> x = y /\ r = r'.

Lemma app_same {A} (a b c d : list A) : length a = length b -> a ++ c = b ++ d -> a = b /\ c = d.
Proof.
  revert b. induction a as [|x a IH]; intros [|y b] L E; try discriminate L; [split; [reflexivity|exact E]|].
  cbn in E. injection E as -> E. destruct (IH b) as [-> ->]; [now injection L|exact E|]. now split.
Qed.

(** ** Characters *)

Lemma hexd_inj a b : 0 <= a < 16 -> 0 <= b < 16 -> hexd a = hexd b -> a = b.
Proof. unfold hexd. intros H1 H2. destruct (Z.ltb_spec a 10), (Z.ltb_spec b 10); lia. Qed.
Lemma hexn_len k : forall c, length (hexn k c) = k.
Proof. induction k as [|k IH]; intros c; cbn [hexn]; [reflexivity|]. rewrite app_length, IH. cbn. lia. Qed.
Lemma hexn_inj k : forall a b, 0 <= a < 16 ^ Z.of_nat k -> 0 <= b < 16 ^ Z.of_nat k -> hexn k a = hexn k b -> a = b.
Proof.
  induction k as [|k IH]; intros a b H1 H2; [cbn in *; lia|]. cbn [hexn]. intros E. apply app_inj_tail in E as [E1 E2].
  rewrite Nat2Z.inj_succ, Z.pow_succ_r in H1, H2 by lia.
  apply IH in E1; [|split; [apply Z.div_pos; lia|apply Z.div_lt_upper_bound; lia]|split; [apply Z.div_pos; lia|apply Z.div_lt_upper_bound; lia]].
  apply hexd_inj in E2; [|apply Z.mod_pos_bound; lia|apply Z.mod_pos_bound; lia].
  rewrite (Z.div_mod a 16), (Z.div_mod b 16) by lia. now rewrite E1, E2.
Qed.
Lemma hex_unique k a b r r' : 0 <= a < 16 ^ Z.of_nat k -> 0 <= b < 16 ^ Z.of_nat k -> hexn k a ++ r = hexn k b ++ r' -> a = b /\ r = r'.
Proof. intros H1 H2 E. apply app_same in E as [E1 E2]; [|now rewrite !hexn_len]. split; [now apply (hexn_inj k)|exact E2]. Qed.

Section P.
Variable printable : Z -> bool.

(** The cases of an escape. *)
Inductive esc_case (q c : Z) : pystr -> Prop :=
| EC_raw : c <> q -> c <> 92 -> esc_case q c [c]
| EC_quote : c = q \/ c = 92 -> esc_case q c [92; c]
| EC_tab : c = 9 -> esc_case q c [92; 116]
| EC_nl : c = 10 -> esc_case q c [92; 110]
| EC_cr : c = 13 -> esc_case q c [92; 114]
| EC_x : 0 <= c < 256 -> esc_case q c (92 :: 120 :: hexn 2 c)
| EC_u : 0 <= c < 65536 -> esc_case q c (92 :: 117 :: hexn 4 c)
| EC_U : 0 <= c < 4294967296 -> esc_case q c (92 :: 85 :: hexn 8 c).

Lemma escape_case q c : 0 <= c < 1114112 -> esc_case q c (escape printable q c).
Proof.
  intros H. unfold escape.
  destruct (Z.eqb_spec c q) as [E1|E1]; cbn [orb]; [now apply EC_quote; left|].
  destruct (Z.eqb_spec c 92) as [E2|E2]; [now apply EC_quote; right|].
  destruct (Z.eqb_spec c 9); [now apply EC_tab|]. destruct (Z.eqb_spec c 10); [now apply EC_nl|]. destruct (Z.eqb_spec c 13); [now apply EC_cr|].
  destruct (Z.ltb_spec c 32); cbn [orb]; [apply EC_x; lia|].
  destruct (Z.eqb_spec c 127); [apply EC_x; lia|].
  destruct (Z.ltb_spec c 127); [now apply EC_raw|]. destruct (printable c); [now apply EC_raw|].
  destruct (Z.ltb_spec c 256); [apply EC_x; lia|]. destruct (Z.ltb_spec c 65536); [apply EC_u; lia|]. apply EC_U; lia.
Qed.

Lemma escape_unique q : q = 39 \/ q = 34 -> unique (fun c => 0 <= c < 1114112) (escape printable q).
Proof.
  intros Q x y r r' Hx Hy. pose proof (escape_case q x Hx) as X. pose proof (escape_case q y Hy) as Y. revert X Y.
  generalize (escape printable q x) (escape printable q y). intros u v X Y.
  destruct X as [X1 X2|X|X|X|X|X|X|X]; destruct Y as [Y1 Y2|Y|Y|Y|Y|Y|Y|Y]; intros E; cbn [app] in E; try (injection E; intros; lia);
    try (injection E as E; (split; [lia|exact E])); try (injection E as E' E; split; [lia|exact E]).
  - apply (app_inv_head [92; 120] (hexn 2 x ++ r) (hexn 2 y ++ r')) in E. apply (hex_unique 2) in E; [exact E|cbn; lia|cbn; lia].
  - apply (app_inv_head [92; 117] (hexn 4 x ++ r) (hexn 4 y ++ r')) in E. apply (hex_unique 4) in E; [exact E|cbn; lia|cbn; lia].
  - apply (app_inv_head [92; 85] (hexn 8 x ++ r) (hexn 8 y ++ r')) in E. apply (hex_unique 8) in E; [exact E|cbn; lia|cbn; lia].
Qed.
Lemma escape_start q c r : 0 <= c < 1114112 -> q = 39 \/ q = 34 -> exists x y, escape printable q c ++ r = x :: y /\ x <> q.
Proof.
  intros H Q. pose proof (escape_case q c H) as X. destruct X as [X1 X2|X|X|X|X|X|X|X]; cbn [app]; eexists; eexists; (split; [reflexivity|lia]).
Qed.

Lemma body_unique q : q = 39 \/ q = 34 -> unique unicode (fun s => flat_map (escape printable q) s ++ [q]).
Proof.
  intros Q. intros x. induction x as [|c x IH]; intros y r r' Hx Hy E; cbn [flat_map app] in E.
  - destruct y as [|d y]; cbn [flat_map app] in E; [injection E as E; now split|].
    rewrite <- !app_assoc in E. inversion Hy as [|? ? D1 D2]; subst. destruct (escape_start q d (flat_map (escape printable q) y ++ [q] ++ r') D1 Q) as (a & b & X & N).
    cbn [app] in E, X. rewrite X in E. injection E as E _. now destruct N.
  - inversion Hx as [|? ? C1 C2]; subst. destruct y as [|d y]; cbn [flat_map app] in E.
    + rewrite <- !app_assoc in E. destruct (escape_start q c (flat_map (escape printable q) x ++ [q] ++ r) C1 Q) as (a & b & X & N).
      cbn [app] in E, X. rewrite X in E. injection E as E _. now destruct N.
    + inversion Hy as [|? ? D1 D2]; subst. rewrite <- !app_assoc in E. apply (escape_unique q Q) in E as [E1 E]; auto.
      destruct (IH y r r' C2 D2) as [E2 E3]; [now rewrite <- !app_assoc|]. split; [now rewrite E1, E2|exact E3].
Qed.
Lemma quote_two s : quote s = 39 \/ quote s = 34.
Proof. unfold quote. destruct (_ && _); auto. Qed.
Lemma quoted_unique : unique unicode (quoted printable).
Proof.
  intros x y r r' Hx Hy E. unfold quoted in E. cbn [app] in E. injection E as EQ E. rewrite <- EQ in E.
  apply (body_unique (quote x) (quote_two x)) in E; auto.
Qed.
Lemma quoted_start s : exists c r, quoted printable s = c :: r /\ c <> 125.
Proof. unfold quoted. eexists; eexists. split; [reflexivity|]. destruct (quote_two s) as [-> | ->]; discriminate. Qed.

(** ** Lists *)

Lemma commas_unique {A} (P : A -> Prop) e : unique P e -> (forall x, P x -> exists c r, e x = c :: r /\ c <> 125) ->
  unique (Forall P) (fun l => commas (map e l) ++ str "}").
Proof.
  intros U S. change (str "}") with [125].
  assert (ST : forall x l, commas (map e (x :: l)) = e x ++ match l with [] => [] | _ => str ", " ++ commas (map e l) end).
  { intros x l. destruct l as [|y l]; cbn [map commas]; [now rewrite app_nil_r|reflexivity]. }
  intros x. induction x as [|a x IH]; intros y r r' Hx Hy E.
  - destruct y as [|b y]; [cbn in E; injection E as E; now split|].
    rewrite ST in E. inversion Hy as [|? ? B1 B2]; subst. destruct (S b B1) as (c & d & X & N). rewrite X in E. cbn in E. injection E as E _. now destruct N.
  - inversion Hx as [|? ? A1 A2]; subst. destruct y as [|b y].
    + rewrite ST in E. destruct (S a A1) as (c & d & X & N). rewrite X in E. cbn in E. injection E as E _. now destruct N.
    + inversion Hy as [|? ? B1 B2]; subst. rewrite !ST, <- !app_assoc in E. apply U in E as [-> E]; auto.
      destruct x as [|a' x], y as [|b' y].
      * cbn in E. injection E as E. now split.
      * cbn in E. discriminate E.
      * cbn in E. discriminate E.
      * rewrite <- !app_assoc in E. apply app_inv_head in E. destruct (IH (b' :: y) r r' A2 B2) as [-> E3]; [now rewrite <- !app_assoc|now split].
Qed.
Lemma set_unique : unique (Forall unicode) (set_text printable).
Proof.
  intros x y r r' Hx Hy E. pose proof (commas_unique unicode (quoted printable) quoted_unique (fun s _ => quoted_start s)) as U.
  destruct x as [|a x], y as [|b y]; [cbn in E; injection E as E; now split|cbn in E; discriminate E|cbn in E; discriminate E|].
  apply (U (a :: x) (b :: y)); auto. unfold set_text in E. rewrite <- !app_assoc in E. apply app_inv_head in E. now rewrite <- !app_assoc.
Qed.
Lemma dict_unique {A} (P : A -> Prop) f : unique P f -> unique (Forall (fun p => unicode (fst p) /\ P (snd p))) (dict_text printable f).
Proof.
  intros U x y r r' Hx Hy E. unfold dict_text in E. rewrite <- !app_assoc in E. apply app_inv_head in E.
  apply (commas_unique (fun p => unicode (fst p) /\ P (snd p)) (fun p => quoted printable (fst p) ++ str ": " ++ f (snd p))); auto.
  - intros [a b] [c d] s s' [H1 H2] [H3 H4] X. cbn [fst snd] in *. rewrite <- !app_assoc in X. apply quoted_unique in X as [-> X]; auto.
    apply app_inv_head in X. apply U in X as [-> ->]; auto.
  - intros [a b] _. cbn [fst snd]. destruct (quoted_start a) as (c & s & X & N). rewrite X. cbn [app]. eauto.
  - now rewrite <- !app_assoc.
Qed.

(** ** Numbers *)

Lemma dec_decimal z : dec z = decimal z.
Proof. reflexivity. Qed.
Lemma dec_chars z : Forall (fun c => c = 45 \/ digit c) (dec z).
Proof.
  destruct (decimal_numeral z) as [[_ (H & _)]|(_ & s' & E & H & _)]; rewrite dec_decimal; [|rewrite E; constructor; [now left|]];
    (eapply Forall_impl; [|exact H]); auto.
Qed.
Lemma dec_inj a b : dec a = dec b -> a = b.
Proof. intros E. apply (numeral_number a b (dec a)); [apply decimal_numeral|rewrite E; apply decimal_numeral]. Qed.
Lemma span_same (Q : Z -> Prop) c (u v : pystr) : forall s s', Forall Q s -> Forall Q s' -> ~ Q c -> forall d, ~ Q d -> s ++ c :: u = s' ++ d :: v -> s = s' /\ c = d /\ u = v.
Proof.
  induction s as [|x s IH]; intros [|y s'] H1 H2 N d N' E; cbn in E; injection E as E0 E.
  - now split.
  - inversion H2; subst. now destruct N.
  - inversion H1; subst. now destruct N'.
  - inversion H1; inversion H2; subst. destruct (IH s' H4 H8 N d N' E) as (-> & -> & ->). now split.
Qed.
Lemma dec_span a b c d u v : c = 32 \/ c = 44 \/ c = 41 -> d = 32 \/ d = 44 \/ d = 41 -> dec a ++ c :: u = dec b ++ d :: v -> a = b /\ c = d /\ u = v.
Proof.
  intros C D E. apply (span_same (fun c => c = 45 \/ digit c)) in E as (E1 & E2 & E3); try apply dec_chars; try (unfold digit; lia).
  apply dec_inj in E1. now split.
Qed.

(** ** Messages *)

Lemma missing_inj n n' fs fs' : Forall unicode fs -> Forall unicode fs' ->
  sd_missing_message printable n fs = sd_missing_message printable n' fs' -> n = n' /\ fs = fs'.
Proof.
  intros H1 H2 E. unfold sd_missing_message in E. apply app_inv_head in E. apply dec_span in E as (-> & _ & E); [|auto|auto].
  split; [reflexivity|]. apply (app_inv_head (str "are missing: ")) in E.
  destruct (set_unique fs fs' [] [] H1 H2) as [X _]; [now rewrite !app_nil_r|exact X].
Qed.
Lemma extra_inj n n' fs fs' : Forall unicode fs -> Forall unicode fs' ->
  sd_extra_message printable n fs = sd_extra_message printable n' fs' -> n = n' /\ fs = fs'.
Proof.
  intros H1 H2 E. unfold sd_extra_message in E. apply app_inv_head in E. apply dec_span in E as (-> & _ & E); [|auto|auto].
  split; [reflexivity|]. apply (app_inv_head (str "are not allowed: ")) in E.
  destruct (set_unique fs fs' [] [] H1 H2) as [X _]; [now rewrite !app_nil_r|exact X].
Qed.
Lemma type_inj n n' fs fs' : Forall (fun p => unicode (fst p) /\ unicode (snd p)) fs -> Forall (fun p => unicode (fst p) /\ unicode (snd p)) fs' ->
  sd_type_message printable fs n = sd_type_message printable fs' n' -> n = n' /\ fs = fs'.
Proof.
  intros H1 H2 E. unfold sd_type_message in E. apply app_inv_head in E. apply dec_span in E as (-> & _ & E); [|auto|auto].
  split; [reflexivity|]. apply (app_inv_head (str " following parameters need to be the data type: ")) in E.
  destruct (dict_unique unicode (quoted printable) quoted_unique fs fs' [] [] H1 H2) as [X _]; [now rewrite !app_nil_r|exact X].
Qed.
Lemma kinds_differ n n' fs fs' : sd_missing_message printable n fs <> sd_extra_message printable n' fs'.
Proof.
  unfold sd_missing_message, sd_extra_message. intros E. apply app_inv_head in E. apply dec_span in E as (_ & _ & E); [|auto|auto].
  discriminate E.
Qed.
Lemma kinds_differ_type n n' fs fs' : sd_missing_message printable n fs <> sd_type_message printable fs' n' /\ sd_extra_message printable n fs <> sd_type_message printable fs' n'.
Proof. split; intros E; discriminate E. Qed.

Definition sets_ok (l : list (pystr * list pystr)) : Prop := Forall (fun p => unicode (fst p) /\ Forall unicode (snd p)) l.
Definition dicts_ok (l : list (pystr * list (pystr * pystr))) : Prop :=
  Forall (fun p => unicode (fst p) /\ Forall (fun p => unicode (fst p) /\ unicode (snd p)) (snd p)) l.
Lemma bad_inj f m x i m' x' i' : sets_ok m -> sets_ok x -> dicts_ok i -> sets_ok m' -> sets_ok x' -> dicts_ok i' ->
  bad_records_message printable f m x i = bad_records_message printable f m' x' i' -> m = m' /\ x = x' /\ i = i'.
Proof.
  intros H1 H2 H3 H4 H5 H6 E. unfold bad_records_message in E. do 4 apply app_inv_head in E.
  apply (dict_unique (Forall unicode) (set_text printable) set_unique) in E as [-> E]; auto. do 2 apply app_inv_head in E.
  apply (dict_unique (Forall unicode) (set_text printable) set_unique) in E as [-> E]; auto. do 2 apply app_inv_head in E.
  destruct (dict_unique _ (dict_text printable (quoted printable)) (dict_unique unicode (quoted printable) quoted_unique) i i' [] [] H3 H6) as [-> _];
    [now rewrite !app_nil_r|]. now split.
Qed.

(** ** Mentions *)

Lemma mentions_left m p a : mentions m p -> mentions (a ++ m) p.
Proof. intros (x & y & ->). exists (a ++ x), y. now rewrite <- app_assoc. Qed.
Lemma mentions_right m p b : mentions m p -> mentions (m ++ b) p.
Proof. intros (x & y & ->). exists x, (y ++ b). now rewrite <- !app_assoc. Qed.
Lemma mentions_self p : mentions p p.
Proof. exists [], []. now rewrite app_nil_r. Qed.
Lemma mentions_trans m p r : mentions m p -> mentions p r -> mentions m r.
Proof. intros (a & b & ->) H. apply mentions_left, mentions_right, H. Qed.

Lemma commas_mentions l x : In x l -> mentions (commas l) x.
Proof.
  induction l as [|y l IH]; [intros []|]. intros [->|H].
  - destruct l; cbn [commas]; [apply mentions_self|apply mentions_right, mentions_self].
  - destruct l as [|z l]; [destruct H|]. cbn [commas]. apply mentions_left, mentions_left. now apply IH.
Qed.
Lemma set_mentions l x : In x l -> mentions (set_text printable l) (quoted printable x).
Proof.
  intros H. destruct l as [|y l]; [destruct H|]. unfold set_text. apply mentions_left, mentions_right, commas_mentions. now apply in_map.
Qed.
Lemma dict_mentions {A} (f : A -> pystr) d k v : In (k, v) d ->
  mentions (dict_text printable f d) (quoted printable k ++ str ": " ++ f v).
Proof.
  intros H. unfold dict_text. apply mentions_left, mentions_right, commas_mentions.
  exact (in_map (fun p => quoted printable (fst p) ++ str ": " ++ f (snd p)) d (k, v) H).
Qed.
Lemma quoted_simple s : simple_name s -> quoted printable s = in_quotes s.
Proof.
  intros H. assert (Q : quote s = 39).
  { unfold quote. assert (E : existsb (Z.eqb 39) s = false).
    { apply Bool.not_true_iff_false. intros C. apply existsb_exists in C as (c & C1 & C2). apply Z.eqb_eq in C2. unfold simple_name in H. rewrite Forall_forall in H.
      specialize (H c C1). lia. }
    now rewrite E. }
  unfold quoted, in_quotes. rewrite Q. cbn [app]. f_equal. f_equal. clear Q. induction H as [|c s (H1 & H2 & H3) _ IH]; [reflexivity|].
  cbn [flat_map]. rewrite IH. unfold escape.
  destruct (Z.eqb_spec c 39); [easy|]. destruct (Z.eqb_spec c 92); [easy|]. cbn [orb].
  destruct (Z.eqb_spec c 9); [lia|]. destruct (Z.eqb_spec c 10); [lia|]. destruct (Z.eqb_spec c 13); [lia|].
  destruct (Z.ltb_spec c 32); [lia|]. destruct (Z.eqb_spec c 127); [lia|]. cbn [orb]. destruct (Z.ltb_spec c 127); [reflexivity|lia].
Qed.
End P.
