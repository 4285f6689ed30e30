(** Proofs about the wording of messages. *)
From Coq Require Import String ZArith List Bool Lia.
From Verif Require Import Base Bytes BytesProofs SDarnFormats BorealisTime NumeralSpec NumeralProofs SDarnChecks ExceptionTexts ExceptionTextsSpec ExceptionTextsProofs MessageWordSpec.
Import ListNotations.
Open Scope list_scope.
Open Scope Z_scope.

(** ** Format texts *)

Lemma place_split (x y t u : pystr) : ~ In 125 x -> ~ In 125 y -> x ++ [125] ++ t = y ++ [125] ++ u -> x = y /\ t = u.
Proof.
  revert y. induction x as [|a x IH]; intros [|b y] HX HY E; cbn in E.
  - injection E as E. auto.
  - injection E as <- _. exfalso. apply HY. now left.
  - injection E as -> _. exfalso. apply HX. now left.
  - injection E as <- E. destruct (IH y) as [-> ->]; auto; [intros H; apply HX; now right|intros H; apply HY; now right].
Qed.

Theorem formats_unique env t m m' : NoDup (map fst env) -> formats env t m -> formats env t m' -> m = m'.
Proof.
  intros ND H. revert m'. induction H as [|c t m N1 N2 H IH|name v t m I N H IH]; intros m' H'.
  - inversion H'; subst; auto.
  - inversion H' as [|c' t' m1 M1 M2 H1|name' v' t' m1 I' N' H1]; subst; [f_equal; auto|]. congruence.
  - remember ([123] ++ name ++ [125] ++ t) as T eqn:ET. destruct H' as [|c' t' m1 M1 M2 H1|name' v' t' m1 I' N' H1].
    + discriminate ET.
    + injection ET as -> _. congruence.
    + injection ET as ET. destruct (place_split _ _ _ _ N' N ET) as [-> ->].
      assert (v = v') as <-.
      { clear - ND I I'. induction env as [|[a b] env IH]; [destruct I|]. cbn in ND. inversion ND as [|? ? NI ND']; subst.
        destruct I as [I|I], I' as [I'|I'].
        - congruence.
        - exfalso. apply NI. injection I as <- <-. apply (in_map fst) in I'. exact I'.
        - exfalso. apply NI. injection I' as <- <-. apply (in_map fst) in I. exact I.
        - auto. }
      f_equal. now apply IH.
Qed.

(** [format] carried out. *)
Fixpoint run (env : list (pystr * pystr)) (name : option pystr) (t : pystr) : option pystr :=
  match t, name with
  | [], None => Some []
  | [], Some _ => None
  | c :: t, None =>
      if c =? 123 then run env (Some []) t
      else if c =? 125 then None
      else option_map (cons c) (run env None t)
  | c :: t, Some n =>
      if c =? 125 then
        match dict_get env n with
        | Some v => match t with [] => Some v | _ => option_map (app v) (run env None t) end
        | None => None
        end
      else run env (Some (n ++ [c])) t
  end.
Lemma run_ok env : forall t,
  (forall m, run env None t = Some m -> formats env t m) /\
  (forall n m, ~ In 125 n -> run env (Some n) t = Some m -> formats env ([123] ++ n ++ t) m).
Proof.
  induction t as [|c t [IH1 IH2]]; cbn [run].
  - split; [intros m [= <-]; constructor|discriminate].
  - split.
    + intros m H. destruct (Z.eqb_spec c 123) as [->|N1].
      * apply IH2 in H; auto.
      * destruct (Z.eqb_spec c 125) as [|N2]; [discriminate|]. destruct (run env None t) as [m'|]; [|discriminate].
        injection H as <-. constructor; auto.
    + intros n m N H. destruct (Z.eqb_spec c 125) as [->|N2].
      * destruct (dict_get env n) as [v|] eqn:E; [|discriminate].
        assert (exists m', run env None t = Some m' /\ m = v ++ m') as (m' & R & ->).
        { destruct t as [|c t]; [injection H as <-; exists []; now rewrite app_nil_r|]. destruct (run env None (c :: t)) as [m'|]; [|discriminate].
          injection H as <-. eauto. } apply (formats_place env n v t m'); auto. now apply SDarnChecks.dict_get_In.
      * apply IH2 in H; [|intros I; apply in_app_iff in I as [I|[I|[]]]; congruence]. now rewrite <- app_assoc in H.
Qed.
Lemma run_formats env t m : run env None t = Some m -> formats env t m.
Proof. apply run_ok. Qed.

(** ** Literals *)

Lemma hexd_digit d : 0 <= d < 16 -> hex_digit d (hexd d).
Proof. intros H. unfold hex_digit, hexd. destruct (Z.ltb_spec d 10); lia. Qed.
Lemma hexn_hex k : forall c, 0 <= c < 16 ^ Z.of_nat k -> hex k c (hexn k c).
Proof.
  induction k as [|k IH]; intros c H.
  - cbn in H. assert (c = 0) as -> by lia. constructor.
  - rewrite Nat2Z.inj_succ, Z.pow_succ_r in H by lia. cbn [hexn].
    pose proof (Z.div_mod c 16 ltac:(lia)) as D. pose proof (Z.mod_pos_bound c 16 ltac:(lia)) as M.
    rewrite D at 1. constructor; [|now apply hexd_digit]. apply IH. split; [apply Z.div_pos; lia|apply Z.div_lt_upper_bound; lia].
Qed.

Section Printable.
Variable printable : Z -> bool.

Lemma escape_literal q c : q = 39 \/ q = 34 -> 0 <= c < 1114112 -> char_literal q c (escape printable q c).
Proof.
  intros Q H. unfold escape.
  destruct (Z.eqb_spec c q) as [->|N1]; [apply cl_quote|].
  destruct (Z.eqb_spec c 92) as [->|N2]; [apply cl_slash|]. cbn [orb].
  destruct (Z.eqb_spec c 9) as [->|N3]; [apply cl_tab|].
  destruct (Z.eqb_spec c 10) as [->|N4]; [apply cl_line|].
  destruct (Z.eqb_spec c 13) as [->|N5]; [apply cl_return|].
  destruct (Z.ltb_spec c 32); cbn [orb]; [apply cl_x, hexn_hex; cbn; lia|].
  destruct (Z.eqb_spec c 127); [apply cl_x, hexn_hex; cbn; lia|].
  destruct (Z.ltb_spec c 127); [now apply cl_plain|].
  destruct (printable c); [now apply cl_plain|].
  destruct (Z.ltb_spec c 256); [apply cl_x, hexn_hex; cbn; lia|].
  destruct (Z.ltb_spec c 65536); [apply cl_u, hexn_hex; cbn; lia|].
  apply cl_U, hexn_hex; cbn; lia.
Qed.
Lemma quoted_literal s : unicode s -> text_literal s (quoted printable s).
Proof.
  intros U. exists (quote s), (flat_map (escape printable (quote s)) s). split; [apply quote_two|]. split; [|reflexivity].
  pose proof (quote_two s) as Q. revert Q. generalize (quote s). intros q Q. induction U as [|c s H U IH]; cbn [flat_map]; constructor; auto.
  now apply escape_literal.
Qed.

Lemma commas_listed {A} (P : A -> Prop) (literal : A -> pystr -> Prop) (f : A -> pystr) : (forall x, P x -> literal x (f x)) ->
  forall l, Forall P l -> listed literal l (commas (map f l)).
Proof.
  intros HF l. induction l as [|x [|y l] IH]; intros HP; inversion HP; subst; cbn [map commas]; constructor; auto.
Qed.
Lemma set_text_literal l : Forall unicode l -> set_literal l (set_text printable l).
Proof.
  intros H. destruct l as [|x l]; [now left|]. right. split; [discriminate|]. eexists. split; [|reflexivity].
  exact (commas_listed unicode _ (quoted printable) quoted_literal _ H).
Qed.
Lemma dict_text_literal {A} (P : A -> Prop) (literal : A -> pystr -> Prop) (f : A -> pystr) : (forall x, P x -> literal x (f x)) ->
  forall d, Forall (fun p => unicode (fst p) /\ P (snd p)) d -> dict_literal literal d (dict_text printable f d).
Proof.
  intros HF d H. eexists. split; [|reflexivity].
  refine (commas_listed _ _ (fun p => quoted printable (fst p) ++ str ": " ++ f (snd p)) _ _ H). intros [k v] [K V].
  exists (quoted printable k), (f v). split; [now apply quoted_literal|]. split; [now apply HF|reflexivity].
Qed.
Lemma dec_numeral z : numeral z (dec z).
Proof. rewrite dec_decimal. apply decimal_numeral. Qed.
Lemma tuple_text_literal l : tuple_literal l (tuple_text l).
Proof.
  exists (commas (map dec l)). split; [exact (commas_listed (fun _ => True) _ dec (fun z _ => dec_numeral z) l ltac:(now apply Forall_forall))|].
  destruct l as [|x [|y l]]; reflexivity.
Qed.

(** ** What is shown *)

Lemma hexd_shown d : 0 <= d < 16 -> 32 <= hexd d <= 126.
Proof. intros H. unfold hexd. destruct (Z.ltb_spec d 10); lia. Qed.
Lemma hexn_shown k : forall c, Forall (shown_as_is printable) (hexn k c).
Proof.
  induction k as [|k IH]; intros c; cbn [hexn]; [constructor|]. apply Forall_app. split; [apply IH|].
  constructor; [|constructor]. left. apply hexd_shown. apply Z.mod_pos_bound. lia.
Qed.
Lemma escape_shown q c : q = 39 \/ q = 34 -> Forall (shown_as_is printable) (escape printable q c).
Proof.
  intros Q. assert (L : forall x, 32 <= x <= 126 -> shown_as_is printable x) by (now left).
  assert (S : shown_as_is printable 92) by (apply L; lia). unfold escape.
  assert (X : forall k h, 32 <= k <= 126 -> Forall (shown_as_is printable) h -> Forall (shown_as_is printable) (92 :: k :: h)).
  { intros k h K H. apply Forall_cons; [exact S|]. apply Forall_cons; [now apply L|exact H]. }
  pose proof (Forall_nil (shown_as_is printable)) as N.
  destruct (Z.eqb_spec c q) as [->|N1]; [apply X; [lia|exact N]|].
  destruct (Z.eqb_spec c 92) as [->|N2]; [apply X; [lia|exact N]|]. cbn [orb].
  destruct (Z.eqb_spec c 9); [apply X; [lia|exact N]|].
  destruct (Z.eqb_spec c 10); [apply X; [lia|exact N]|].
  destruct (Z.eqb_spec c 13); [apply X; [lia|exact N]|].
  destruct (Z.ltb_spec c 32); cbn [orb]; [apply X; [lia|apply hexn_shown]|].
  destruct (Z.eqb_spec c 127); [apply X; [lia|apply hexn_shown]|].
  destruct (Z.ltb_spec c 127); [constructor; [apply L; lia|constructor]|].
  destruct (printable c) eqn:EP; [constructor; [right; split; [lia|exact EP]|constructor]|].
  destruct (Z.ltb_spec c 256); [apply X; [lia|apply hexn_shown]|].
  destruct (Z.ltb_spec c 65536); apply X; try lia; apply hexn_shown.
Qed.
Lemma quoted_shown s : Forall (shown_as_is printable) (quoted printable s).
Proof.
  pose proof (quote_two s) as Q. unfold quoted.
  assert (L : shown_as_is printable (quote s)) by (left; lia).
  apply Forall_cons; [exact L|]. apply Forall_app. split; [|apply Forall_cons; [exact L|apply Forall_nil]].
  apply Forall_flat_map. apply Forall_forall. intros c _. now apply escape_shown.
Qed.
Lemma quote_double s : (exists t, quoted printable s = 34 :: t) <-> In 39 s /\ ~ In 34 s.
Proof.
  unfold quoted. assert (E : forall c, existsb (Z.eqb c) s = true <-> In c s).
  { intros c. rewrite existsb_exists. split; [intros (x & I & X); apply Z.eqb_eq in X; now subst|intros I; exists c; split; auto; apply Z.eqb_refl]. }
  unfold quote at 1. destruct (existsb (Z.eqb 39) s) eqn:E1; destruct (existsb (Z.eqb 34) s) eqn:E2; cbn [andb negb].
  - split; [intros (t & [=])|]. intros [_ N]. exfalso. apply N. now apply E.
  - split; [|eauto]. intros _. split; [now apply E|]. intros I. apply E in I. congruence.
  - split; [intros (t & [=])|]. intros [I _]. apply E in I. congruence.
  - split; [intros (t & [=])|]. intros [I _]. apply E in I. congruence.
Qed.

(** A character that is shown as it is stands for itself. *)
Lemma escape_plain q c : shown_as_is printable c -> c <> q -> c <> 92 -> 32 <= c -> escape printable q c = [c].
Proof.
  intros S N1 N2 _. unfold escape.
  destruct (Z.eqb_spec c q); [congruence|]. destruct (Z.eqb_spec c 92); [congruence|]. cbn [orb].
  unfold shown_as_is in S.
  destruct (Z.eqb_spec c 9); [lia|]. destruct (Z.eqb_spec c 10); [lia|]. destruct (Z.eqb_spec c 13); [lia|].
  destruct (Z.ltb_spec c 32); [lia|]. cbn [orb]. destruct (Z.eqb_spec c 127); [lia|].
  destruct (Z.ltb_spec c 127); [reflexivity|]. destruct S as [S|[_ ->]]; [lia|reflexivity].
Qed.
End Printable.

(** ** A literal stands for one text *)

Lemma hex_digit_unique d d' c : hex_digit d c -> hex_digit d' c -> d = d'.
Proof. unfold hex_digit. lia. Qed.
Lemma hex_len k v s : hex k v s -> length s = k.
Proof. induction 1; [reflexivity|]. rewrite app_length. cbn. lia. Qed.
Lemma hex_unique_value k v s : hex k v s -> forall v', hex k v' s -> v = v'.
Proof.
  induction 1 as [|k v s d c H IH HD]; intros v' H'.
  - now inversion H'.
  - inversion H' as [|k' w s' d' c' W D' E1 E2 E3]; subst. apply app_inj_tail in E3 as [-> ->].
    now rewrite (IH _ W), (hex_digit_unique _ _ _ HD D').
Qed.
Lemma hex_prefix k v v' s s' u u' : hex k v s -> hex k v' s' -> s ++ u = s' ++ u' -> v = v' /\ u = u'.
Proof.
  intros H H' E. apply app_same in E as [-> ->]; [|now rewrite (hex_len _ _ _ H), (hex_len _ _ _ H')].
  split; [|reflexivity]. exact (hex_unique_value _ _ _ H _ H').
Qed.

(** The first characters tell which case of [char_literal] it is. *)
Lemma char_unique q c c' t t' u u' : q = 39 \/ q = 34 -> char_literal q c t -> char_literal q c' t' -> t ++ u = t' ++ u' -> c = c' /\ u = u'.
Proof.
  intros Q H H' E.
  destruct H as [c N1 N2 N3 N4| | | | | |c s X|c s X|c s X]; destruct H' as [c' M1 M2 M3 M4| | | | | |c' s' X'|c' s' X'|c' s' X'];
    pose proof (f_equal (hd 0) E) as E1; pose proof (f_equal (@tl Z) E) as E2;
    pose proof (f_equal (fun l => hd 0 (tl l)) E) as E3; pose proof (f_equal (fun l => tl (tl l)) E) as E4;
    clear E; cbn in E1, E2, E3, E4; try (exfalso; lia); try (split; [lia|assumption]);
    exact (hex_prefix _ _ _ _ _ _ _ X X' E4).
Qed.
Lemma char_first q c t u : q = 39 \/ q = 34 -> char_literal q c t -> exists x y, t ++ u = x :: y /\ x <> q.
Proof. intros Q [c' N1 N2 N3 N4| | | | | |c' s X|c' s X|c' s X]; cbn; do 2 eexists; (split; [reflexivity|]); try assumption; lia. Qed.
Lemma chars_unique q s s' t t' u u' : q = 39 \/ q = 34 -> chars_literal q s t -> chars_literal q s' t' ->
  t ++ [q] ++ u = t' ++ [q] ++ u' -> s = s' /\ u = u'.
Proof.
  intros Q H. revert s' t'. induction H as [|c s t w C H IH]; intros s' t' H' E.
  - destruct H' as [|c' s' t' w' C' H']; [cbn in E; injection E as E; auto|].
    exfalso. rewrite <- app_assoc in E. destruct (char_first q c' t' (w' ++ [q] ++ u') Q C') as (x & y & EX & N). rewrite EX in E. cbn in E. injection E as E _. congruence.
  - destruct H' as [|c' s' t' w' C' H'].
    + exfalso. rewrite <- app_assoc in E. destruct (char_first q c t (w ++ [q] ++ u) Q C) as (x & y & EX & N). rewrite EX in E. cbn in E. injection E as E _. congruence.
    + rewrite <- !app_assoc in E. destruct (char_unique q c c' t t' _ _ Q C C' E) as [-> E']. destruct (IH _ _ H' E') as [-> ->]. auto.
Qed.
Theorem text_literal_unique s s' t : text_literal s t -> text_literal s' t -> s = s'.
Proof.
  intros (q & u & Q & H & ->) (q' & u' & Q' & H' & E). cbn in E. injection E as <- E.
  apply (chars_unique q s s' u u' [] [] Q H H'). exact E.
Qed.
