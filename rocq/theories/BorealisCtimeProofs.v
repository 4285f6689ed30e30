(** The text of a time. *)
From Coq Require Import String ZArith List Bool Lia.
From Verif Require Import Base SDarnFormats BorealisTime BorealisTimeProofs BorealisConvert BorealisConvertFieldSpec BorealisDateProofs BorealisConvertFieldProofs
  BorealisConvertTailProofs BorealisConvertTotalProofs DmapWriteSpec BorealisCtime BorealisCtimeSpec.
Import ListNotations.
Open Scope list_scope.
Open Scope Z_scope.

(** ** Days of the week *)

Definition week_day (n : Z) : pystr := nth (Z.to_nat ((n + 3) mod 7)) day_names [].
Lemma seven x (P : Z -> Prop) : P 0 -> P 1 -> P 2 -> P 3 -> P 4 -> P 5 -> P 6 -> P (x mod 7).
Proof.
  intros. pose proof (Z.mod_pos_bound x 7 ltac:(lia)) as B. set (y := x mod 7) in *. clearbody y.
  assert (C : y = 0 \/ y = 1 \/ y = 2 \/ y = 3 \/ y = 4 \/ y = 5 \/ y = 6) by lia.
  destruct C as [-> | [-> | [-> | [-> | [-> | [-> | ->]]]]]]; assumption.
Qed.
Lemma mod_next x : (x + 1) mod 7 = (x mod 7 + 1) mod 7.
Proof. now rewrite Z.add_mod_idemp_l. Qed.
Lemma week_next n : day_after (week_day n) (week_day (n + 1)).
Proof.
  unfold week_day. replace (n + 1 + 3) with (n + 3 + 1) by ring. rewrite mod_next. set (x := n + 3). pattern (x mod 7). apply seven; vm_compute; auto 10.
Qed.
Lemma after_det w a b : day_after w a -> day_after w b -> a = b.
Proof.
  unfold day_after. cbn [In]. intros H G.
  repeat (destruct H as [H|H]; [injection H as <- <-; repeat (destruct G as [G|G]; [vm_compute in G |- *; congruence|]); destruct G|]). destruct H.
Qed.
Lemma before_det w a b : day_after a w -> day_after b w -> a = b.
Proof.
  unfold day_after. cbn [In]. intros H G.
  repeat (destruct H as [H|H]; [injection H as <- <-; repeat (destruct G as [G|G]; [vm_compute in G |- *; congruence|]); destruct G|]). destruct H.
Qed.
Lemma week_falls n : falls_on n (week_day n).
Proof.
  assert (UP : forall k : nat, falls_on (Z.of_nat k) (week_day (Z.of_nat k))).
  { induction k as [|k IH]; [apply falls_epoch|]. rewrite Nat2Z.inj_succ. unfold Z.succ. eapply falls_next; [exact IH|apply week_next]. }
  assert (DOWN : forall k : nat, falls_on (- Z.of_nat k) (week_day (- Z.of_nat k))).
  { induction k as [|k IH]; [apply falls_epoch|]. rewrite Nat2Z.inj_succ. replace (- Z.succ (Z.of_nat k)) with (- Z.of_nat k - 1) by lia.
    eapply falls_prev; [exact IH|]. replace (- Z.of_nat k) with (- Z.of_nat k - 1 + 1) at 2 by lia. apply week_next. }
  destruct (Z.le_gt_cases 0 n).
  - rewrite <- (Z2Nat.id n) by assumption. apply UP.
  - replace n with (- Z.of_nat (Z.to_nat (- n))) by (rewrite Z2Nat.id; lia). apply DOWN.
Qed.
Lemma falls_week n w : falls_on n w -> w = week_day n.
Proof.
  induction 1 as [|n w w' H IH A|n w w' H IH A]; [reflexivity|subst w; exact (after_det _ _ _ A (week_next n))|].
  subst w'. pose proof (week_next (n - 1)) as B. replace (n - 1 + 1) with n in B by lia. exact (before_det _ _ _ A B).
Qed.
Lemma day_length n : length (week_day n) = 3%nat.
Proof. unfold week_day. pattern ((n + 3) mod 7). apply seven; reflexivity. Qed.
Lemma week_differ n i : 0 < i < 7 -> week_day n <> week_day (n + i).
Proof.
  intros B. unfold week_day. replace (n + i + 3) with (n + 3 + i) by ring. rewrite <- (Z.add_mod_idemp_l (n + 3) i 7) by lia.
  set (x := n + 3). pattern (x mod 7). assert (C : i = 1 \/ i = 2 \/ i = 3 \/ i = 4 \/ i = 5 \/ i = 6) by lia.
  destruct C as [-> | [-> | [-> | [-> | [-> | ->]]]]]; apply seven; vm_compute; discriminate.
Qed.
Lemma week_period n k : week_day (n + 7 * k) = week_day n.
Proof. unfold week_day. replace (n + 7 * k + 3) with (n + 3 + k * 7) by ring. now rewrite Z.mod_add by lia. Qed.

(** ** Numerals *)

Lemma year_length z s : numeral z s -> 1000 <= z <= 9999 -> length s = 4%nat.
Proof.
  intros [[_ (D & V & H)]|(P & _)] B; [|lia]. pose proof (digits_bound s D) as U. rewrite V in U.
  destruct H as [-> | (c & s' & -> & N)]; [cbn in V; lia|]. pose proof (leading_value c s' D N) as W. rewrite V in W. cbn [length] in *.
  destruct (Nat.lt_trichotomy (length s') 3) as [L|[L|L]]; [|lia|].
  - pose proof (Z.pow_le_mono_r 10 (Z.of_nat (S (length s'))) 3 ltac:(lia) ltac:(lia)) as M. change (10 ^ 3) with 1000 in M. lia.
  - pose proof (Z.pow_le_mono_r 10 4 (Z.of_nat (length s')) ltac:(lia) ltac:(lia)) as M. change (10 ^ 4) with 10000 in M. lia.
Qed.

(** ** Two digits *)

Lemma hundred n (P : Z -> Prop) : (forall k : nat, (k < 100)%nat -> P (Z.of_nat k)) -> 0 <= n < 100 -> P n.
Proof. intros H B. rewrite <- (Z2Nat.id n) by lia. apply H. lia. Qed.
Lemma padded_two c n : 0 <= n < 100 -> padded c n = two c n.
Proof.
  intros B. unfold padded, two.
  assert (T : forall k : nat, (k < 100)%nat -> (if Z.of_nat k <? 10 then dec (Z.of_nat k) = [48 + Z.of_nat k mod 10] else dec (Z.of_nat k) = [48 + Z.of_nat k / 10; 48 + Z.of_nat k mod 10])).
  { intros k K. do 100 (destruct k as [|k]; [reflexivity|]). lia. }
  specialize (T (Z.to_nat n) ltac:(lia)). rewrite Z2Nat.id in T by lia. destruct (n <? 10); now rewrite T.
Qed.
Ltac Zify.zify_post_hook ::= Z.div_mod_to_equations.
Lemma two_inj c a b : c = 32 \/ c = 48 -> 0 <= a < 100 -> 0 <= b < 100 -> two c a = two c b -> a = b.
Proof.
  unfold two. intros C A B H. pose proof (f_equal (fun l => nth 0 l 0) H) as H1. pose proof (f_equal (fun l => nth 1 l 0) H) as H2. cbn [nth] in H1, H2. clear H. destruct (Z.ltb_spec a 10), (Z.ltb_spec b 10); destruct C as [-> | ->]; lia.
Qed.
Ltac Zify.zify_post_hook ::= idtac.

(** ** The text *)

Lemma month_named mo : 1 <= mo <= 12 -> month_name mo (nth (Z.to_nat (mo - 1)) month_names []).
Proof.
  intros B. assert (C : mo = 1 \/ mo = 2 \/ mo = 3 \/ mo = 4 \/ mo = 5 \/ mo = 6 \/ mo = 7 \/ mo = 8 \/ mo = 9 \/ mo = 10 \/ mo = 11 \/ mo = 12) by lia.
  repeat (destruct C as [-> | C]; [unfold month_name; vm_compute; auto 20|]). subst mo. vm_compute; auto 20.
Qed.
Lemma month_det mo s t : month_name mo s -> month_name mo t -> s = t.
Proof.
  unfold month_name. cbn [In]. intros H G.
  repeat (destruct H as [H|H]; [injection H as <- <-; repeat (destruct G as [G|G]; [vm_compute in G |- *; congruence|]); destruct G|]). destruct H.
Qed.
Lemma month_back mo mo' s : month_name mo s -> month_name mo' s -> mo = mo'.
Proof.
  unfold month_name. cbn [In]. intros H G.
  repeat (destruct H as [H|H]; [injection H as <- <-; repeat (destruct G as [G|G]; [vm_compute in G; first [discriminate G|congruence]|]); destruct G|]). destruct H.
Qed.
Lemma month_length mo s : month_name mo s -> length s = 3%nat.
Proof.
  unfold month_name. cbn [In]. intros H. repeat (destruct H as [H|H]; [injection H as <- <-; reflexivity|]). destruct H.
Qed.

Lemma month_short y mo : month_days y mo <= 31.
Proof. unfold month_days. destruct (mo =? 2), (leap y), (existsb (Z.eqb mo) [4; 6; 9; 11]); lia. Qed.

(** A day and its date determine each other. *)
Definition date_key (t : Z * Z * Z) : Z := let '(y, m, d) := t in 512 * y + 32 * m + d.
Lemma key_next t : valid_date t -> date_key t < date_key (next_day t).
Proof.
  destruct t as [[y m] d]. unfold valid_date, next_day, date_key. intros [M D]. pose proof (month_short y m).
  destruct (d <? month_days y m); [lia|]. destruct (m <? 12); lia.
Qed.
Lemma civil_increases n k : (0 < k)%nat -> date_key (civil n) < date_key (civil (n + Z.of_nat k)).
Proof.
  intros K. induction k as [|k IH]; [lia|]. destruct (civil_next (n + Z.of_nat k)) as [E V]. rewrite Nat2Z.inj_succ.
  replace (n + Z.succ (Z.of_nat k)) with (n + Z.of_nat k + 1) by lia. rewrite <- E. pose proof (key_next _ V).
  destruct k as [|k]; [replace (n + Z.of_nat 0) with n in * by lia; assumption|]. specialize (IH ltac:(lia)). lia.
Qed.
Lemma date_days n n' t : date_of n t -> date_of n' t -> n = n'.
Proof.
  intros H H'. apply date_civil in H, H'. destruct (Z.lt_trichotomy n n') as [L|[L|L]]; [exfalso|assumption|exfalso].
  - pose proof (civil_increases n (Z.to_nat (n' - n)) ltac:(lia)) as I. rewrite Z2Nat.id in I by lia. replace (n + (n' - n)) with n' in I by lia. rewrite <- H, <- H' in I. lia.
  - pose proof (civil_increases n' (Z.to_nat (n - n')) ltac:(lia)) as I. rewrite Z2Nat.id in I by lia. replace (n' + (n - n')) with n in I by lia. rewrite <- H, <- H' in I. lia.
Qed.

Ltac Zify.zify_post_hook ::= Z.div_mod_to_equations.
Lemma time_parts m yr mo dy hr mt sc us : is_time m yr mo dy hr mt sc us ->
  date_of (m / 86400000000) (yr, mo, dy) /\ hr = m mod 86400000000 / 3600000000 /\ mt = m mod 86400000000 / 60000000 mod 60 /\
  sc = m mod 86400000000 / 1000000 mod 60 /\ us = m mod 1000000 /\ 0 <= hr < 24 /\ 0 <= mt < 60 /\ 0 <= sc < 60 /\ 1 <= mo <= 12 /\ 1 <= dy <= 31.
Proof.
  intros (days & D & H1 & H2 & H3 & H4 & E). pose proof (date_valid _ _ D) as [V1 V2]. pose proof (month_short yr mo).
  assert (days = m / 86400000000) by lia. subst days. split; [exact D|].
  assert (R : m mod 86400000000 = ((hr * 60 + mt) * 60 + sc) * 1000000 + us) by lia.
  rewrite R. repeat split; lia.
Qed.
Lemma is_time_now m : exists yr mo dy hr mt sc us, is_time m yr mo dy hr mt sc us.
Proof.
  destruct (civil (m / 86400000000)) as [[yr mo] dy] eqn:E. pose proof (civil_date (m / 86400000000)) as D. rewrite E in D.
  pose proof (Z.div_mod m 86400000000 ltac:(lia)) as DM. pose proof (Z.mod_pos_bound m 86400000000 ltac:(lia)) as DB. set (x := m mod 86400000000) in *.
  exists yr, mo, dy, (x / 3600000000), (x / 60000000 mod 60), (x / 1000000 mod 60), (x mod 1000000), (m / 86400000000).
  split; [exact D|]. set (q := m / 86400000000) in *. clearbody q x. repeat split; lia.
Qed.
Ltac Zify.zify_post_hook ::= idtac.

(** A text has at most one place for each part. *)
Lemma app_fixed {A} (a b c d : list A) : length a = length c -> a ++ b = c ++ d -> a = c /\ b = d.
Proof.
  revert c. induction a as [|x a IH]; intros [|y c] L H; try discriminate; [auto|]. injection H as -> H. destruct (IH c) as [-> ->]; auto.
Qed.
Lemma text_unique m s t : time_text m s -> time_text m t -> s = t.
Proof.
  intros (yr & mo & dy & hr & mt & sc & us & w & mon & year & T & F & M & Y & ->) (yr' & mo' & dy' & hr' & mt' & sc' & us' & w' & mon' & year' & T' & F' & M' & Y' & ->).
  apply time_parts in T as (D & E1 & E2 & E3 & _), T' as (D' & E1' & E2' & E3' & _). apply date_civil in D, D'. rewrite <- D in D'. injection D' as -> -> ->.
  rewrite (falls_week _ _ F), (falls_week _ _ F'), (month_det _ _ _ M M'), (numeral_unique _ _ _ Y Y'). rewrite E1, E2, E3, E1', E2', E3'. reflexivity.
Qed.
Lemma text_second m m' s : time_text m s -> time_text m' s -> m / 1000000 = m' / 1000000.
Proof.
  intros (yr & mo & dy & hr & mt & sc & us & w & mon & year & T & F & M & Y & ->) (yr' & mo' & dy' & hr' & mt' & sc' & us' & w' & mon' & year' & T' & F' & M' & Y' & E).
  pose proof (time_parts _ _ _ _ _ _ _ _ T) as (D & _ & _ & _ & _ & B1 & B2 & B3 & B4 & B5).
  pose proof (time_parts _ _ _ _ _ _ _ _ T') as (D' & _ & _ & _ & _ & B1' & B2' & B3' & B4' & B5').
  apply app_fixed in E as [EW E]; [|rewrite (falls_week _ _ F), (falls_week _ _ F'), !day_length; reflexivity].
  apply app_fixed in E as [_ E]; [|reflexivity].
  apply app_fixed in E as [EM E]; [|rewrite (month_length _ _ M), (month_length _ _ M'); reflexivity].
  apply app_fixed in E as [_ E]; [|reflexivity]. apply app_fixed in E as [ED E]; [|reflexivity].
  apply app_fixed in E as [_ E]; [|reflexivity]. apply app_fixed in E as [EH E]; [|reflexivity].
  apply app_fixed in E as [_ E]; [|reflexivity]. apply app_fixed in E as [ET E]; [|reflexivity].
  apply app_fixed in E as [_ E]; [|reflexivity]. apply app_fixed in E as [ES E]; [|reflexivity].
  apply app_fixed in E as [_ EY]; [|reflexivity].
  subst mon' year'. apply two_inj in ED, EH, ET, ES; try lia. subst dy' hr' mt' sc'.
  pose proof (month_back _ _ _ M M'). pose proof (numeral_number _ _ _ Y Y'). subst mo' yr'. clear - T T'.
  destruct T as (n & D & H1 & H2 & H3 & H4 & ->), T' as (n' & D' & H1' & H2' & H3' & H4' & ->). rewrite <- (date_days _ _ _ D D').
  set (x := ((n * 24 + hr) * 60 + mt) * 60 + sc). rewrite !Z.div_add_l by lia. rewrite !Z.div_small by lia. reflexivity.
Qed.
Lemma text_length m s yr mo dy hr mt sc us : time_text m s -> is_time m yr mo dy hr mt sc us -> 1000 <= yr <= 9999 -> length s = 24%nat.
Proof.
  intros (yr' & mo' & dy' & hr' & mt' & sc' & us' & w & mon & year & T & F & M & Y & ->) T' B.
  apply time_parts in T as (D & _), T' as (D' & _). apply date_civil in D, D'. rewrite <- D in D'. injection D' as -> -> ->.
  rewrite !app_length, (falls_week _ _ F), day_length, (month_length _ _ M), (year_length _ _ Y B). reflexivity.
Qed.

Lemma c_time_text m : -62135596800000000 <= m < 253402300800000000 -> time_text m (c_time m).
Proof.
  intros B. destruct (is_time_now m) as (yr & mo & dy & hr & mt & sc & us & T).
  pose proof (time_parts _ _ _ _ _ _ _ _ T) as (D & E1 & E2 & E3 & E4 & B1 & B2 & B3 & B4 & B5). apply date_civil in D.
  exists yr, mo, dy, hr, mt, sc, us, (week_day (m / 86400000000)), (nth (Z.to_nat (mo - 1)) month_names []), (dec yr).
  split; [exact T|]. split; [apply week_falls|]. split; [now apply month_named|]. split; [apply dec_numeral|].
  unfold c_time. replace ((m <? -62135596800000000) || (253402300800000000 <=? m)) with false by lia. cbv zeta.
  rewrite <- D, <- E1, <- E2, <- E3. rewrite !padded_two by lia. reflexivity.
Qed.

Lemma plain_all n (l : list pystr) : forallb (fun s => forallb (fun c => (0 <? c) && (c <? 128)) s) l = true -> plain_text (nth n l []).
Proof.
  intros H. destruct (le_lt_dec (length l) n) as [L|L]; [rewrite nth_overflow by assumption; constructor|].
  apply plain_check. rewrite forallb_forall in H. apply H. now apply nth_In.
Qed.
Lemma plain_padded c n : 0 < c < 128 -> plain_text (padded c n).
Proof. intros C. unfold padded. destruct (n <? 10); [constructor; [exact C|]|]; apply plain_dec. Qed.
Lemma plain_c_time m : plain_text (c_time m).
Proof.
  unfold c_time. destruct (_ || _); [constructor|]. cbv zeta. destruct (civil _) as [[yr mo] dy].
  repeat (apply plain_app; [first [apply plain_all; reflexivity|apply plain_padded; lia|apply plain_check; reflexivity]|]). apply plain_dec.
Qed.
Lemma key_le n n' : n <= n' -> date_key (civil n) <= date_key (civil n').
Proof.
  intros L. destruct (Z.eq_dec n n') as [-> | N]; [lia|]. pose proof (civil_increases n (Z.to_nat (n' - n)) ltac:(lia)) as I.
  rewrite Z2Nat.id in I by lia. replace (n + (n' - n)) with n' in I by lia. lia.
Qed.
Lemma civil_years n : -719162 <= n <= 2932896 -> let '(y, _, _) := civil n in 1 <= y <= 9999.
Proof.
  intros H. pose proof (key_le (-719162) n ltac:(lia)) as L. pose proof (key_le n 2932896 ltac:(lia)) as U.
  change (civil (-719162)) with (1, 1, 1) in L. change (civil 2932896) with (9999, 12, 31) in U.
  pose proof (proj2 (civil_next n)) as V. destruct (civil n) as [[y m] d]. unfold valid_date in V. pose proof (month_short y m). unfold date_key in *. lia.
Qed.
Lemma date_years m : -62135596800000000 <= m < 253402300800000000 -> -719162 <= m / 86400000000 <= 2932896.
Proof. intros B. split; [apply Z.div_le_lower_bound; lia|apply Z.lt_succ_r, Z.div_lt_upper_bound; lia]. Qed.
Lemma short_numeral z s : numeral z s -> 1 <= z <= 9999 -> (length s <= 4)%nat.
Proof.
  intros [[_ (D & V & H)]|(P & _)] B; [|lia].
  destruct H as [-> | (c & s' & -> & N)]; [cbn; lia|]. pose proof (leading_value c s' D N) as W. rewrite V in W. cbn [length] in *.
  destruct (le_lt_dec (length s') 3) as [L|L]; [lia|].
  pose proof (Z.pow_le_mono_r 10 4 (Z.of_nat (length s')) ltac:(lia) ltac:(lia)) as M. change (10 ^ 4) with 10000 in M. lia.
Qed.
Lemma c_time_length m : zlen (c_time m) <= 24.
Proof.
  destruct ((m <? -62135596800000000) || (253402300800000000 <=? m)) eqn:E; [unfold c_time; rewrite E; cbn; lia|].
  assert (B : -62135596800000000 <= m < 253402300800000000) by lia.
  destruct (c_time_text m B) as (yr & mo & dy & hr & mt & sc & us & w & mon & year & T & F & M & Y & ->).
  apply time_parts in T as (D & _). apply date_civil in D. pose proof (civil_years _ (date_years m B)) as YB. rewrite <- D in YB.
  pose proof (short_numeral _ _ Y YB). unfold zlen. rewrite !app_length, (falls_week _ _ F), day_length, (month_length _ _ M). cbn [length two]. lia.
Qed.

Ltac Zify.zify_post_hook ::= Z.div_mod_to_equations.
Lemma same_second m m' s t : m / 1000000 = m' / 1000000 -> time_text m s -> time_text m' t -> s = t.
Proof.
  intros E (yr & mo & dy & hr & mt & sc & us & w & mon & year & T & F & M & Y & ->) (yr' & mo' & dy' & hr' & mt' & sc' & us' & w' & mon' & year' & T' & F' & M' & Y' & ->).
  apply time_parts in T as (D & E1 & E2 & E3 & _), T' as (D' & E1' & E2' & E3' & _). apply date_civil in D, D'.
  assert (ED : m / 86400000000 = m' / 86400000000).
  { change 86400000000 with (1000000 * 86400). rewrite <- !Z.div_div by lia. now rewrite E. }
  rewrite ED in *. rewrite <- D in D'. injection D' as -> -> ->.
  assert (EH : hr = hr' /\ mt = mt' /\ sc = sc').
  { subst hr mt sc hr' mt' sc'.
    assert (G : forall x, x mod 86400000000 / 1000000 = x / 1000000 mod 86400) by (intros x; clear; lia).
    assert (S : m mod 86400000000 / 1000000 = m' mod 86400000000 / 1000000) by (rewrite !G; now rewrite E).
    change 3600000000 with (1000000 * 3600). change 60000000 with (1000000 * 60). rewrite <- !Z.div_div by lia. rewrite S. auto. }
  destruct EH as (-> & -> & ->). rewrite (falls_week _ _ F), (falls_week _ _ F'), (month_det _ _ _ M M'), (numeral_unique _ _ _ Y Y'). reflexivity.
Qed.
Ltac Zify.zify_post_hook ::= idtac.
