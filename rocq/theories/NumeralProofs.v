(** Proofs about decimal numerals. *)
From Coq Require Import String ZArith List Bool Lia Arith ZifyBool DecimalString DecimalPos DecimalFacts.
From Verif Require Import Base DmapTypes SDarnFormats DmapWrite NumeralSpec.
Import ListNotations.
Open Scope list_scope.
Open Scope Z_scope.

Lemma fold_digits s a : fold_left (fun a c => 10 * a + (c - 48)) s a = a * 10 ^ Z.of_nat (length s) + digits_value s.
Proof.
  unfold digits_value. revert a. induction s as [|c s IH]; intros a; [cbn; ring|]. cbn [fold_left length]. rewrite IH, (IH (10 * 0 + (c - 48))).
  rewrite Nat2Z.inj_succ, Z.pow_succ_r by lia. ring.
Qed.
Lemma str_cons x s : str (String x s) = Z.of_nat (Ascii.nat_of_ascii x) :: str s.
Proof. reflexivity. Qed.
Lemma acc_value d acc : Z.pos (Pos.of_uint_acc d acc) = fold_left (fun a c => 10 * a + (c - 48)) (str (NilEmpty.string_of_uint d)) (Z.pos acc).
Proof.
  revert acc. induction d as [|d IH|d IH|d IH|d IH|d IH|d IH|d IH|d IH|d IH|d IH]; intros acc; [reflexivity|..];
    cbn [Pos.of_uint_acc NilEmpty.string_of_uint]; rewrite IH, str_cons; cbn [fold_left]; f_equal;
    match goal with |- context [Z.of_nat (Ascii.nat_of_ascii ?x)] => let v := eval compute in (Z.of_nat (Ascii.nat_of_ascii x)) in change (Z.of_nat (Ascii.nat_of_ascii x)) with v end; lia.
Qed.
Lemma uint_value d : Z.of_N (Pos.of_uint d) = digits_value (str (NilEmpty.string_of_uint d)).
Proof.
  unfold digits_value. induction d as [|d IH|d IH|d IH|d IH|d IH|d IH|d IH|d IH|d IH|d IH]; [reflexivity|exact IH|..];
    cbn [Pos.of_uint NilEmpty.string_of_uint Z.of_N]; rewrite acc_value, str_cons; cbn [fold_left]; f_equal.
Qed.
Lemma uint_digits d : Forall digit (str (NilEmpty.string_of_uint d)).
Proof. induction d; cbn [NilEmpty.string_of_uint]; [constructor|..]; rewrite str_cons; constructor; try exact IHd; vm_compute; split; discriminate. Qed.

Lemma positive_numeral p : natural_numeral (Z.pos p) (str (NilZero.string_of_uint (Pos.to_uint p))).
Proof.
  pose proof (Unsigned.of_to p) as E. pose proof (Unsigned.to_of (Pos.to_uint p)) as U. rewrite E in U. cbn [N.to_uint] in U.
  pose proof (uint_value (Pos.to_uint p)) as V. rewrite E in V. cbn [Z.of_N] in V. pose proof (uint_digits (Pos.to_uint p)) as D.
  pose proof (nzhead_nonzero (Pos.to_uint p)) as N. unfold Decimal.unorm in U.
  set (d := Pos.to_uint p) in *. clearbody d.
  assert (S : NilZero.string_of_uint d = NilEmpty.string_of_uint d) by (destruct d; [discriminate V|reflexivity..]).
  rewrite S. split; [exact D|]. split; [now symmetry|]. right.
  destruct d as [|d|d|d|d|d|d|d|d|d|d]; [discriminate V| |cbn [NilEmpty.string_of_uint]; rewrite str_cons; eexists _, _; (split; [reflexivity|vm_compute; discriminate])..].
  exfalso. destruct (Decimal.nzhead (Decimal.D0 d)) as [|d'| | | | | | | | |] eqn:EN; try discriminate U; [|now apply (N d')].
  injection U as U. subst d. discriminate V.
Qed.
Lemma decimal_numeral z : numeral z (decimal z).
Proof.
  unfold numeral, decimal. destruct z as [|p|p]; cbn [Z.to_int NilZero.string_of_int].
  - left. split; [lia|]. split; [repeat constructor; vm_compute; discriminate|]. split; [reflexivity|now left].
  - left. split; [lia|]. apply positive_numeral.
  - right. split; [lia|]. eexists. split; [reflexivity|]. apply positive_numeral.
Qed.

(** A numeral determines the number and the other way round. *)
Lemma digits_bound s : Forall digit s -> 0 <= digits_value s < 10 ^ Z.of_nat (length s).
Proof.
  induction 1 as [|c s H HF IH]; [cbn; lia|]. change (digits_value (c :: s)) with (fold_left (fun a c => 10 * a + (c - 48)) s (10 * 0 + (c - 48))).
  rewrite fold_digits. cbn [length]. rewrite Nat2Z.inj_succ, Z.pow_succ_r by lia. unfold digit in H. nia.
Qed.
Lemma digits_snoc s c : digits_value (s ++ [c]) = 10 * digits_value s + (c - 48).
Proof. unfold digits_value. now rewrite fold_left_app. Qed.
Lemma digits_same s : forall t, Forall digit s -> Forall digit t -> length s = length t -> digits_value s = digits_value t -> s = t.
Proof.
  induction s as [|c s IH] using rev_ind; intros t HS HT L V.
  - destruct t; [reflexivity|discriminate].
  - destruct t as [|d t _] using rev_ind; [rewrite app_length in L; cbn in L; lia|].
    rewrite !app_length in L. cbn in L. rewrite !digits_snoc in V. apply Forall_app in HS as [HS HC], HT as [HT HD].
    inversion_clear HC as [|? ? C0 _]. inversion_clear HD as [|? ? D0 _]. unfold digit in C0, D0.
    assert (c = d) by lia. subst d. f_equal. apply IH; auto; lia.
Qed.
Lemma leading_value c s : Forall digit (c :: s) -> c <> 48 -> 10 ^ Z.of_nat (length s) <= digits_value (c :: s).
Proof.
  induction s as [|d s IH] using rev_ind; intros H N.
  - inversion_clear H as [|? ? C0 _]. unfold digit in C0. cbn. lia.
  - change (c :: s ++ [d]) with ((c :: s) ++ [d]) in *. rewrite digits_snoc. apply Forall_app in H as [H D]. inversion_clear D as [|? ? D0 _]. unfold digit in D0.
    specialize (IH H N). rewrite app_length. cbn [length]. rewrite Nat2Z.inj_add. change (Z.of_nat 1) with 1. rewrite Z.pow_add_r by lia. change (10 ^ 1) with 10. lia.
Qed.
Lemma natural_unique z s t : natural_numeral z s -> natural_numeral z t -> s = t.
Proof.
  assert (L : forall z s t, natural_numeral z s -> natural_numeral z t -> (length s <= length t)%nat).
  { clear. intros z s t (D1 & V1 & H1) (D2 & V2 & H2). destruct (le_lt_dec (length s) (length t)) as [|L]; [assumption|exfalso].
    pose proof (digits_bound t D2) as B. destruct H1 as [-> | (c & s' & -> & N)].
    - destruct t; [|cbn in L; lia]. destruct H2 as [H2|(c & s' & H2 & _)]; discriminate.
    - pose proof (leading_value c s' D1 N) as B'. cbn in L. assert (Z.of_nat (length t) <= Z.of_nat (length s')) by lia.
      pose proof (Z.pow_le_mono_r 10 (Z.of_nat (length t)) (Z.of_nat (length s')) ltac:(lia) ltac:(lia)). lia. }
  intros A B. pose proof (L _ _ _ A B). pose proof (L _ _ _ B A). destruct A as (D1 & V1 & _), B as (D2 & V2 & _).
  apply digits_same; auto; [lia|congruence].
Qed.
Lemma numeral_unique z s t : numeral z s -> numeral z t -> s = t.
Proof.
  intros [[P A]|(P & s' & -> & A)] [[Q B]|(Q & t' & -> & B)]; try lia; [exact (natural_unique _ _ _ A B)|].
  f_equal. exact (natural_unique _ _ _ A B).
Qed.
Lemma numeral_number z z' s : numeral z s -> numeral z' s -> z = z'.
Proof.
  intros [[P (D & <- & A)]|(P & s' & -> & D & E & A)] [[Q (D' & <- & B)]|(Q & t' & E' & D' & V & B)].
  - reflexivity.
  - subst s. exfalso. inversion_clear D as [|? ? C0 _]. unfold digit in C0. lia.
  - exfalso. inversion_clear D' as [|? ? C0 _]. unfold digit in C0. lia.
  - injection E' as <-. lia.
Qed.

(** The number of digits. *)
Lemma natural_length z s m : natural_numeral z s -> (0 < m)%nat -> z < 10 ^ Z.of_nat m -> (length s <= m)%nat.
Proof.
  intros (D & V & H) M B. destruct H as [-> | (c & s' & -> & N)]; [cbn; lia|].
  pose proof (leading_value c s' D N) as L. cbn [length].
  destruct (Nat.le_gt_cases (S (length s')) m) as [|G]; [assumption|exfalso].
  assert (10 ^ Z.of_nat m <= 10 ^ Z.of_nat (length s')) by (apply Z.pow_le_mono_r; lia). lia.
Qed.

Lemma decimal_natural z : 0 <= z -> natural_numeral z (decimal z).
Proof. intros H. destruct (decimal_numeral z) as [[_ N]|[C _]]; [exact N|lia]. Qed.

(** The characters of a numeral are ASCII. *)
Lemma numeral_chars z s : numeral z s -> Forall (fun c => 1 <= c < 128) s.
Proof.
  assert (D : forall s, Forall digit s -> Forall (fun c => 1 <= c < 128) s).
  { intros t. apply Forall_impl. unfold digit. intros; lia. }
  intros [[_ (H & _)]|[_ (s' & -> & H & _)]]; [auto|]. constructor; [lia|auto].
Qed.
