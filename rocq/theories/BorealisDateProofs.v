(** Proofs about the dates of converted records. *)
From Coq Require Import String ZArith List Bool Lia ZifyBool.
From Verif Require Import Base SDarnFormats BorealisConvert BorealisConvertFieldSpec.
Import ListNotations.
Open Scope list_scope.
Open Scope Z_scope.

(** ** Dates *)

(** The first day of a year of 400 years from March on, and its length. *)
Definition start (y : Z) : Z := 365 * y + y / 4 - y / 100.
Definition len (y : Z) : Z := start (y + 1) - start y + (if y =? 399 then 1 else 0).
(** The year of a day, as [civil] finds it. *)
Definition year_part (doe : Z) : Z := doe - doe / 1460 + doe / 36524 - doe / 146096.
Definition year_ok (y : Z) : bool :=
  (year_part (start y) / 365 =? y) && (year_part (start y + len y - 1) / 365 =? y) &&
  (if leap (y + 1) then len y =? 366 else len y =? 365).

Lemma years_ok y : 0 <= y < 400 -> year_ok y = true.
Proof.
  intros H. assert (A : forallb (fun i => year_ok (Z.of_nat i)) (seq 0 400) = true) by (vm_compute; reflexivity).
  rewrite forallb_forall in A. rewrite <- (Z2Nat.id y) by lia. apply A. apply in_seq. lia.
Qed.
Lemma div_step a b : 0 < b -> (a + 1) / b = a / b \/ (a + 1) / b = a / b + 1.
Proof.
  intros H. pose proof (Z.div_mod a b ltac:(lia)) as D. pose proof (Z.mod_pos_bound a b H) as M.
  destruct (Z.eq_dec (a mod b) (b - 1)).
  - right. symmetry. apply Z.div_unique with 0; lia.
  - left. symmetry. apply Z.div_unique with (a mod b + 1); lia.
Qed.
Lemma div_grows a b : 0 < b -> a / b <= (a + 1) / b.
Proof. intros H. apply Z.div_le_mono; lia. Qed.
Lemma year_part_step d : 0 <= d < 146096 -> year_part d <= year_part (d + 1).
Proof.
  intros H. unfold year_part. pose proof (div_step d 1460 ltac:(lia)). pose proof (div_grows d 36524 ltac:(lia)).
  assert (E1 : d / 146096 = 0) by (apply Z.div_small; lia). rewrite E1.
  destruct (Z.eq_dec d 146095) as [->|].
  - vm_compute. discriminate.
  - assert (E2 : (d + 1) / 146096 = 0) by (apply Z.div_small; lia). rewrite E2. lia.
Qed.
Lemma year_part_mono (k : nat) d : 0 <= d -> d + Z.of_nat k <= 146096 -> year_part d <= year_part (d + Z.of_nat k).
Proof.
  intros H0. induction k as [|k IH]; intros H; [rewrite Z.add_0_r; lia|]. rewrite Nat2Z.inj_succ in *. 
  replace (d + Z.succ (Z.of_nat k)) with (d + Z.of_nat k + 1) by ring. pose proof (year_part_step (d + Z.of_nat k) ltac:(lia)). lia.
Qed.
Lemma start_next y : start y + len y = start (y + 1) + (if y =? 399 then 1 else 0).
Proof. unfold len. ring. Qed.
Lemma len_bounds y : 0 <= y < 400 -> len y = 365 \/ len y = 366.
Proof. intros H. pose proof (years_ok y H) as Y. unfold year_ok in Y. apply andb_prop in Y as [_ Y]. destruct (leap (y + 1)); lia. Qed.
Lemma start_bound y : 0 <= y < 400 -> 0 <= start y /\ start y + len y <= 146097.
Proof.
  intros H. assert (A : forallb (fun i => let y := Z.of_nat i in (0 <=? start y) && (start y + len y <=? 146097)) (seq 0 400) = true) by (vm_compute; reflexivity).
  rewrite forallb_forall in A. specialize (A (Z.to_nat y)). cbv zeta in A. rewrite Z2Nat.id in A by lia. specialize (A ltac:(apply in_seq; lia)). lia.
Qed.

(** Every day of the 400 years lies in a year. *)
Lemma day_in_year doe : 0 <= doe < 146097 -> exists y, 0 <= y < 400 /\ start y <= doe < start y + len y.
Proof.
  intros H. assert (G : forall n : nat, (n <= 400)%nat -> doe < start (Z.of_nat n) \/ n = 400%nat -> exists y, 0 <= y < 400 /\ start y <= doe < start y + len y).
  { induction n as [|n IH]; intros HN HD; [destruct HD as [HD|HD]; [change (start (Z.of_nat 0)) with 0 in HD; lia|discriminate]|].
    destruct (Z.lt_ge_cases doe (start (Z.of_nat n))) as [L|G]; [apply IH; [lia|now left]|].
    exists (Z.of_nat n). split; [lia|]. split; [exact G|]. rewrite start_next.
    destruct (Z.eqb_spec (Z.of_nat n) 399) as [E|E].
    - rewrite E. change (start (399 + 1)) with 146096. lia.
    - destruct HD as [HD|HD]; [|lia]. replace (Z.of_nat n + 1) with (Z.of_nat (S n)) by lia. lia. }
  apply (G 400%nat); [lia|now right].
Qed.
Lemma year_found y doe : 0 <= y < 400 -> start y <= doe < start y + len y -> year_part doe / 365 = y.
Proof.
  intros HY HD. pose proof (years_ok y HY) as Y. unfold year_ok in Y. apply andb_prop in Y as [Y _]. apply andb_prop in Y as [Y1 Y2].
  apply Z.eqb_eq in Y1, Y2. pose proof (start_bound y HY) as [B1 B2].
  assert (L1 : year_part (start y) <= year_part doe).
  { replace doe with (start y + Z.of_nat (Z.to_nat (doe - start y))) by lia. apply year_part_mono; lia. }
  assert (L2 : year_part doe <= year_part (start y + len y - 1)).
  { replace (start y + len y - 1) with (doe + Z.of_nat (Z.to_nat (start y + len y - 1 - doe))) by lia. apply year_part_mono; lia. }
  pose proof (Z.div_le_mono _ _ 365 ltac:(lia) L1). pose proof (Z.div_le_mono _ _ 365 ltac:(lia) L2). lia.
Qed.

(** Month and day of the day of a year from March on. *)
Definition month_of (doy : Z) : Z := let mp := (5 * doy + 2) / 153 in if mp <? 10 then mp + 3 else mp - 9.
Definition day_of (doy : Z) : Z := doy - (153 * ((5 * doy + 2) / 153) + 2) / 5 + 1.
Definition date_at (q y doy : Z) : Z * Z * Z := (y + 400 * q + (if month_of doy <=? 2 then 1 else 0), month_of doy, day_of doy).
Lemma civil_at q y doy : 0 <= y < 400 -> 0 <= doy < len y -> civil (q * 146097 + start y + doy - 719468) = date_at q y doy.
Proof.
  intros HY HD. pose proof (start_bound y HY) as [B1 B2].
  unfold civil. replace (q * 146097 + start y + doy - 719468 + 719468) with (start y + doy + q * 146097) by ring.
  rewrite Z_mod_plus_full, Z.div_add by lia. rewrite (Z.mod_small (start y + doy)), (Z.div_small (start y + doy) 146097) by lia. cbv zeta.
  change (start y + doy - (start y + doy) / 1460 + (start y + doy) / 36524 - (start y + doy) / 146096) with (year_part (start y + doy)).
  rewrite (year_found y) by lia. fold (start y). replace (start y + doy - start y) with doy by ring. reflexivity.
Qed.
Lemma civil_split n : exists q y doy, 0 <= y < 400 /\ 0 <= doy < len y /\ n = q * 146097 + start y + doy - 719468.
Proof.
  set (z := n + 719468). pose proof (Z.div_mod z 146097 ltac:(lia)) as D. pose proof (Z.mod_pos_bound z 146097 ltac:(lia)) as M.
  destruct (day_in_year _ M) as (y & HY & HD). exists (z / 146097), y, (z mod 146097 - start y). split; [exact HY|]. split; [lia|]. subst z. lia.
Qed.

(** Months other than February. *)
Definition plain_days (m : Z) : Z := if existsb (Z.eqb m) [4; 6; 9; 11] then 30 else 31.
Definition doy_ok (doy : Z) : bool :=
  let m := month_of doy in let d := day_of doy in let m' := month_of (doy + 1) in let d' := day_of (doy + 1) in
  if m =? 2 then (m' =? 2) && (d' =? d + 1) && (1 <=? d) && (d <? 28)
  else (1 <=? m) && (m <=? 12) && (1 <=? d) &&
       (if d <? plain_days m then (m' =? m) && (d' =? d + 1)
        else (d =? plain_days m) && (d' =? 1) && (if m <? 12 then (m' =? m + 1) && negb (m' =? 2) || (m =? 1) && (m' =? 2) else m' =? 1)).
Lemma doys_ok doy : 0 <= doy <= 363 -> doy_ok doy = true.
Proof.
  intros H. assert (A : forallb (fun i => doy_ok (Z.of_nat i)) (seq 0 364) = true) by (vm_compute; reflexivity).
  rewrite forallb_forall in A. rewrite <- (Z2Nat.id doy) by lia. apply A. apply in_seq. lia.
Qed.
Lemma leap_period y k : leap (y + 400 * k) = leap y.
Proof.
  unfold leap. replace ((y + 400 * k) mod 4) with (y mod 4). 2:{ replace (y + 400 * k) with (y + (100 * k) * 4) by ring. now rewrite Z_mod_plus_full. }
  replace ((y + 400 * k) mod 100) with (y mod 100). 2:{ replace (y + 400 * k) with (y + (4 * k) * 100) by ring. now rewrite Z_mod_plus_full. }
  replace ((y + 400 * k) mod 400) with (y mod 400). 2:{ replace (y + 400 * k) with (y + k * 400) by ring. now rewrite Z_mod_plus_full. }
  reflexivity.
Qed.
Lemma days_plain y m : m <> 2 -> month_days y m = plain_days m.
Proof. intros H. unfold month_days, plain_days. now replace (m =? 2) with false by lia. Qed.

Lemma next_in_year q y doy : 0 <= doy <= 363 -> next_day (date_at q y doy) = date_at q y (doy + 1) /\ valid_date (date_at q y doy).
Proof.
  intros H. pose proof (doys_ok doy H) as K. unfold doy_ok in K. cbv zeta in K. unfold date_at, next_day, valid_date.
  set (m := month_of doy) in *. set (d := day_of doy) in *. set (m' := month_of (doy + 1)) in *. set (d' := day_of (doy + 1)) in *. clearbody m d m' d'.
  destruct (Z.eqb_spec m 2) as [->|N].
  - apply andb_prop in K as [K K4]. apply andb_prop in K as [K K3]. apply andb_prop in K as [K1 K2]. apply Z.eqb_eq in K1, K2. subst m' d'.
    assert (ML : 28 <= month_days (y + 400 * q + (if 2 <=? 2 then 1 else 0)) 2) by (unfold month_days; change (2 =? 2) with true; cbv iota; destruct (leap _); lia).
    replace (d <? _) with true by lia. split; [reflexivity|lia].
  - apply andb_prop in K as [K K4]. apply andb_prop in K as [K K3]. apply andb_prop in K as [K1 K2]. rewrite days_plain by exact N.
    destruct (Z.ltb_spec d (plain_days m)).
    + apply andb_prop in K4 as [K4 K5]. apply Z.eqb_eq in K4, K5. subst m' d'. split; [reflexivity|]. lia.
    + apply andb_prop in K4 as [K4 K5]. apply andb_prop in K4 as [K4 K6]. apply Z.eqb_eq in K4, K6. subst d'. split; [|lia].
      destruct (Z.ltb_spec m 12).
      * assert (E : m' = m + 1 /\ (m + 1 <> 2 \/ m = 1)) by lia. destruct E as [-> E]. f_equal. f_equal. destruct (Z.leb_spec m 2), (Z.leb_spec (m + 1) 2); lia.
      * apply Z.eqb_eq in K5. subst m'. assert (m = 12) as -> by lia. f_equal. f_equal. change (12 <=? 2) with false. change (1 <=? 2) with true. cbv iota. ring.
Qed.

Lemma date_era q : date_at (q + 1) 0 0 = date_at q 400 0.
Proof. unfold date_at. f_equal. f_equal. ring. Qed.
Lemma feb_days q y : 0 <= y < 400 -> month_days (y + 400 * q + 1) 2 = len y - 337.
Proof.
  intros H. unfold month_days. change (2 =? 2) with true. cbv iota. replace (y + 400 * q + 1) with (y + 1 + 400 * q) by ring. rewrite leap_period.
  pose proof (years_ok y H) as Y. unfold year_ok in Y. apply andb_prop in Y as [_ Y]. destruct (leap (y + 1)); lia.
Qed.
(** The last days of February. *)
Lemma next_february q y doy : 0 <= y < 400 -> 364 <= doy < len y ->
  next_day (date_at q y doy) = (if doy =? len y - 1 then date_at q (y + 1) 0 else date_at q y (doy + 1)) /\ valid_date (date_at q y doy).
Proof.
  intros HY HD. pose proof (len_bounds y HY) as L. pose proof (feb_days q y HY) as F.
  assert (E : doy = 364 \/ doy = 365) by lia. unfold next_day, valid_date.
  assert (D4 : date_at q y 364 = (y + 400 * q + 1, 2, 28)) by reflexivity. assert (D5 : date_at q y 365 = (y + 400 * q + 1, 2, 29)) by reflexivity.
  assert (D0 : date_at q (y + 1) 0 = (y + 1 + 400 * q + 0, 3, 1)) by reflexivity.
  destruct E as [-> | ->].
  - rewrite D4, F. split; [|lia]. change (364 + 1) with 365. rewrite D5, D0. destruct L as [-> | ->]; [|reflexivity].
    change (28 <? 365 - 337) with false. change (2 <? 12) with true. change (364 =? 365 - 1) with true. cbv iota. f_equal. f_equal. ring.
  - rewrite D5, F. assert (len y = 366) as -> by lia. split; [|lia]. rewrite D0. change (29 <? 366 - 337) with false. change (2 <? 12) with true. change (365 =? 366 - 1) with true. cbv iota. f_equal. f_equal. ring.
Qed.

Lemma civil_next n : next_day (civil n) = civil (n + 1) /\ valid_date (civil n).
Proof.
  destruct (civil_split n) as (q & y & doy & HY & HD & ->). rewrite (civil_at q y doy HY HD). pose proof (len_bounds y HY) as L.
  assert (NX : civil (q * 146097 + start y + doy - 719468 + 1) = if doy =? len y - 1 then date_at q (y + 1) 0 else date_at q y (doy + 1)).
  { destruct (Z.eqb_spec doy (len y - 1)) as [E|E].
    - destruct (Z.eq_dec y 399) as [->|N].
      + replace (q * 146097 + start 399 + doy - 719468 + 1) with ((q + 1) * 146097 + start 0 + 0 - 719468).
        * rewrite civil_at by (split; [lia|reflexivity]). apply date_era.
        * rewrite E. change (len 399) with 366. change (start 399) with 145731. change (start 0) with 0. ring.
      + replace (q * 146097 + start y + doy - 719468 + 1) with (q * 146097 + start (y + 1) + 0 - 719468).
        * apply civil_at; [lia|]. pose proof (len_bounds (y + 1) ltac:(lia)). lia.
        * pose proof (start_next y) as S. replace (y =? 399) with false in S by lia. lia.
    - replace (q * 146097 + start y + doy - 719468 + 1) with (q * 146097 + start y + (doy + 1) - 719468) by ring. apply civil_at; lia. }
  rewrite NX. destruct (Z.le_gt_cases doy 363).
  - replace (doy =? len y - 1) with false by lia. apply next_in_year. lia.
  - apply next_february; lia.
Qed.

Lemma civil_date n : date_of n (civil n).
Proof.
  assert (UP : forall k : nat, date_of (Z.of_nat k) (civil (Z.of_nat k))).
  { induction k as [|k IH]; [apply date_epoch|]. rewrite Nat2Z.inj_succ. unfold Z.succ. rewrite <- (proj1 (civil_next (Z.of_nat k))). now apply date_next. }
  assert (DOWN : forall k : nat, date_of (- Z.of_nat k) (civil (- Z.of_nat k))).
  { induction k as [|k IH]; [apply date_epoch|]. rewrite Nat2Z.inj_succ. replace (- Z.succ (Z.of_nat k)) with (- Z.of_nat k - 1) by lia.
    apply date_prev; [apply civil_next|]. rewrite (proj1 (civil_next _)). replace (- Z.of_nat k - 1 + 1) with (- Z.of_nat k) by lia. exact IH. }
  destruct (Z.le_gt_cases 0 n).
  - rewrite <- (Z2Nat.id n) by assumption. apply UP.
  - replace n with (- Z.of_nat (Z.to_nat (- n))) by (rewrite Z2Nat.id; lia). apply DOWN.
Qed.

Ltac Zify.zify_post_hook ::= Z.div_mod_to_equations.
(** Years from 1 to 9999 fit in 16 bits. *)
Lemma civil_year n : -719162 <= n <= 2932896 -> let '(y, _, _) := civil n in -2 ^ 15 <= y < 2 ^ 15.
Proof.
  intros H. unfold civil. cbv zeta. set (z := n + 719468). set (doe := z mod 146097).
  pose proof (Z.mod_pos_bound z 146097 ltac:(lia)) as B. fold doe in B. assert (Q : 0 <= z / 146097 <= 24) by (subst z; clear doe B; lia).
  set (q := z / 146097) in *. clearbody q. change (2 ^ 15) with 32768.
  set (yoe := (doe - doe / 1460 + doe / 36524 - doe / 146096) / 365).
  assert (Y : 0 <= yoe <= 401) by (subst yoe; lia). clearbody yoe. destruct (_ <=? 2); lia.
Qed.
Ltac Zify.zify_post_hook ::= idtac.

(** The date of a day is unique: [next_day] is injective on valid dates. *)
Lemma valid_next t : valid_date t -> valid_date (next_day t).
Proof.
  destruct t as [[y m] d]. unfold valid_date, next_day. intros [HM HD].
  assert (MB : forall y' m', 28 <= month_days y' m') by (intros y' m'; unfold month_days; destruct (m' =? 2), (leap y'), (existsb (Z.eqb m') [4; 6; 9; 11]); lia).
  destruct (Z.ltb_spec d (month_days y m)); [lia|]. destruct (Z.ltb_spec m 12).
  - pose proof (MB y (m + 1)). lia.
  - pose proof (MB (y + 1) 1). lia.
Qed.
Lemma date_valid n t : date_of n t -> valid_date t.
Proof. induction 1; [cbn; lia|now apply valid_next|assumption]. Qed.
Lemma next_inj s t : valid_date s -> valid_date t -> next_day s = next_day t -> s = t.
Proof.
  destruct s as [[y m] d], t as [[y' m'] d']. unfold valid_date, next_day. intros [HM HD] [HM' HD'] H.
  destruct (Z.ltb_spec d (month_days y m)); destruct (Z.ltb_spec d' (month_days y' m')).
  - injection H as -> -> H. f_equal. lia.
  - destruct (Z.ltb_spec m' 12); injection H; intros; lia.
  - destruct (Z.ltb_spec m 12); injection H; intros; lia.
  - destruct (Z.ltb_spec m 12); destruct (Z.ltb_spec m' 12); injection H; intros; try lia.
    + subst y'. assert (m = m') by lia. subst m'. f_equal. lia.
    + assert (y = y') by lia. assert (m = m') by lia. subst. f_equal. lia.
Qed.
Lemma date_civil n t : date_of n t -> t = civil n.
Proof.
  induction 1 as [|n t H IH|n t V H IH]; [reflexivity|subst; apply civil_next|].
  apply next_inj; [assumption|apply civil_next|]. rewrite IH. rewrite (proj1 (civil_next _)). f_equal. lia.
Qed.
