(** Proofs for C100: a cursor before the start of the file. *)
From Coq Require Import ZArith List Bool Lia ZifyBool.
From Verif Require Import Base Bytes BytesSpec BytesProofs Utf8 FloatBits DmapTypes DmapRead DmapSpec DmapReadProofs.
Import ListNotations.
Open Scope Z_scope.

Lemma index_back front tail k b rest : tail = k ++ b :: rest ->
  py_index (front ++ tail) (zlen k - zlen tail) = Ok b.
Proof.
  intros ->. unfold py_index. rewrite !zlen_app, zlen_cons.
  pose proof (zlen_nonneg k). pose proof (zlen_nonneg rest). pose proof (zlen_nonneg front).
  replace (zlen k - (zlen k + (1 + zlen rest)) <? 0) with true by lia.
  match goal with |- (if ?c then _ else _) = _ => replace c with true by lia end.
  f_equal. replace (Z.to_nat _) with (length front + length k)%nat by (unfold zlen in *; lia).
  rewrite app_nth2 by lia. replace (length front + length k - length front)%nat with (length k) by lia.
  rewrite app_nth2 by lia. now rewrite Nat.sub_diag.
Qed.

Lemma index_front buf k b rest : buf = k ++ b :: rest -> py_index buf (zlen k) = Ok b.
Proof.
  intros ->. unfold py_index. rewrite !zlen_app, zlen_cons.
  pose proof (zlen_nonneg k). pose proof (zlen_nonneg rest).
  replace (zlen k <? 0) with false by lia.
  match goal with |- (if ?c then _ else _) = _ => replace c with true by lia end.
  f_equal. unfold zlen. rewrite Nat2Z.id. rewrite app_nth2 by lia. now rewrite Nat.sub_diag.
Qed.

Lemma index_beyond buf c : c < - zlen buf \/ zlen buf <= c -> py_index buf c = Raise IndexError.
Proof.
  intros H. unfold py_index. pose proof (zlen_nonneg buf). destruct (c <? 0) eqn:E.
  - replace ((0 <=? c + zlen buf) && _) with false by lia. reflexivity.
  - replace ((0 <=? c) && _) with false by lia. reflexivity.
Qed.

Lemma checks_back buf c n : c < 0 -> n <= 8 -> (n <= 1 \/ n <= - c \/ c + n <= zlen buf) -> read_data_checks buf n c = (Ok tt, c).
Proof.
  intros H N D. unfold read_data_checks, bind, get_cursor, end_bytes. pose proof (zlen_nonneg buf).
  replace (zlen buf <=? c) with false by lia. replace (zlen buf - c <? n) with false by lia. reflexivity.
Qed.

Lemma slice_back front tail n : 0 <= n <= zlen tail -> slice (front ++ tail) (zlen front) n = firstn (Z.to_nat n) tail.
Proof. intros H. unfold slice, zlen. rewrite Nat2Z.id, skipn_app, skipn_all, Nat.sub_diag. reflexivity. Qed.

Lemma unpack_back front tail n : tail <> [] -> zlen tail <= 2 ^ 63 -> 0 <= n ->
  (n <= zlen tail -> unpack_from (front ++ tail) (- zlen tail) n = Ok (firstn (Z.to_nat n) tail) /\
                     (zlen front <= ssize_max -> unpack_from (front ++ tail) (zlen front) n = Ok (firstn (Z.to_nat n) tail))) /\
  (zlen tail < n -> unpack_from (front ++ tail) (- zlen tail) n = Raise StructError).
Proof.
  intros T L N. unfold unpack_from. rewrite zlen_app.
  assert (0 < zlen tail) by (destruct tail; [congruence|rewrite zlen_cons; pose proof (zlen_nonneg tail); lia]).
  pose proof (zlen_nonneg front). unfold ssize_min, ssize_max.
  replace ((- zlen tail <? - 2 ^ 63) || (2 ^ 63 - 1 <? - zlen tail)) with false by lia.
  replace (- zlen tail <? 0) with true by lia. split; intros H1.
  - split.
    + replace (0 <? - zlen tail + n) with false by lia. replace (- zlen tail + (zlen front + zlen tail) <? 0) with false by lia.
      match goal with |- (if ?c then _ else _) = _ => replace c with false by lia end.
      replace (- zlen tail + (zlen front + zlen tail)) with (zlen front) by lia. f_equal. apply slice_back. lia.
    + intros F. replace ((zlen front <? - 2 ^ 63) || (2 ^ 63 - 1 <? zlen front)) with false by lia.
      replace (zlen front <? 0) with false by lia. replace (zlen front + zlen tail - zlen front <? n) with false by lia.
      f_equal. apply slice_back. lia.
  - now replace (0 <? - zlen tail + n) with true by lia.
Qed.

Lemma unpack_beyond buf c n : c < - zlen buf -> 0 <= n ->
  unpack_from buf c n = Raise (if c <? - 2 ^ 63 then OverflowError else StructError).
Proof.
  intros H N. unfold unpack_from, ssize_min, ssize_max. pose proof (zlen_nonneg buf).
  destruct (c <? - 2 ^ 63) eqn:E; cbn [orb]; [reflexivity|].
  replace (2 ^ 63 - 1 <? c) with false by lia. replace (c <? 0) with true by lia.
  destruct (0 <? c + n); [reflexivity|]. now replace (c + zlen buf <? 0) with true by lia.
Qed.

Lemma raw_back front tail n : tail <> [] -> zlen tail <= 2 ^ 63 -> zlen front < 2 ^ 63 -> (1 <= n <= 8)%nat ->
  Z.of_nat n <= zlen (front ++ tail) + zlen tail ->
  (Z.of_nat n <= zlen tail ->
     read_data_raw (front ++ tail) n (- zlen tail) = (Ok (firstn n tail), Z.of_nat n - zlen tail) /\
     read_data_raw (front ++ tail) n (zlen front) = (Ok (firstn n tail), zlen front + Z.of_nat n)) /\
  (zlen tail < Z.of_nat n -> read_data_raw (front ++ tail) n (- zlen tail) = (Raise StructError, - zlen tail)).
Proof.
  intros T L F N R.
  assert (0 < zlen tail) by (destruct tail; [congruence|rewrite zlen_cons; pose proof (zlen_nonneg tail); lia]).
  destruct (unpack_back front tail (Z.of_nat n) T L ltac:(lia)) as [U1 U2]. rewrite zlen_app in R.
  assert (C : read_data_checks (front ++ tail) (Z.of_nat n) (- zlen tail) = (Ok tt, - zlen tail)).
  { unfold read_data_checks, bind, get_cursor, end_bytes. rewrite zlen_app. pose proof (zlen_nonneg front).
    replace (zlen front + zlen tail <=? - zlen tail) with false by lia.
    now replace (zlen front + zlen tail - - zlen tail <? Z.of_nat n) with false by lia. }
  unfold read_data_raw, get_cursor, lift, advance, ret. split; intros H1.
  - destruct (U1 H1) as [V1 V2]. specialize (V2 ltac:(unfold ssize_max; lia)). rewrite Nat2Z.id in *. split.
    + unfold bind. rewrite C, V1. f_equal. lia.
    + unfold bind. unfold read_data_checks, bind, get_cursor, end_bytes. rewrite zlen_app.
      replace (zlen front + zlen tail <=? zlen front) with false by lia.
      replace (zlen front + zlen tail - zlen front <? Z.of_nat n) with false by lia. unfold ret. rewrite V2. reflexivity.
  - unfold bind. rewrite C, (U2 H1). reflexivity.
Qed.

(** Numbers. *)
Lemma number_back f front tail : f <> Fc -> f <> Fs -> tail <> [] -> zlen tail <= 2 ^ 63 -> zlen front < 2 ^ 63 ->
  Z.of_nat (wire_size f) <= zlen (front ++ tail) + zlen tail ->
  (Z.of_nat (wire_size f) <= zlen tail -> exists v,
     read_data (front ++ tail) f (zlen front) = (Ok v, zlen front + Z.of_nat (wire_size f)) /\
     read_data (front ++ tail) f (- zlen tail) = (Ok v, Z.of_nat (wire_size f) - zlen tail)) /\
  (zlen tail < Z.of_nat (wire_size f) -> read_data (front ++ tail) f (- zlen tail) = (Raise StructError, - zlen tail)).
Proof.
  intros F1 F2 T L F R.
  assert (N : (1 <= wire_size f <= 8)%nat) by (destruct f; cbn; try lia; congruence).
  destruct (raw_back front tail (wire_size f) T L F N R) as [R1 R2].
  split; intros H.
  - destruct (R1 H) as [V1 V2]. destruct f; try congruence; cbn [wire_size] in *; cbn [read_data fmt_size]; eexists;
      unfold bind; rewrite V1, V2; split; reflexivity.
  - specialize (R2 H). destruct f; try congruence; cbn [wire_size] in *; cbn [read_data fmt_size];
      unfold bind; rewrite R2; reflexivity.
Qed.

Lemma number_beyond f buf c : f <> Fc -> f <> Fs -> c < - zlen buf -> Z.of_nat (wire_size f) <= zlen buf - c ->
  read_data buf f c = (Raise (if c <? - 2 ^ 63 then OverflowError else StructError), c).
Proof.
  intros F1 F2 H R. pose proof (zlen_nonneg buf).
  assert (N : (1 <= wire_size f <= 8)%nat) by (destruct f; cbn; try lia; congruence).
  assert (W : read_data_raw buf (wire_size f) c = (Raise (if c <? - 2 ^ 63 then OverflowError else StructError), c)).
  { unfold read_data_raw, read_data_checks, end_bytes, bind, get_cursor, lift.
    replace (zlen buf <=? c) with false by lia. replace (zlen buf - c <? Z.of_nat (wire_size f)) with false by lia.
    cbn [ret]. rewrite unpack_beyond by lia. reflexivity. }
  destruct f; try congruence; cbn [wire_size] in *; cbn [read_data fmt_size]; unfold bind; rewrite W; reflexivity.
Qed.

(** Chars. *)
Lemma char_back front b tail : read_data (front ++ b :: tail) Fc (- zlen (b :: tail)) = (Ok (VInt b), 1 - zlen (b :: tail)).
Proof.
  cbn [read_data]. unfold read_data_c, bind. rewrite zlen_cons. pose proof (zlen_nonneg tail).
  rewrite checks_back by lia. unfold get_cursor, lift, advance, ret.
  pose proof (index_back front (b :: tail) [] b tail eq_refl) as E. rewrite zlen_cons in E. change (zlen (@nil Z)) with 0 in E.
  replace (- (1 + zlen tail)) with (0 - (1 + zlen tail)) by lia. rewrite E. f_equal. lia.
Qed.

Lemma char_beyond buf c : c < - zlen buf -> read_data buf Fc c = (Raise IndexError, c).
Proof.
  intros H. pose proof (zlen_nonneg buf). cbn [read_data]. unfold read_data_c, bind. rewrite checks_back by lia.
  unfold get_cursor, lift. now rewrite index_beyond by lia.
Qed.

(** Texts. *)
Lemma scan_step buf fuel c k b : py_index buf (c + k) = Ok b -> c + k < zlen buf ->
  scan_nul buf (S fuel) c k = if b =? 0 then Ok k else scan_nul buf fuel c (k + 1).
Proof.
  intros H L. cbn [scan_nul]. rewrite H. unfold end_bytes. replace (zlen buf <=? c + k) with false by lia.
  destruct (b =? 0); reflexivity.
Qed.

(** The scan within the last bytes. *)
Lemma scan_tail front s : forall fuel done rest, Forall (fun b => b <> 0) s -> (length s <= fuel)%nat ->
  scan_nul (front ++ done ++ s ++ rest) fuel (- zlen (done ++ s ++ rest)) (zlen done) =
  scan_nul (front ++ done ++ s ++ rest) (fuel - length s) (- zlen (done ++ s ++ rest)) (zlen (done ++ s)).
Proof.
  induction s as [|b s IH]; intros fuel done rest NZ FL.
  - rewrite app_nil_r. cbn [length]. now rewrite Nat.sub_0_r.
  - inversion NZ as [|? ? N1 N2]; subst. cbn [length] in FL. destruct fuel as [|fuel]; [lia|].
    rewrite (scan_step _ fuel _ _ b).
    + replace (b =? 0) with false by lia. specialize (IH fuel (done ++ [b]) rest N2 ltac:(lia)).
      replace (zlen (done ++ [b])) with (zlen done + 1) in IH by (rewrite zlen_app; reflexivity).
      rewrite <- !app_assoc in IH. cbn [app] in IH. cbn [app length]. rewrite IH. reflexivity.
    + pose proof (index_back front (done ++ (b :: s) ++ rest) done b (s ++ rest) eq_refl) as E.
      replace (- zlen (done ++ (b :: s) ++ rest) + zlen done) with (zlen done - zlen (done ++ (b :: s) ++ rest)) by lia. exact E.
    + rewrite !zlen_app, !zlen_cons. pose proof (zlen_nonneg front); pose proof (zlen_nonneg done); pose proof (zlen_nonneg s); pose proof (zlen_nonneg rest). lia.
Qed.

(** The scan that has passed the end goes on from the start. *)
Lemma scan_start s : forall fuel t done rest, Forall (fun b => b <> 0) s -> (length s <= fuel)%nat ->
  scan_nul (done ++ s ++ rest) fuel (- t) (t + zlen done) =
  scan_nul (done ++ s ++ rest) (fuel - length s) (- t) (t + zlen (done ++ s)).
Proof.
  induction s as [|b s IH]; intros fuel t done rest NZ FL.
  - rewrite app_nil_r. cbn [length]. now rewrite Nat.sub_0_r.
  - inversion NZ as [|? ? N1 N2]; subst. cbn [length] in FL. destruct fuel as [|fuel]; [lia|].
    rewrite (scan_step _ fuel _ _ b).
    + replace (b =? 0) with false by lia. specialize (IH fuel t (done ++ [b]) rest N2 ltac:(lia)).
      replace (t + zlen (done ++ [b])) with (t + zlen done + 1) in IH by (rewrite zlen_app; unfold zlen at 3; cbn [length]; lia).
      rewrite <- !app_assoc in IH. cbn [app] in IH. cbn [app length]. rewrite IH. reflexivity.
    + replace (- t + (t + zlen done)) with (zlen done) by lia. exact (index_front _ done b (s ++ rest) eq_refl).
    + rewrite !zlen_app, !zlen_cons. pose proof (zlen_nonneg done); pose proof (zlen_nonneg s); pose proof (zlen_nonneg rest). lia.
Qed.

Lemma scan_stop buf fuel c k : py_index buf (c + k) = Ok 0 -> c + k < zlen buf -> scan_nul buf (S fuel) c k = Ok k.
Proof. intros H L. now rewrite (scan_step buf fuel c k 0 H L). Qed.

Lemma text_beyond buf c : c < - zlen buf -> read_data buf Fs c = (Raise IndexError, c).
Proof.
  intros H. pose proof (zlen_nonneg buf). cbn [read_data]. unfold read_data_s, bind. rewrite checks_back by lia.
  unfold get_cursor, lift. cbn [scan_nul]. rewrite Z.add_0_r. now rewrite index_beyond by lia.
Qed.

(** What the rest of read_data_s does once the terminator is found. *)
Lemma text_found front tail k data : tail <> [] -> zlen tail <= 2 ^ 63 ->
  scan_nul (front ++ tail) (S (2 * length (front ++ tail))) (- zlen tail) 0 = Ok k -> 0 <= k <= zlen tail -> data = firstn (Z.to_nat k) tail ->
  read_data (front ++ tail) Fs (- zlen tail) =
  (match utf8_dec data with Some s => Ok (VStr s) | None => Raise UnicodeDecodeError end, k + 1 - zlen tail).
Proof.
  intros T L S K ->.
  assert (0 < zlen tail) by (destruct tail; [congruence|rewrite zlen_cons; pose proof (zlen_nonneg tail); lia]).
  pose proof (zlen_nonneg front).
  destruct (unpack_back front tail k T L ltac:(lia)) as [U1 _]. destruct (U1 ltac:(lia)) as [U _].
  assert (C : read_data_checks (front ++ tail) 1 (- zlen tail) = (Ok tt, - zlen tail)) by (apply checks_back; lia).
  cbn [read_data]. unfold read_data_s, bind. rewrite C. unfold get_cursor, lift. rewrite S. unfold bytes_check, end_bytes.
  rewrite zlen_app. replace (zlen front + zlen tail <? - zlen tail + k) with false by lia. unfold ret. rewrite U. unfold advance.
  replace (- zlen tail + (k + 1)) with (k + 1 - zlen tail) by lia. destruct (utf8_dec _); reflexivity.
Qed.

Lemma text_back front s rest : Forall (fun b => b <> 0) s -> zlen (s ++ 0 :: rest) <= 2 ^ 63 ->
  read_data (front ++ s ++ 0 :: rest) Fs (- zlen (s ++ 0 :: rest)) =
  (match utf8_dec s with Some t => Ok (VStr t) | None => Raise UnicodeDecodeError end, zlen s + 1 - zlen (s ++ 0 :: rest)).
Proof.
  intros NZ L. apply text_found; auto.
  - destruct s; discriminate.
  - pose proof (scan_tail front s (S (2 * length (front ++ s ++ 0 :: rest))) [] (0 :: rest) NZ) as E.
    cbn [app] in E. change (zlen (@nil Z)) with 0 in E. rewrite E by (rewrite !app_length; cbn [length]; lia).
    assert (exists n, (S (2 * length (front ++ s ++ 0%Z :: rest)) - length s)%nat = S n) as [n ->].
    { exists (2 * length (front ++ s ++ 0%Z :: rest) - length s)%nat. rewrite !app_length; cbn [length]; lia. }
    apply scan_stop.
    + replace (- zlen (s ++ 0 :: rest) + zlen s) with (zlen s - zlen (s ++ 0 :: rest)) by lia. apply (index_back _ _ s 0 rest). reflexivity.
    + rewrite !zlen_app, zlen_cons. pose proof (zlen_nonneg front); pose proof (zlen_nonneg s); pose proof (zlen_nonneg rest). lia.
  - rewrite zlen_app, zlen_cons. pose proof (zlen_nonneg s); pose proof (zlen_nonneg rest). lia.
  - unfold zlen. rewrite Nat2Z.id, firstn_app, firstn_all, Nat.sub_diag. cbn. now rewrite app_nil_r.
Qed.

(** The text runs to the end of the file, and the first byte of the file ends it. *)
Lemma text_to_end front tail : tail <> [] -> Forall (fun b => b <> 0) tail -> zlen tail <= 2 ^ 63 ->
  read_data (0 :: front ++ tail) Fs (- zlen tail) =
  (match utf8_dec tail with Some t => Ok (VStr t) | None => Raise UnicodeDecodeError end, 1).
Proof.
  intros T NZ L. change (0 :: front ++ tail) with ((0 :: front) ++ tail). rewrite (text_found (0 :: front) tail (zlen tail) tail); auto.
  - f_equal. lia.
  - pose proof (scan_tail (0 :: front) tail (S (2 * length ((0 :: front) ++ tail))) [] [] NZ) as E.
    cbn [app] in E. rewrite app_nil_r in E. change (zlen (@nil Z)) with 0 in E. cbn [app]. rewrite E by (cbn [length]; rewrite app_length; lia).
    assert (exists n, (S (2 * length (0%Z :: front ++ tail)) - length tail)%nat = S n) as [n ->].
    { exists (2 * length (0%Z :: front ++ tail) - length tail)%nat. cbn [length]. rewrite app_length. lia. }
    apply scan_stop.
    + replace (- zlen tail + zlen tail) with 0 by lia. apply (index_front _ [] 0 (front ++ tail)). reflexivity.
    + rewrite zlen_cons, zlen_app. pose proof (zlen_nonneg front); pose proof (zlen_nonneg tail). lia.
  - pose proof (zlen_nonneg tail). lia.
  - unfold zlen. now rewrite Nat2Z.id, firstn_all.
Qed.

(** The text runs over the end and on from the start of the file. *)
Lemma text_over s rest tail : tail <> [] -> Forall (fun b => b <> 0) tail -> s <> [] -> Forall (fun b => b <> 0) s -> zlen tail <= 2 ^ 63 ->
  read_data (s ++ 0 :: rest ++ tail) Fs (- zlen tail) = (Raise StructError, - zlen tail).
Proof.
  intros T NT S NS L.
  set (front := s ++ 0 :: rest). replace (s ++ 0 :: rest ++ tail) with (front ++ tail) by (unfold front; now rewrite <- app_assoc).
  assert (0 < zlen tail) by (destruct tail; [congruence|rewrite zlen_cons; pose proof (zlen_nonneg tail); lia]).
  assert (0 < zlen s) by (destruct s; [congruence|rewrite zlen_cons; pose proof (zlen_nonneg s); lia]).
  pose proof (zlen_nonneg rest).
  assert (LF : length front = (length s + Datatypes.S (length rest))%nat) by (unfold front; now rewrite app_length).
  assert (E : scan_nul (front ++ tail) (Datatypes.S (2 * length (front ++ tail))) (- zlen tail) 0 = Ok (zlen tail + zlen s)).
  { pose proof (scan_tail front tail (Datatypes.S (2 * length (front ++ tail))) [] [] NT) as E1.
    cbn [app] in E1. rewrite app_nil_r in E1. change (zlen (@nil Z)) with 0 in E1. rewrite E1 by (rewrite app_length; lia). clear E1.
    pose proof (scan_start s (Datatypes.S (2 * length (front ++ tail)) - length tail) (zlen tail) [] (0 :: rest ++ tail) NS) as E2.
    cbn [app] in E2. change (zlen (@nil Z)) with 0 in E2. rewrite Z.add_0_r in E2.
    replace (s ++ 0 :: rest ++ tail) with (front ++ tail) in E2 by (unfold front; now rewrite <- app_assoc).
    rewrite E2 by (rewrite app_length, LF; lia). clear E2.
    assert (exists n, (Datatypes.S (2 * length (front ++ tail)) - length tail - length s)%nat = Datatypes.S n) as [n ->].
    { exists (2 * length (front ++ tail) - length tail - length s)%nat. rewrite app_length, LF. lia. }
    apply scan_stop.
    - replace (- zlen tail + (zlen tail + zlen s)) with (zlen s) by lia. apply (index_front _ s 0 (rest ++ tail)).
      unfold front. now rewrite <- app_assoc.
    - rewrite zlen_app. unfold front. rewrite zlen_app, zlen_cons. lia. }
  destruct (unpack_back front tail (zlen tail + zlen s) T L ltac:(lia)) as [_ U]. specialize (U ltac:(lia)).
  assert (C : read_data_checks (front ++ tail) 1 (- zlen tail) = (Ok tt, - zlen tail)) by (apply checks_back; lia).
  cbn [read_data]. unfold read_data_s, bind. rewrite C. unfold get_cursor, lift. rewrite E. unfold bytes_check, end_bytes.
  rewrite zlen_app. replace (zlen front + zlen tail <? - zlen tail + (zlen tail + zlen s)) with false.
  - unfold ret. now rewrite U.
  - unfold front. rewrite zlen_app, zlen_cons. lia.
Qed.

(** No byte of the file is 0. *)
Lemma text_endless front tail : tail <> [] -> Forall (fun b => b <> 0) (front ++ tail) ->
  read_data (front ++ tail) Fs (- zlen tail) = (Raise IndexError, - zlen tail).
Proof.
  intros T NZ. pose proof NZ as NZ'. apply Forall_app in NZ' as [_ NT].
  assert (0 < zlen tail) by (destruct tail; [congruence|rewrite zlen_cons; pose proof (zlen_nonneg tail); lia]).
  pose proof (zlen_nonneg front).
  assert (E : scan_nul (front ++ tail) (S (2 * length (front ++ tail))) (- zlen tail) 0 = Raise IndexError).
  { pose proof (scan_tail front tail (S (2 * length (front ++ tail))) [] [] NT) as E1.
    cbn [app] in E1. rewrite app_nil_r in E1. change (zlen (@nil Z)) with 0 in E1. rewrite E1 by (rewrite app_length; lia). clear E1.
    pose proof (scan_start (front ++ tail) (S (2 * length (front ++ tail)) - length tail) (zlen tail) [] [] NZ) as E2.
    cbn [app] in E2. rewrite app_nil_r in E2. change (zlen (@nil Z)) with 0 in E2. rewrite Z.add_0_r in E2.
    rewrite E2 by (rewrite app_length; lia). clear E2.
    assert (exists n, (S (2 * length (front ++ tail)) - length tail - length (front ++ tail))%nat = S n) as [n ->].
    { exists (length front)%nat. rewrite app_length. lia. }
    cbn [scan_nul]. rewrite index_beyond; [reflexivity|]. lia. }
  assert (C : read_data_checks (front ++ tail) 1 (- zlen tail) = (Ok tt, - zlen tail)) by (apply checks_back; lia).
  cbn [read_data]. unfold read_data_s, bind. rewrite C. unfold get_cursor, lift. now rewrite E.
Qed.

(** Arrays. *)
Lemma array_back buf c shape f n : f <> Fs -> c < 0 -> - 2 ^ 63 <= c -> - 2 ^ 63 <= n < 2 ^ 63 ->
  read_numerical_array buf shape f n c = (Raise ValueError, c).
Proof.
  intros F C C' N. unfold read_numerical_array. destruct (fmt_dtype f) eqn:E; [|destruct f; discriminate || congruence].
  unfold bind, get_cursor, lift, frombuffer, ssize_min, ssize_max.
  replace ((n <? - 2 ^ 63) || (2 ^ 63 - 1 <? n)) with false by lia.
  replace ((c <? - 2 ^ 63) || (2 ^ 63 - 1 <? c)) with false by lia.
  now replace (c <? 0) with true by lia.
Qed.

Lemma array_count buf c shape f n : f <> Fs -> ~ (- 2 ^ 63 <= n < 2 ^ 63) \/ ~ (- 2 ^ 63 <= c < 2 ^ 63) ->
  read_numerical_array buf shape f n c = (Raise OverflowError, c).
Proof.
  intros F N. unfold read_numerical_array. destruct (fmt_dtype f) eqn:E; [|destruct f; discriminate || congruence].
  unfold bind, get_cursor, lift, frombuffer, ssize_min, ssize_max.
  destruct ((n <? - 2 ^ 63) || (2 ^ 63 - 1 <? n)) eqn:E1; [reflexivity|].
  now replace ((c <? - 2 ^ 63) || (2 ^ 63 - 1 <? c)) with true by lia.
Qed.

Lemma array_uneven buf c shape f n : f <> Fs -> 0 <= c <= zlen buf -> c < 2 ^ 63 -> - 2 ^ 63 <= n < 0 ->
  (zlen buf - c) mod Z.of_nat (wire_size f) <> 0 ->
  read_numerical_array buf shape f n c = (Raise ValueError, c).
Proof.
  intros F C C' N U. unfold read_numerical_array. destruct (fmt_dtype f) eqn:E; [|destruct f; discriminate || congruence].
  assert (S : fmt_size f = wire_size f) by (destruct f; reflexivity).
  unfold bind, get_cursor, lift, frombuffer, ssize_min, ssize_max. rewrite S.
  set (m := (zlen buf - c) mod Z.of_nat (wire_size f)) in *. clearbody m.
  replace ((n <? - 2 ^ 63) || (2 ^ 63 - 1 <? n)) with false by lia.
  replace ((c <? - 2 ^ 63) || (2 ^ 63 - 1 <? c)) with false by lia.
  replace ((c <? 0) || (zlen buf <? c)) with false by lia. replace (n <? 0) with true by lia.
  now replace (m =? 0) with false by lia.
Qed.

Lemma raw_aligned buf n c : c < zlen buf -> zlen buf - c < Z.of_nat n -> read_data_raw buf n c = (Raise CursorError, c).
Proof.
  intros H R. unfold read_data_raw, read_data_checks, end_bytes, bind, get_cursor.
  replace (zlen buf <=? c) with false by lia. now replace (zlen buf - c <? Z.of_nat n) with true by lia.
Qed.
Lemma number_aligned f buf c : f <> Fc -> f <> Fs -> c < zlen buf -> zlen buf - c < Z.of_nat (wire_size f) ->
  read_data buf f c = (Raise CursorError, c).
Proof.
  intros F1 F2 H R. pose proof (raw_aligned buf (wire_size f) c H R) as W.
  destruct f; try congruence; cbn [wire_size] in *; cbn [read_data fmt_size]; unfold bind; rewrite W; reflexivity.
Qed.

Lemma array_moves buf shape f n c a c' : read_numerical_array buf shape f n c = (Ok a, c') -> c' = c + n * Z.of_nat (wire_size f).
Proof.
  assert (S : fmt_size f = wire_size f) by (destruct f; reflexivity).
  unfold read_numerical_array. destruct (fmt_dtype f); [|discriminate]. unfold bind, get_cursor, lift, advance, ret, fail.
  rewrite S. destruct (frombuffer _ _ _ _); [|discriminate]. destruct (np_reshape _ _); [|discriminate]. intros H. now injection H as _ <-.
Qed.
