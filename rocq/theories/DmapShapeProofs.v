(** Proofs for C79 and C80. *)
From Coq Require Import ZArith List Bool Lia ZifyBool ZifyNat.
From Verif Require Import Base Bytes BytesSpec BytesProofs DmapTypes DmapRead DmapSpec DmapReadProofs
  DmapFileProofs DmapShapeSpec.
Import ListNotations.
Open Scope Z_scope.

(** ** Splitting a list at its only negative element *)

Lemma no_negative l : filter (fun x => x <? 0) l = [] -> Forall (fun n => 0 <= n) l.
Proof.
  induction l as [|x l IH]; cbn [filter]; intros H; constructor.
  - destruct (x <? 0) eqn:E; [discriminate|lia].
  - destruct (x <? 0) eqn:E; [discriminate|auto].
Qed.

Lemma filter_nonneg l : Forall (fun n => 0 <= n) l -> filter (fun x => 0 <=? x) l = l.
Proof.
  induction 1 as [|x l Hx H IH]; cbn [filter]; auto.
  replace (0 <=? x) with true by lia. now rewrite IH.
Qed.

Lemma fill_nonneg v l : Forall (fun n => 0 <= n) l -> fill_unknown v l = l.
Proof.
  unfold fill_unknown. induction 1 as [|x l Hx H IH]; cbn [map]; auto.
  replace (x <? 0) with false by lia. now rewrite IH.
Qed.

Lemma one_negative l n : filter (fun x => x <? 0) l = [n] ->
  exists before after, l = before ++ n :: after /\ n < 0 /\
    Forall (fun n => 0 <= n) before /\ Forall (fun n => 0 <= n) after.
Proof.
  induction l as [|x l IH]; cbn [filter]; intros H; [discriminate|].
  destruct (x <? 0) eqn:E.
  - assert (x = n /\ filter (fun x => x <? 0) l = []) as [-> HN] by (split; congruence).
    exists [], l. repeat split; auto; [lia|]. now apply no_negative.
  - destruct (IH H) as (b & a & -> & HN & HB & HA). exists (x :: b), a.
    split; [reflexivity|]. split; [exact HN|]. split; auto. constructor; auto. lia.
Qed.

Lemma product_pos l : Forall (fun n => 0 <= n) l -> product l <> 0 -> Forall (fun n => 1 <= n) l.
Proof.
  induction 1 as [|x l Hx H IH]; rewrite ?product_cons; intros HP; constructor.
  - destruct (Z.eq_dec x 0) as [->|]; [lia|lia].
  - apply IH. intros E. rewrite E in HP. lia.
Qed.

Lemma product_ge1 l : Forall (fun n => 1 <= n) l -> 1 <= product l.
Proof. induction 1 as [|x l Hx H IH]; rewrite ?product_cons; [rewrite product_nil; lia|nia]. Qed.

Lemma reshape_cases n shape r : 0 <= n -> np_reshape n shape = Ok r ->
  zlen shape <= 32 /\ product r = n /\
  ((Forall (fun n => 0 <= n) shape /\ r = shape) \/
   (exists before m k after, shape = before ++ m :: after /\ m < 0 /\ r = before ++ k :: after /\ 0 <= k /\
      Forall (fun n => 1 <= n) (before ++ after) /\ product shape < 0)).
Proof.
  intros Hn. unfold np_reshape, npy_maxdims. destruct (32 <? zlen shape) eqn:E; [discriminate|].
  cbv zeta. rewrite prod_product.
  destruct (filter (fun x => x <? 0) shape) as [|m [|m' l]] eqn:EF; [| |discriminate].
  - apply no_negative in EF. rewrite filter_nonneg by auto.
    destruct (product shape =? n) eqn:EN; [|discriminate]. intros [= <-].
    split; [lia|]. split; [lia|]. left. auto.
  - apply one_negative in EF as (b & a & -> & HM & HB & HA).
    rewrite filter_app. cbn [filter]. replace (0 <=? m) with false by lia.
    rewrite !filter_nonneg by auto.
    destruct (product (b ++ a) =? 0) eqn:E0; [discriminate|].
    destruct (n mod product (b ++ a) =? 0) eqn:EM; [|discriminate].
    intros H. assert (r = b ++ (n / product (b ++ a)) :: a) as ->.
    { apply (f_equal (fun x => match x with Ok y => y | _ => [] end)) in H. cbv beta iota in H. rewrite <- H.
      unfold fill_unknown. rewrite map_app. cbn [map]. replace (m <? 0) with true by lia.
      fold (fill_unknown (n / product (b ++ a)) b). fold (fill_unknown (n / product (b ++ a)) a).
      now rewrite !fill_nonneg by auto. }
    clear H.
    assert (HP : Forall (fun n => 1 <= n) (b ++ a)).
    { apply product_pos; [apply Forall_app; auto|lia]. }
    pose proof (product_ge1 _ HP) as HG.
    split; [lia|]. split.
    { rewrite product_app, product_cons. rewrite product_app in *.
      rewrite (Z.mul_comm (n / _)), Z.mul_assoc, Z.mul_comm.
      assert (n = product b * product a * (n / (product b * product a))).
      { apply Z_div_exact_full_2; lia. }
      lia. }
    right. exists b, m, (n / product (b ++ a)), a. split; auto. split; auto. split; auto.
    split; [apply Z.div_pos; lia|]. split; auto.
    rewrite product_app, product_cons. rewrite product_app in HG. nia.
Qed.

(** ** All the bytes from a position on *)

Lemma frombuffer_rest buf k count c xs :
  count < 0 -> (0 < k)%nat -> frombuffer buf k count c = Ok xs ->
  Forall (fun x => length x = k) xs /\ exists front, buf = front ++ concat xs.
Proof.
  intros Hn Hk. unfold frombuffer.
  destruct ((count <? ssize_min) || (ssize_max <? count)); [discriminate|].
  destruct ((c <? ssize_min) || (ssize_max <? c)); [discriminate|].
  destruct ((c <? 0) || (zlen buf <? c)) eqn:Ec; [discriminate|].
  replace (count <? 0) with true by lia. cbv zeta.
  destruct (negb _) eqn:E; [discriminate|]. intros [= <-].
  set (n := Z.to_nat ((zlen buf - c) / Z.of_nat k)) in *.
  assert (HL : (k * n = length (skipn (Z.to_nat c) buf))%nat).
  { rewrite skipn_length. unfold n, zlen in *.
    pose proof (Z.div_pos (Z.of_nat (length buf) - c) (Z.of_nat k) ltac:(lia) ltac:(lia)).
    assert (Z.of_nat (length buf) - c = Z.of_nat k * ((Z.of_nat (length buf) - c) / Z.of_nat k)).
    { apply Z_div_exact_full_2; lia. }
    nia. }
  destruct (chunks_spec k n (skipn (Z.to_nat c) buf)) as [H1 H2]; [lia|].
  split; auto. exists (firstn (Z.to_nat c) buf). rewrite H2, HL, firstn_all. symmetry. apply firstn_skipn.
Qed.

Section Any.
Variable buf : bytes.
Hypothesis HB : Forall is_byte buf.

Lemma shape_length n : forall c xs c', read_shape buf n c = (Ok xs, c') -> length xs = n.
Proof.
  induction n as [|n IH]; intros c xs c' H; cbn [read_shape] in H.
  - injection H as <- <-. reflexivity.
  - inv_bind H. inv_bind H. injection H as <- <-. cbn [length]. f_equal. eauto.
Qed.

Lemma bytes_of_raw raw : Forall is_byte (concat raw) -> Forall (Forall is_byte) raw.
Proof using.
  clear buf HB. induction raw as [|x raw IH]; cbn [concat]; intros H; constructor; apply Forall_app in H; tauto.
Qed.

Lemma any_array blk c a c' : read_array buf blk c = (Ok a, c') -> array_read buf a.
Proof.
  intros H. unfold read_array in H.
  inv_bindn H as name. inv_bindn H as ty.
  inv_bindn H as of. apply check_data_type_ok in H2 as (HD & ->).
  inv_bindn H as dim.
  inv_bind H. apply bytes_check_ok in H3 as [HC1 ->].
  inv_bind H. apply zn_check_ok in H3 as [HC2 ->].
  inv_bindn H as shp0. apply shape_length in H3 as HLs.
  cbv zeta in H.
  set (shp := if 1 <? dim then rev shp0 else shp0) in *.
  assert (HLshp : zlen shp = dim).
  { unfold shp. destruct (1 <? dim); rewrite ?zlen_rev; unfold zlen; lia. }
  clearbody shp.
  destruct (existsb (fun x => x <=? 0) shp && negb (str_eqb name s_slist)) eqn:EX1; [discriminate|].
  destruct (existsb (fun x => blk <=? x) shp) eqn:EX2; [discriminate|].
  inv_bind H. apply bytes_check_ok in H4 as [HC3 ->].
  inv_bind H. apply bytes_check_ok in H4 as [HC4 ->].
  destruct of as [f|]; [|discriminate].
  apply data_types_inv in HD. subst ty.
  assert (Hf : f <> Fs) by (intros ->; discriminate).
  match type of H with _ ?x = _ => set (cc := x) in * end.
  assert (H' : (do array_value <- read_numerical_array buf shp f (prod shp);
     ret (mk_darray name array_value (wire_code f) f dim shp)) cc = (Ok a, c')).
  { destruct f; try exact H. congruence. }
  clear H. rename H' into H. inv_bindn H as arr. injection H as <- <-.
  rename H4 into HN. unfold read_numerical_array in HN. rewrite fmt_dtype_eq in HN by auto.
  inv_bind HN. injection H as <- <-.
  inv_bindn HN as raw. apply lift_ok in H as [HF ->].
  inv_bind HN. injection H as <- <-.
  inv_bindn HN as shp'. apply lift_ok in H as [HRS ->].
  injection HN as <- <-.
  rewrite prod_product in *.
  assert (HSL : name <> s_slist -> Forall (fun n => 1 <= n) shp).
  { intros HNE. rewrite Forall_forall. intros n Hin. destruct (Z_lt_le_dec 0 n); [lia|]. exfalso.
    rewrite (proj2 (str_eqb_neq _ _) HNE), andb_true_r in EX1.
    rewrite <- not_true_iff_false in EX1. apply EX1. apply existsb_exists. exists n. split; auto. lia. }
  apply reshape_cases in HRS as (H32 & HPR & HCS); [|apply zlen_nonneg].
  unfold array_read, plainly_sized, inferred_size, elements.
  cbn [ar_fmt ar_type ar_value ar_dim ar_shape ar_name nd_dtype nd_be nd_shape nd_data].
  split; auto. split; auto. split; auto. split; auto. split; auto. split; [lia|].
  split; [rewrite zlen_map; auto|].
  destruct HCS as [(HNN & ->)|(b & m & k & aft & -> & HM & -> & HK & HG & HNEG)].
  - left. split; auto. split.
    + destruct (str_eqb name s_slist) eqn:ES.
      * apply str_eqb_eq in ES. eapply Forall_impl; [|exact HNN]. cbv beta. intros n Hn.
        destruct (Z.eq_dec n 0); [right; auto|left; lia].
      * apply str_eqb_neq in ES. eapply Forall_impl; [|exact (HSL ES)]. cbv beta. auto.
    + pose proof (product_nonneg _ HNN) as HPN.
      apply frombuffer_ok in HF as (_ & HO5 & HFL & HFN); auto; [|apply fmt_size_pos].
      exists cc, (concat raw). split; auto. apply wire_elems_of_raw; auto.
      apply bytes_of_raw. eapply occurs_Forall; eauto.
  - right. split.
    + destruct (str_eqb name s_slist) eqn:ES; [now apply str_eqb_eq|].
      apply str_eqb_neq in ES. specialize (HSL ES). rewrite Forall_forall in HSL.
      specialize (HSL m ltac:(apply in_or_app; right; left; reflexivity)). lia.
    + exists b, m, k, aft. split; auto. split; auto. split; auto. split; auto. split; auto.
      apply frombuffer_rest in HF as (HFL & front & HE); auto; [|apply fmt_size_pos].
      exists front, (concat raw). split; auto. apply wire_elems_of_raw; auto.
      apply bytes_of_raw. rewrite HE in HB. apply Forall_app in HB. tauto.
Qed.

Lemma any_arrays blk n : forall c xs c', read_arrays buf blk n c = (Ok xs, c') -> Forall (array_read buf) xs.
Proof.
  induction n as [|n IH]; intros c xs c' H; cbn [read_arrays] in H.
  - injection H as <- <-. constructor.
  - inv_bind H. inv_bind H. injection H as <- <-. constructor; [eapply any_array|eapply IH]; eauto.
Qed.

Lemma any_block c fs c' : read_record_fields buf c = (Ok fs, c') -> Forall (array_read buf) (snd fs).
Proof.
  intros H. unfold read_record_fields in H.
  do 12 (inv_bind H).
  inv_bindn H as aa. inv_bind H.
  match type of H with context [if negb (?x =? ?y) then _ else _] => destruct (x =? y) end;
    cbn [negb] in H; [|discriminate].
  injection H as <- <-. cbn [snd]. eapply any_arrays; eauto.
Qed.

Lemma any_blocks : forall fuel c bl c', read_blocks buf fuel c = (Ok bl, c') ->
  Forall (fun b : block => Forall (array_read buf) (snd b)) bl.
Proof.
  induction fuel as [|fuel IH]; intros c bl c' H; cbn [read_blocks] in H;
    unfold bind at 1, get_cursor, end_bytes in H; destruct (c <? zlen buf); try discriminate;
    try (injection H as <- <-; constructor).
  inv_bind H. inv_bind H. injection H as <- <-. constructor; [eapply any_block|eapply IH]; eauto.
Qed.
End Any.

Lemma last_value_in {A} k (l : list (pystr * A)) x : last_value k l = Some x -> In (k, x) l.
Proof.
  unfold last_value.
  assert (HG : forall acc, fold_left (fun acc p => if str_eqb (fst p) k then Some (snd p) else acc) l acc = Some x ->
    acc = Some x \/ In (k, x) l).
  { induction l as [|[k' y] l IH]; cbn [fold_left fst snd]; intros acc H; [auto|].
    destruct (IH _ H) as [H1|H1]; [|right; right; exact H1].
    destruct (str_eqb k' k) eqn:E; [|left; exact H1].
    apply str_eqb_eq in E. right. left. congruence. }
  intros H. destruct (HG _ H) as [?|?]; [discriminate|assumption].
Qed.

Lemma any_file buf rs : Forall is_byte buf -> dmap_read buf = Ok rs -> forall r k a,
  In r rs -> dict_get r k = Some (IArray a) -> ar_name a = k /\ array_read buf a.
Proof.
  intros HB H r k a Hr Ha. rewrite dmap_read_trace in H. unfold dmap_read_fields in H.
  destruct (zlen buf =? 0); [discriminate|].
  destruct (read_blocks buf (S (length buf)) 0) as [[bl|e] c] eqn:EB; [|discriminate].
  destruct (end_bytes buf <? c); [discriminate|]. injection H as <-.
  apply any_blocks in EB; auto. apply in_map_iff in Hr as (b & <- & Hb).
  rewrite Forall_forall in EB. specialize (EB b Hb).
  rewrite record_get in Ha. apply last_value_in in Ha. unfold block_fields in Ha.
  apply in_app_or in Ha as [Ha|Ha]; apply in_map_iff in Ha as (x & Hx & Hin); [congruence|].
  assert (x = a) by congruence. subst x. split; [congruence|].
  rewrite Forall_forall in EB. auto.
Qed.

(** ** The integrity check after another call *)

Lemma data_i_cursor buf c r c' : read_data_i buf c = (r, c') ->
  match r with Ok _ => c' = c + 4 | Raise _ => c' = c end.
Proof.
  unfold read_data_i, read_data_raw, read_data_checks, bind, get_cursor, fail, ret, lift, advance.
  destruct (end_bytes buf <=? c); [intros [= <- <-]; reflexivity|].
  destruct (end_bytes buf - c <? _); [intros [= <- <-]; reflexivity|].
  destruct (unpack_from buf c _); intros [= <- <-]; [|reflexivity]. reflexivity.
Qed.

Lemma zn_cursor n c r c' : zero_negative_check n c = (r, c') ->
  c' = c /\ match r with Ok _ => 0 < n | Raise _ => True end.
Proof.
  unfold zero_negative_check, fail, ret.
  destruct (n =? 0) eqn:E1; [intros [= <- <-]; auto|].
  destruct (n <? 0) eqn:E2; intros [= <- <-]; split; auto. lia.
Qed.

Lemma bc_cursor a b c r c' : bytes_check a b c = (r, c') -> c' = c.
Proof. unfold bytes_check, fail, ret. destruct (b <? a); intros [= <- <-]; reflexivity. Qed.

(** Once the loop is entered the cursor is past the start. *)
Lemma loop_cursor buf : forall fuel t c r c', 0 <= c -> c < zlen buf ->
  integrity_loop buf (S fuel) t c = (r, c') -> 0 < c'.
Proof.
  induction fuel as [|fuel IH]; intros t c r c' H0 HL H; cbn [integrity_loop] in H;
    unfold bind at 1, get_cursor, end_bytes in H;
    replace (c <? zlen buf) with true in H by lia;
    unfold bind at 1, advance at 1 in H; unfold bind at 1 in H;
    destruct (read_data_i buf (c + 4)) as [[n|e1] c1] eqn:ER; apply data_i_cursor in ER; cbv iota in ER;
    try (injection H as _ <-; lia);
    unfold bind at 1 in H; destruct (zero_negative_check n c1) as [[u|e2] c2] eqn:EZ;
    apply zn_cursor in EZ as [-> EZ]; try (injection H as _ <-; lia);
    unfold bind at 1 in H; destruct (bytes_check _ _ c1) as [[v|e3] c3] eqn:EB;
    apply bc_cursor in EB; subst c3; try (injection H as _ <-; lia);
    unfold bind at 1, advance in H.
  - unfold bind, get_cursor, end_bytes in H.
    destruct (_ <? zlen buf); unfold fail, ret in H; injection H as _ <-; lia.
  - replace (c1 + (n - 2 * 4)) with (c + n) in H by lia.
    destruct (c + n <? zlen buf) eqn:EL.
    + eapply IH; [| |exact H]; lia.
    + cbn [integrity_loop] in H. unfold bind at 1, get_cursor, end_bytes in H. rewrite EL in H.
      unfold ret in H. injection H as _ <-. lia.
Qed.

Lemma check_moved r : rdr_cursor r <> 0 -> reader_integrity r = (Raise CursorError, r).
Proof.
  intros H. unfold reader_integrity, test_initial_data_integrity, bind at 1, get_cursor, fail.
  replace (rdr_cursor r =? 0) with false by lia. cbn [negb]. destruct r; reflexivity.
Qed.

Lemma check_failed buf e r' : buf <> [] ->
  reader_integrity (mk_reader buf 0 [] 0) = (Raise e, r') -> rdr_cursor r' <> 0.
Proof.
  intros HN. assert (HL : 0 < zlen buf).
  { pose proof (zlen_nonneg buf). assert (zlen buf <> 0) by (rewrite zlen_0; auto). lia. }
  unfold reader_integrity. cbn [rdr_buf rdr_cursor rdr_records rdr_rec_num].
  destruct (test_initial_data_integrity buf 0) as [x c] eqn:E.
  intros H. assert (x = Raise e) by congruence. assert (rdr_cursor r' = c) as ->.
  { apply (f_equal snd) in H. cbn [snd] in H. now subst r'. }
  subst x. clear H. unfold test_initial_data_integrity in E. unfold bind at 1, get_cursor in E.
  cbn [Z.eqb negb] in E. unfold bind at 1 in E.
  destruct (integrity_loop buf (S (length buf)) 0 0) as [[t|e1] c1] eqn:EL;
    apply loop_cursor in EL; try lia.
  - destruct (negb _); [|discriminate]. unfold fail in E. assert (c = c1) by congruence. lia.
  - assert (c = c1) by congruence. lia.
Qed.

Lemma read_cursor buf rs r' : dmap_read buf = Ok rs ->
  read_records (mk_reader buf 0 [] 0) = (Ok rs, r') -> rdr_cursor r' <> 0.
Proof.
  intros HD H. assert (HL : 0 < zlen buf).
  { unfold dmap_read, reader_new in HD. destruct (zlen buf =? 0) eqn:E; [discriminate|].
    pose proof (zlen_nonneg buf). lia. }
  unfold read_records in H. cbn [rdr_buf] in H.
  pose proof (loop_blocks (S (length buf)) (mk_reader buf 0 [] 0)) as HB.
  cbn [rdr_buf rdr_cursor rdr_records rdr_rec_num] in HB.
  destruct (read_blocks buf (S (length buf)) 0) as [[bl|e] c] eqn:EB.
  - rewrite HB in H. cbn [rdr_buf rdr_cursor rdr_records] in H.
    destruct (end_bytes buf <? c); [discriminate|].
    assert (rdr_cursor r' = c) as ->.
    { apply (f_equal snd) in H. cbn [snd] in H. now subst r'. }
    cbn [read_blocks] in EB. unfold bind at 1, get_cursor, end_bytes in EB.
    replace (0 <? zlen buf) with true in EB by lia.
    inv_bind EB. apply block_progress in H0.
    inv_bind EB. injection EB as _ <-.
    assert (G : forall fuel c bl c', read_blocks buf fuel c = (Ok bl, c') -> c <= c').
    { clear. induction fuel as [|fuel IH]; intros c bl c' H; cbn [read_blocks] in H;
        unfold bind at 1, get_cursor, end_bytes in H; destruct (c <? zlen buf); try discriminate;
        try (injection H as _ <-; lia).
      inv_bind H. inv_bind H. injection H as _ <-. apply block_progress in H0. apply IH in H1. lia. }
    apply G in H1. lia.
  - destruct HB as (recs & n & HB). rewrite HB in H. discriminate.
Qed.
