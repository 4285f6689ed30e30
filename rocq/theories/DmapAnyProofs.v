(** Proofs for C101. *)
From Coq Require Import ZArith List Bool Lia ZifyBool ZifyNat.
From Verif Require Import Base Bytes BytesSpec BytesProofs Utf8 Utf8Proofs FloatBits DmapTypes DmapRead DmapSpec DmapReadProofs DmapFileProofs
  DmapStreamProofs DmapShapeProofs DmapBackProofs DmapAnySpec.
Import ListNotations.
Open Scope Z_scope.

Lemma last_bytes (buf : bytes) p : p < 0 -> 0 <= zlen buf + p -> exists front tail, buf = front ++ tail /\ zlen tail = - p /\ zlen front = zlen buf + p /\ tail <> [].
Proof.
  intros P L. exists (firstn (Z.to_nat (zlen buf + p)) buf), (skipn (Z.to_nat (zlen buf + p)) buf).
  assert (T : zlen (skipn (Z.to_nat (zlen buf + p)) buf) = - p) by (unfold zlen in *; rewrite skipn_length; lia).
  split; [symmetry; apply firstn_skipn|]. split; [exact T|]. split; [unfold zlen in *; rewrite firstn_length; lia|].
  intros E. rewrite E in T. unfold zlen in T. cbn in T. lia.
Qed.

Lemma first_zero (l : bytes) : Forall (fun b => b <> 0) l \/ exists s rest, l = s ++ 0 :: rest /\ Forall (fun b => b <> 0) s.
Proof.
  induction l as [|x l IH]; [left; constructor|]. destruct (Z.eq_dec x 0) as [->|X].
  - right. exists [], l. split; [reflexivity|constructor].
  - destruct IH as [IH|(s & r & -> & IH)]; [left; now constructor|]. right. exists (x :: s), r. split; [reflexivity|now constructor].
Qed.

Lemma occurs_tail front (x rest : bytes) : occurs (front ++ x ++ rest) (zlen front) x.
Proof. exists front, rest. auto. Qed.

Lemma tail_occurs front tail (x : bytes) : occurs (front ++ tail) (zlen front) x -> exists rest, tail = x ++ rest.
Proof.
  intros (pre & post & E & L). exists post.
  assert (front = pre /\ tail = x ++ post) as [_ T]; [|exact T].
  clear - E L. revert pre L E. induction front as [|a front IH]; intros pre L E.
  - destruct pre; [auto|]. rewrite zlen_cons in L. pose proof (zlen_nonneg pre). change (zlen (@nil Z)) with 0 in L. lia.
  - destruct pre as [|b pre]; [rewrite zlen_cons in L; pose proof (zlen_nonneg front); change (zlen (@nil Z)) with 0 in L; lia|].
    rewrite !zlen_cons in L. cbn [app] in E. injection E as -> E. destruct (IH pre ltac:(lia) E) as [-> ->]. auto.
Qed.

Lemma zlen_pos (l : bytes) : l <> [] -> 0 < zlen l.
Proof. destruct l; [congruence|]. rewrite zlen_cons. pose proof (zlen_nonneg l). lia. Qed.

Section Any.
Variable buf : bytes.
Hypothesis HB : Forall is_byte buf.
Hypothesis HM : zlen buf <= ssize_max.

Lemma stands_bytes p x : stands buf p x -> Forall is_byte x.
Proof. intros [H|_ _ H]; eapply occurs_Forall; eauto. Qed.

Lemma raw_iff n p x q : (1 <= n <= 8)%nat ->
  read_data_raw buf n p = (Ok x, q) <-> stands buf p x /\ length x = n /\ q = p + Z.of_nat n.
Proof.
  intros N. destruct (Z_lt_le_dec p 0) as [P|P].
  - destruct (Z_lt_le_dec (zlen buf + p) 0) as [L|L].
    + split.
      * intros H. exfalso. unfold read_data_raw in H. inv_bind H. inv_bind H. injection H1 as <- <-.
        inv_bind H. apply lift_ok in H1 as [H1 _]. apply checks_ok in H0 as (_ & _ & ->). rewrite unpack_beyond in H1 by lia. discriminate H1.
      * intros (S & _ & _). exfalso. destruct S as [O|_ _ O]; apply occurs_bounds in O; lia.
    + destruct (last_bytes buf p P L) as (front & tail & E & T & F & NE). unfold ssize_max in HM.
      assert (ZB : zlen buf = zlen front + zlen tail) by (rewrite E; apply zlen_app).
      destruct (Z_lt_le_dec (zlen buf - p) (Z.of_nat n)) as [R|R].
      { split.
        - rewrite raw_aligned by lia. discriminate.
        - intros (S & LX & _). exfalso. destruct S as [O|_ C O]; apply occurs_bounds in O; unfold zlen in *; lia. }
      destruct (raw_back front tail n NE ltac:(lia) ltac:(lia) N) as [R1 R2]; [rewrite zlen_app; lia|].
      rewrite <- E, T in R1, R2. replace (- - p) with p in R1, R2 by lia. split.
      * intros H. destruct (Z_lt_le_dec (- p) (Z.of_nat n)) as [S|S]; [rewrite (R2 S) in H; discriminate H|].
        destruct (R1 S) as [R' _]. rewrite R' in H. injection H as <- <-.
        assert (LX : length (firstn n tail) = n) by (rewrite firstn_length; unfold zlen in *; lia).
        split; [|split; [exact LX|lia]]. apply st_back; [exact P|unfold zlen; rewrite LX; lia|].
        rewrite <- F. rewrite E at 1. rewrite <- (firstn_skipn n tail) at 1. apply occurs_tail.
      * intros (S & LX & ->). destruct S as [O|_ C O]; [apply occurs_bounds in O; lia|].
        rewrite <- F in O. rewrite E in O at 1. apply tail_occurs in O as [rest ->].
        assert (S : Z.of_nat n <= - p) by (unfold zlen in C; lia). destruct (R1 S) as [R' _]. rewrite R'. f_equal; [|lia].
        f_equal. rewrite <- LX, firstn_app, Nat.sub_diag, firstn_all. cbn. apply app_nil_r.
  - split.
    + intros H. apply read_raw_ok in H as (O & LX & ->); auto. split; [now apply st_front|auto].
    + intros (S & LX & ->). destruct S as [O|C _ _]; [|lia]. apply read_raw_occ; auto. lia.
Qed.

Lemma int_iff p n q : read_data_i buf p = (Ok n, q) <-> exists bs, wire_int32 n bs /\ stands buf p bs /\ q = p + 4.
Proof.
  unfold read_data_i. split.
  - intros H. inv_bind H. injection H as <- <-. apply raw_iff in H0 as (S & L & ->); [|lia].
    exists a. split; [|auto]. apply wire_int_iff; [lia|]. split; [exact L|]. split; [now apply stands_bytes in S|reflexivity].
  - intros (bs & W & S & ->). apply wire_int_iff in W as (L & _ & ->); [|lia].
    erewrite bind_eq by (apply raw_iff; [lia|split; [exact S|split; [exact L|reflexivity]]]). reflexivity.
Qed.

Lemma char_iff p b q : read_data_c buf p = (Ok b, q) <-> stands buf p [b] /\ q = p + 1.
Proof.
  destruct (Z_lt_le_dec p 0) as [P|P].
  - destruct (Z_lt_le_dec (zlen buf + p) 0) as [L|L].
    + pose proof (char_beyond buf p ltac:(lia)) as C. cbn [read_data] in C. split.
      * intros H. exfalso. rewrite (bind_eq _ _ _ _ _ H) in C. discriminate C.
      * intros (S & _). exfalso. destruct S as [O|_ _ O]; apply occurs_bounds in O; lia.
    + destruct (last_bytes buf p P L) as (front & tail & E & T & F & NE). destruct tail as [|x tail]; [congruence|].
      pose proof (char_back front x tail) as C. rewrite <- E, T in C. replace (- - p) with p in C by lia. replace (1 - - p) with (p + 1) in C by lia. cbn [read_data] in C.
      assert (R : read_data_c buf p = (Ok x, p + 1)).
      { unfold bind in C. destruct (read_data_c buf p) as [[y|e] c]; [|discriminate C]. unfold ret in C. inversion C as [[C1 C2]]. reflexivity. }
      rewrite R. split.
      * intros H. injection H as <- <-. split; [|reflexivity]. apply st_back; [exact P|change (zlen [x]) with 1; lia|].
        rewrite <- F. rewrite E at 1. apply (occurs_tail front [x] tail).
      * intros (S & ->). destruct S as [O|_ _ O]; [apply occurs_bounds in O; lia|].
        rewrite <- F in O. rewrite E in O at 1. apply tail_occurs in O as [rest O]. cbn [app] in O. injection O as -> _. reflexivity.
  - split.
    + intros H. apply read_c_ok in H as (O & ->); auto. split; [now apply st_front|auto].
    + intros (S & ->). destruct S as [O|C _ _]; [|lia]. now apply read_c_occ.
Qed.

Lemma not_in_zero (l : bytes) : Forall (fun b => b <> 0) l <-> ~ In 0 l.
Proof. rewrite Forall_forall. split; [intros H C; now apply (H 0 C)|intros H b I ->; auto]. Qed.

Lemma split_zero (a b a' b' : bytes) : a ++ 0 :: b = a' ++ 0 :: b' -> ~ In 0 a -> ~ In 0 a' -> a = a' /\ b = b'.
Proof.
  revert a'. induction a as [|x a IH]; intros [|y a'] E N N'; cbn [app] in E.
  - injection E as ->. auto.
  - injection E as <- _. exfalso. apply N'. now left.
  - injection E as -> _. exfalso. apply N. now left.
  - injection E as -> E. destruct (IH a' E) as [-> ->]; [intros C; apply N; now right|intros C; apply N'; now right|auto].
Qed.

Lemma text_iff p s q : read_data_s buf p = (Ok s, q) <-> text_at buf p s q.
Proof.
  assert (HV : forall r c, read_data buf Fs p = (r, c) -> (read_data_s buf p = (Ok s, q) <-> r = Ok (VStr s) /\ c = q)).
  { intros r c H. cbn [read_data] in H. unfold bind in H. destruct (read_data_s buf p) as [[y|e] d]; unfold ret in H; injection H as <- <-.
    - split; [intros E; injection E as -> ->; auto|intros [E ->]; now injection E as ->].
    - split; [discriminate|intros [E _]; discriminate E]. }
  destruct (Z_lt_le_dec p 0) as [P|P].
  2:{ split.
      - intros H. apply read_s_ok in H as (bs & O & W & ->); auto. apply ta_plain; auto. now apply st_front.
      - intros [bs W S|e C _ _ _ _]; [|lia]. destruct S as [O|C _ _]; [|lia]. now apply read_s_occ. }
  destruct (Z_lt_le_dec (zlen buf + p) 0) as [L|L].
  { rewrite (HV _ _ (text_beyond buf p ltac:(lia))). split; [intros [C _]; discriminate C|].
    intros [bs W S|e C _ O _ _]; exfalso; [destruct S as [O|_ _ O]|]; apply occurs_bounds in O; lia. }
  destruct (last_bytes buf p P L) as (front & tail & E & T & F & NE). unfold ssize_max in HM.
  assert (ZB : zlen buf = zlen front + zlen tail) by (rewrite E; apply zlen_app). pose proof (zlen_nonneg front) as ZF.
  assert (PT : p = - zlen tail) by lia.
  (* where a text can stand *)
  assert (W1 : forall bs, wire_text s bs -> stands buf p bs -> exists e rest, utf8_enc s = Some e /\ ~ In 0 e /\ bs = e ++ [0] /\ tail = e ++ 0 :: rest).
  { intros bs (e & U & N & ->) S. destruct S as [O|_ _ O]; [apply occurs_bounds in O; lia|].
    rewrite <- F in O. rewrite E in O at 1. apply tail_occurs in O as [rest O]. exists e, rest. split; [exact U|].
    split; [now rewrite (utf8_enc_nul _ _ U)|]. split; [reflexivity|]. rewrite O, <- app_assoc. reflexivity. }
  assert (W2 : forall e, wire_text s (e ++ [0]) -> occurs buf (zlen buf + p) e -> p + zlen e = 0 -> tail = e /\ utf8_enc s = Some e /\ ~ In 0 e).
  { intros e (e' & U & N & X) O Z. apply app_inj_tail in X as [<- _].
    rewrite <- F in O. rewrite E in O at 1. apply tail_occurs in O as [rest O]. 
    assert (rest = []) as ->.
    { destruct rest as [|b rest]; [reflexivity|]. apply (f_equal zlen) in O. rewrite zlen_app, zlen_cons in O. pose proof (zlen_nonneg rest). lia. }
    rewrite app_nil_r in O. split; [exact O|]. split; [exact U|]. now rewrite (utf8_enc_nul _ _ U). }
  destruct (first_zero tail) as [NZ|(e & rest & ET & NZ)].
  - (* no zero in the last bytes *)
    assert (NZ' := proj1 (not_in_zero _) NZ).
    destruct (first_zero front) as [NF|(x & rest & EF & NF)].
    + pose proof (text_endless front tail NE ltac:(apply Forall_app; auto)) as R. rewrite <- E, <- PT in R.
      rewrite (HV _ _ R). split; [intros [C _]; discriminate C|]. intros [bs W S|e C W O Z O0]; exfalso.
      * destruct (W1 bs W S) as (e & rest & _ & _ & _ & ->). apply NZ', in_or_app. right. now left.
      * assert (ZX : Forall (fun b => b <> 0) buf) by (rewrite E; apply Forall_app; auto). 
        destruct O0 as (pre & post & EB & _). rewrite EB in ZX. apply Forall_app in ZX as [_ ZX]. inversion ZX. congruence.
    + destruct x as [|b x].
      * cbn [app] in EF. subst front. pose proof (text_to_end rest tail NE NZ ltac:(lia)) as R.
        change (0 :: rest ++ tail) with ((0 :: rest) ++ tail) in R. rewrite <- E, <- PT in R. rewrite (HV _ _ R). split.
        -- intros [H <-]. destruct (utf8_dec tail) as [t|] eqn:D; [|discriminate H]. injection H as <-.
           apply utf8_enc_dec in D. eapply (ta_round _ _ _ tail); [exact P| | |lia|].
           ++ exists tail. split; [exact D|]. split; [now rewrite <- (utf8_enc_nul _ _ D)|reflexivity].
           ++ rewrite <- F. rewrite E at 1. rewrite <- (app_nil_r tail) at 1. apply occurs_tail.
           ++ rewrite E. exists [], (rest ++ tail). auto.
        -- intros [bs W S|e C W O Z O0].
           ++ exfalso. destruct (W1 bs W S) as (e & r & _ & _ & _ & X). apply NZ'. rewrite X. apply in_or_app. right. now left.
           ++ destruct (W2 e W O Z) as (<- & U & _). rewrite (utf8_dec_enc _ _ U). auto.
      * pose proof (text_over (b :: x) rest tail NE NZ ltac:(discriminate) NF ltac:(lia)) as R.
        replace ((b :: x) ++ 0 :: rest ++ tail) with (front ++ tail) in R by (rewrite EF, <- app_assoc; reflexivity).
        rewrite <- E, <- PT in R. rewrite (HV _ _ R). split; [intros [C _]; discriminate C|]. intros [bs W S|e C W O Z O0]; exfalso.
        -- destruct (W1 bs W S) as (e & r & _ & _ & _ & X). apply NZ'. rewrite X. apply in_or_app. right. now left.
        -- destruct O0 as (pre & post & EB & Z0). destruct pre as [|? pre]; [|rewrite zlen_cons in Z0; pose proof (zlen_nonneg pre); lia].
           rewrite E, EF in EB. cbn [app] in EB. injection EB as EB _. inversion NF. congruence.
  - (* a zero among them *)
    assert (NZ' := proj1 (not_in_zero _) NZ).
    pose proof (text_back front e rest NZ) as R. rewrite <- ET in R. specialize (R ltac:(lia)). rewrite <- E, <- PT in R. rewrite (HV _ _ R). split.
    + intros [H <-]. destruct (utf8_dec e) as [t|] eqn:D; [|discriminate H]. injection H as <-.
      apply utf8_enc_dec in D. replace (zlen e + 1 - zlen tail) with (p + zlen (e ++ [0])) by (rewrite zlen_app; change (zlen [0]) with 1; lia).
      apply ta_plain.
      * exists e. split; [exact D|]. split; [now rewrite <- (utf8_enc_nul _ _ D)|reflexivity].
      * apply st_back; [exact P| |].
        -- rewrite zlen_app. change (zlen [0]) with 1. apply (f_equal zlen) in ET. rewrite zlen_app, zlen_cons in ET. pose proof (zlen_nonneg rest). lia.
        -- rewrite <- F. rewrite E at 1. rewrite ET. replace (e ++ 0 :: rest) with ((e ++ [0]) ++ rest) by (now rewrite <- app_assoc). apply occurs_tail.
    + intros [bs W S|x C W O Z O0].
      * destruct (W1 bs W S) as (x & r & U & N & -> & X). rewrite X in ET. apply split_zero in ET as [-> _]; auto.
        rewrite (utf8_dec_enc _ _ U). split; [reflexivity|]. rewrite zlen_app. change (zlen [0]) with 1. lia.
      * exfalso. destruct (W2 x W O Z) as (X & _ & N). apply N. rewrite <- X, ET. apply in_or_app. right. now left.
Qed.

Lemma sizes_iff n : forall p ns q, read_shape buf n p = (Ok ns, q) <-> sizes_at buf p ns /\ length ns = n /\ q = p + 4 * Z.of_nat n.
Proof.
  induction n as [|n IH]; intros p ns q; cbn [read_shape].
  - split.
    + intros H. injection H as <- <-. split; [constructor|]. split; [reflexivity|lia].
    + intros (S & L & ->). destruct ns; [|discriminate L]. unfold ret. f_equal. lia.
  - split.
    + intros H. inv_bind H. inv_bind H. injection H as <- <-. apply int_iff in H0 as (bs & W & S & ->).
      apply IH in H1 as (S2 & L & ->). split; [econstructor; eauto|]. split; [cbn [length]; lia|lia].
    + intros (S & L & ->). destruct S as [|p x xs bs W S1 S2]; [discriminate L|]. cbn [length] in L.
      erewrite bind_eq by (apply int_iff; exists bs; split; [exact W|split; [exact S1|reflexivity]]).
      erewrite bind_eq by (apply IH; split; [exact S2|split; [lia|reflexivity]]). unfold ret. f_equal. lia.
Qed.

Lemma elems_length f data eb : wire_list (wire_int (wire_signed f) (wire_size f)) data eb -> zlen eb = zlen data * Z.of_nat (wire_size f).
Proof. intros H. apply wire_list_int_len in H. lia. Qed.

Lemma filter_neg_one before n after : Forall (fun k => 1 <= k) (before ++ after) -> n < 0 ->
  filter (fun x => x <? 0) (before ++ n :: after) = [n] /\ filter (fun x => 0 <=? x) (before ++ n :: after) = before ++ after.
Proof.
  intros H N. apply Forall_app in H as [H1 H2].
  assert (A : forall l, Forall (fun k => 1 <= k) l -> filter (fun x => x <? 0) l = [] /\ filter (fun x => 0 <=? x) l = l).
  { intros l H. induction H as [|x l X H IH]; [auto|]. cbn [filter]. replace (x <? 0) with false by lia. replace (0 <=? x) with true by lia.
    destruct IH as [-> ->]. auto. }
  rewrite !filter_app. cbn [filter]. replace (n <? 0) with true by lia. replace (0 <=? n) with false by lia.
  destruct (A _ H1) as [-> ->], (A _ H2) as [-> ->]. auto.
Qed.

Lemma fill_one before n after v : Forall (fun k => 1 <= k) (before ++ after) -> n < 0 ->
  fill_unknown v (before ++ n :: after) = before ++ v :: after.
Proof.
  intros H N. apply Forall_app in H as [H1 H2]. unfold fill_unknown. rewrite map_app. cbn [map]. replace (n <? 0) with true by lia.
  fold (fill_unknown v before). fold (fill_unknown v after).
  rewrite !fill_nonneg; auto; (eapply Forall_impl; [|eassumption]); cbv beta; intros; lia.
Qed.

Lemma cells_iff f p dims a q : f <> Fs ->
  read_numerical_array buf dims f (product dims) p = (Ok a, q) <->
  zlen dims <= 32 /\ exists shape data, a = mk_ndarray (wire_dtype f) false shape data /\ cells_at buf f p dims shape data q.
Proof.
  intros Hf. pose proof (fmt_size_pos f) as FS. split.
  - intros HN. pose proof (array_moves _ _ _ _ _ _ _ HN) as HQ.
    unfold read_numerical_array in HN. rewrite fmt_dtype_eq in HN by auto.
    inv_bind HN. injection H as <- <-.
    inv_bindn HN as raw. apply lift_ok in H as [HF ->].
    inv_bind HN. injection H as <- <-.
    inv_bindn HN as shp'. apply lift_ok in H as [HRS ->]. injection HN as <- _. subst q.
    apply reshape_cases in HRS as (H32 & HPR & HCS); [|apply zlen_nonneg].
    split; [exact H32|]. exists shp', (map (elem_dec (wire_dtype f)) raw). split; [reflexivity|].
    destruct HCS as [(HNN & ->)|(b & m & k & aft & -> & HMM & -> & HK & HG & HNEG)].
    + pose proof (product_nonneg _ HNN) as HPN.
      apply frombuffer_ok in HF as (_ & HO5 & HFL & HFN); auto.
      apply (ca_plain _ _ _ _ _ (concat raw)); auto.
      * apply wire_elems_of_raw; auto. apply bytes_of_raw. eapply occurs_Forall; eauto.
      * rewrite zlen_map. lia.
    + assert (HS := HF). unfold frombuffer in HS.
      destruct ((product (b ++ m :: aft) <? ssize_min) || (ssize_max <? product (b ++ m :: aft))) eqn:E1; [discriminate|].
      destruct ((p <? ssize_min) || (ssize_max <? p)); [discriminate|].
      destruct ((p <? 0) || (zlen buf <? p)) eqn:E2; [discriminate|]. clear HS.
      assert (HFL : Forall (fun x => length x = fmt_size f) raw /\ exists front, buf = front ++ concat raw /\ zlen front = p).
      { unfold frombuffer in HF. rewrite E1, E2 in HF. destruct ((p <? ssize_min) || (ssize_max <? p)); [discriminate|].
        replace (product (b ++ m :: aft) <? 0) with true in HF by lia. cbv zeta in HF.
        destruct (negb _) eqn:E; [discriminate|]. injection HF as <-.
        set (kk := fmt_size f) in *. set (nn := Z.to_nat ((zlen buf - p) / Z.of_nat kk)) in *.
        assert (HL : (kk * nn = length (skipn (Z.to_nat p) buf))%nat).
        { rewrite skipn_length. unfold nn, zlen in *.
          pose proof (Z.div_pos (Z.of_nat (length buf) - p) (Z.of_nat kk) ltac:(lia) ltac:(lia)).
          assert (Z.of_nat (length buf) - p = Z.of_nat kk * ((Z.of_nat (length buf) - p) / Z.of_nat kk)).
          { apply Z_div_exact_full_2; lia. }
          nia. }
        destruct (chunks_spec kk nn (skipn (Z.to_nat p) buf)) as [H1 H2]; [lia|].
        split; auto. exists (firstn (Z.to_nat p) buf). rewrite H2, HL, firstn_all. split; [symmetry; apply firstn_skipn|].
        unfold zlen in *. rewrite firstn_length. lia. }
      destruct HFL as (HFL & front & HE & HZ). unfold ssize_min in E1.
      apply (ca_rest _ _ _ _ b m k aft _ front (concat raw)); auto; try lia.
      * apply wire_elems_of_raw; auto. apply bytes_of_raw. rewrite HE in HB. apply Forall_app in HB. tauto.
      * rewrite zlen_map. lia.
  - intros (H32 & shape & data & -> & HC). unfold read_numerical_array. rewrite fmt_dtype_eq by auto.
    unfold bind at 1, get_cursor. pose proof (wire_size_eq f) as WS.
    destruct HC as [data eb HNN HW HO HZ|before n m after data front rest HD HN HG HPB HW HE HZ HL].
    + destruct (raw_of_wire_elems _ _ _ Hf HW) as (raw & -> & HR1 & ->). rewrite zlen_map in HZ.
      erewrite bind_eq by (unfold lift; rewrite <- HZ; rewrite frombuffer_occurs; [reflexivity| | | |]; auto).
      unfold bind at 1, advance.
      erewrite bind_eq by (unfold lift; rewrite reshape_nonneg_ok; [reflexivity| | |]; auto).
      unfold ret. now rewrite WS.
    + pose proof (elems_length _ _ _ HW) as HLE.
      destruct (raw_of_wire_elems _ _ _ Hf HW) as (raw & -> & HR1 & ->). rewrite zlen_map in HL, HLE.
      pose proof (product_ge1 _ HG) as HG1. 
      assert (HNEG : product dims < 0) by (rewrite HD, product_app, product_cons; rewrite product_app in HG1; nia).
      assert (HPM : zlen raw = m * product (before ++ after)) by (etransitivity; [exact HL|rewrite !product_app, product_cons; lia]). change (zlen (A:=bytes) raw) with (zlen (A:=list Z) raw) in HLE.
      pose proof (zlen_nonneg raw) as HR0. pose proof (zlen_nonneg front) as HF0. pose proof (zlen_nonneg (concat raw)) as HC0.
      assert (ZB : zlen buf = zlen front + zlen (concat raw)) by (rewrite HE; apply zlen_app).
      unfold ssize_max in HM.
      assert (HFB : frombuffer buf (fmt_size f) (product dims) p = Ok raw).
      { unfold frombuffer, ssize_min, ssize_max.
        replace ((product dims <? - 2 ^ 63) || (2 ^ 63 - 1 <? product dims)) with false by lia.
        replace ((p <? - 2 ^ 63) || (2 ^ 63 - 1 <? p)) with false by lia.
        replace ((p <? 0) || (zlen buf <? p)) with false by lia. cbv zeta.
        replace (product dims <? 0) with true by lia.
        replace (zlen buf - p) with (zlen raw * Z.of_nat (fmt_size f)) by (rewrite <- WS; lia).
        rewrite Z_mod_mult. cbn [Z.eqb negb]. rewrite Z_div_mult by lia.
        replace (skipn (Z.to_nat p) buf) with (concat raw ++ []).
        - unfold zlen. rewrite Nat2Z.id. f_equal. now apply chunks_concat.
        - rewrite <- HZ, HE. unfold zlen. rewrite Nat2Z.id, skipn_app, Nat.sub_diag, skipn_all, app_nil_r. reflexivity. }
      erewrite bind_eq by (unfold lift; rewrite HFB; reflexivity).
      unfold bind at 1, advance.
      assert (HRS : np_reshape (zlen raw) dims = Ok (before ++ m :: after)).
      { unfold np_reshape, npy_maxdims. replace (32 <? zlen dims) with false by lia. cbv zeta. rewrite prod_product.
        rewrite HD. destruct (filter_neg_one before n after HG HN) as [-> ->].
        replace (product (before ++ after) =? 0) with false by lia. rewrite HPM, Z_mod_mult. cbn [Z.eqb].
        rewrite Z_div_mult by lia. f_equal. now apply fill_one. }
      erewrite bind_eq by (unfold lift; change (zlen (A:=bytes) raw) with (zlen (A:=list Z) raw); rewrite HRS; reflexivity).
      unfold ret. now rewrite WS.
Qed.

Lemma array_iff blk p a q : read_array buf blk p = (Ok a, q) <-> array_at buf blk p a q.
Proof.
  split.
  - intros H. unfold read_array in H.
    inv_bindn H as name. apply text_iff in H0.
    inv_bindn H as ty. apply char_iff in H1 as (HO2 & ->).
    inv_bindn H as of. apply check_data_type_ok in H1 as (HD & ->).
    inv_bindn H as dim. apply int_iff in H1 as (db & HW3 & HO3 & ->).
    inv_bind H. apply bytes_check_ok in H1 as [HC1 ->].
    inv_bind H. apply zn_check_ok in H1 as [HC2 ->].
    inv_bindn H as shp0. apply sizes_iff in H1 as (HO4 & HLs & ->).
    cbv zeta in H.
    set (shp := if 1 <? dim then rev shp0 else shp0) in *.
    assert (HR : rev shp = shp0).
    { unfold shp. destruct (1 <? dim) eqn:E; [apply rev_involutive|].
      destruct shp0 as [|x [|? ?]]; auto. cbn [length] in HLs. lia. }
    assert (HLshp : zlen shp = dim).
    { rewrite <- zlen_rev, HR. unfold zlen. lia. }
    clearbody shp.
    destruct (existsb (fun x => x <=? 0) shp && negb (str_eqb name s_slist)) eqn:EX1; [discriminate|].
    destruct (existsb (fun x => blk <=? x) shp) eqn:EX2; [discriminate|].
    inv_bind H. apply bytes_check_ok in H1 as [HC3 ->].
    inv_bind H. apply bytes_check_ok in H1 as [HC4 ->].
    destruct of as [f|]; [|discriminate].
    apply data_types_inv in HD. subst ty.
    assert (Hf : f <> Fs) by (intros ->; discriminate).
    match type of H with _ ?x = _ => set (cc := x) in * end.
    assert (H' : (do array_value <- read_numerical_array buf shp f (prod shp);
       ret (mk_darray name array_value (wire_code f) f dim shp)) cc = (Ok a, q)).
    { destruct f; try exact H. congruence. }
    clear H. rename H' into H. inv_bindn H as arr. injection H as <- <-.
    rewrite prod_product in *. cbn [opt_size] in HC4. rewrite <- wire_size_eq in HC4.
    apply cells_iff in H1 as (H32 & shape & data & -> & HC); [|exact Hf].
    rewrite <- HLshp. eapply array_at_intro; eauto.
    + rewrite HLshp. exact HW3.
    + lia.
    + lia.
    + rewrite HR. replace (c + 5) with (c + 1 + 4) by lia. exact HO4.
    + rewrite Forall_forall. intros n Hn. split.
      * destruct (str_eqb name s_slist) eqn:ES; [right; now apply str_eqb_eq|left].
        rewrite andb_true_r in EX1. destruct (Z_lt_le_dec 0 n); [lia|]. exfalso.
        rewrite <- not_true_iff_false in EX1. apply EX1. apply existsb_exists. exists n. split; auto. lia.
      * destruct (Z_lt_le_dec n blk); auto. exfalso.
        rewrite <- not_true_iff_false in EX2. apply EX2. apply existsb_exists. exists n. split; auto. lia.
    + replace (c + 5 + 4 * zlen shp) with cc; [exact HC|]. unfold cc. rewrite HLshp. lia.
  - intros H. destruct H as [name f dims shape data db p1 q HT HO2 Hf HW3 HO3 HD HDB HO4 HS HP1 HP2 HC].
    unfold read_array. erewrite bind_eq by (apply text_iff; exact HT).
    erewrite bind_eq by (apply char_iff; split; [exact HO2|reflexivity]).
    erewrite bind_eq by (unfold check_data_type; rewrite data_types_code; reflexivity).
    erewrite bind_eq by (apply int_iff; exists db; split; [exact HW3|split; [exact HO3|reflexivity]]).
    erewrite bind_eq by (apply bytes_check_pass; lia).
    erewrite bind_eq by (apply zn_check_pass; lia).
    erewrite bind_eq.
    2:{ apply sizes_iff. replace (p1 + 1 + 4) with (p1 + 5) by lia. split; [exact HO4|]. split; [|reflexivity].
        rewrite rev_length. unfold zlen. lia. }
    cbv zeta.
    replace (if 1 <? zlen dims then rev (rev dims) else rev dims) with dims.
    2:{ destruct (1 <? zlen dims) eqn:E; [symmetry; apply rev_involutive|].
        destruct dims as [|x [|? ?]]; auto. unfold zlen in E; cbn [length] in E. lia. }
    assert (EX1 : existsb (fun x => x <=? 0) dims && negb (str_eqb name s_slist) = false).
    { destruct (str_eqb name s_slist) eqn:ES; [apply andb_false_r|]. rewrite andb_true_r.
      apply not_true_is_false. intros HX. apply existsb_exists in HX as (n & Hn & Hn0).
      rewrite Forall_forall in HS. apply HS in Hn. apply str_eqb_neq in ES.
      destruct Hn as [[Hn|Hn] _]; [lia|tauto]. }
    rewrite EX1.
    assert (EX2 : existsb (fun x => blk <=? x) dims = false).
    { apply not_true_is_false. intros HX. apply existsb_exists in HX as (n & Hn & Hn0).
      rewrite Forall_forall in HS. apply HS in Hn. lia. }
    rewrite EX2, prod_product.
    erewrite bind_eq by (apply bytes_check_pass; lia).
    erewrite bind_eq by (apply bytes_check_pass; cbn [opt_size]; rewrite <- wire_size_eq; lia).
    cbv beta iota.
    replace (match f with Fs => fail DmapDataError | _ => _ end)
      with (do array_value <- read_numerical_array buf dims f (product dims);
            ret (mk_darray name array_value (wire_code f) f (zlen dims) dims))
      by (destruct f; auto; congruence).
    erewrite bind_eq.
    2:{ apply cells_iff; [exact Hf|]. split; [lia|]. exists shape, data. split; [reflexivity|].
        replace (p1 + 5 + 4 * Z.of_nat (Z.to_nat (zlen dims))) with (p1 + 5 + 4 * zlen dims) by lia. exact HC. }
    reflexivity.
Qed.

Lemma arrays_iff blk n : forall p xs q, read_arrays buf blk n p = (Ok xs, q) <-> arrays_at buf blk p xs q /\ length xs = n.
Proof.
  induction n as [|n IH]; intros p xs q; cbn [read_arrays].
  - split.
    + intros H. injection H as <- <-. split; [constructor|reflexivity].
    + intros (S & L). destruct xs; [|discriminate L]. inversion S. reflexivity.
  - split.
    + intros H. inv_bind H. inv_bind H. injection H as <- <-. apply array_iff in H0. apply IH in H1 as (S2 & L).
      split; [econstructor; eauto|cbn [length]; lia].
    + intros (S & L). destruct S as [|p a q1 aa r S1 S2]; [discriminate L|]. cbn [length] in L.
      erewrite bind_eq by (apply array_iff; exact S1).
      erewrite bind_eq by (apply IH; split; [exact S2|lia]). reflexivity.
Qed.

Lemma block_iff p fs q : 0 <= p -> read_record_fields buf p = (Ok fs, q) <-> exists sz, block_at buf p sz fs /\ q = p + sz.
Proof.
  intros H0. split.
  - intros H. unfold read_record_fields in H.
    inv_bind H. injection H1 as <- <-.
    inv_bind H. injection H1 as <- <-.
    inv_bindn H as size. apply read_i_ok in H1 as (szb & HO1 & HW1 & ->); auto; [|lia].
    inv_bind H. injection H1 as <- <-. cbv zeta in H.
    inv_bind H. apply bytes_check_ok in H1 as [HC1 ->].
    inv_bind H. apply zn_check_ok in H1 as [HC2 ->].
    inv_bindn H as ns. apply read_i_ok in H1 as (nsb & HO2 & HW2 & ->); auto; [|lia].
    inv_bindn H as na. apply read_i_ok in H1 as (nab & HO3 & HW3 & ->); auto; [|lia].
    inv_bind H. apply zn_check_ok in H1 as [HC3 ->].
    inv_bind H. apply zn_check_ok in H1 as [HC4 ->].
    inv_bind H. apply bytes_check_ok in H1 as [HC5 ->].
    pose proof (wire_int_len _ _ _ _ HW1) as HL1. pose proof (wire_int_len _ _ _ _ HW2) as HL2.
    pose proof (wire_int_len _ _ _ _ HW3) as HL3. change (Z.of_nat 4) with 4 in *.
    pose proof (occurs_bounds _ _ _ HO3) as HB3.
    inv_bindn H as ss. apply read_scalars_ok in H1 as (HLs & sb & HO4 & HW4 & ->); auto; [|lia].
    inv_bindn H as aa. inv_bind H. injection H2 as <- <-.
    destruct (negb (c - p =? size)) eqn:ESZ; [discriminate|]. injection H as <- <-.
    apply arrays_iff in H1 as (HA & HLa).
    destruct (occurs_slice buf p 4) as [HO0 HL0]; try lia.
    set (id := slice buf p 4) in *. unfold end_bytes in *.
    assert (c = p + size) as -> by lia. exists size. split; [|reflexivity].
    eapply (block_at_intro _ _ _ ss aa id szb nsb nab sb); auto.
    + rewrite !occurs_app, HL0, HL1, HL2, HL3. auto 10.
    + unfold zlen in HL0. lia.
    + replace (zlen ss) with ns by (unfold zlen; lia). auto.
    + replace (zlen aa) with na by (unfold zlen; lia). auto.
    + lia.
    + intros ->. cbn [length] in HLs. lia.
    + intros ->. cbn [length] in HLa. lia.
    + unfold zlen. lia.
    + replace (p + 16 + zlen sb) with (p + 4 + 4 + 4 + 4 + zlen sb) by lia. exact HA.
  - intros (sz & HBK & ->). destruct HBK as [ss aa ident szb nsb nab sb HO HI HSZ HNS HNA HR HSS HAA HC HS HA].
    apply occurs_app in HO as [HO0 HO]. apply occurs_app in HO as [HO1 HO].
    apply occurs_app in HO as [HO2 HO]. apply occurs_app in HO as [HO3 HO4].
    pose proof (wire_int_len _ _ _ _ HSZ) as HL1. pose proof (wire_int_len _ _ _ _ HNS) as HL2.
    pose proof (wire_int_len _ _ _ _ HNA) as HL3. change (Z.of_nat 4) with 4 in *.
    assert (HL0 : zlen ident = 4) by (unfold zlen; lia).
    rewrite HL0, ?HL1, ?HL2, ?HL3 in *.
    assert (zlen ss <> 0) by (rewrite zlen_0; auto). pose proof (zlen_nonneg ss).
    assert (zlen aa <> 0) by (rewrite zlen_0; auto). pose proof (zlen_nonneg aa).
    unfold read_record_fields. unfold bind at 1, get_cursor. unfold bind at 1, advance.
    erewrite bind_eq by (eapply read_i_occ; eauto).
    unfold bind at 1, get_cursor. cbv zeta.
    erewrite bind_eq by (apply bytes_check_pass; unfold end_bytes; lia).
    erewrite bind_eq by (apply zn_check_pass; lia).
    erewrite bind_eq by (eapply read_i_occ; eauto).
    erewrite bind_eq by (eapply read_i_occ; eauto).
    erewrite bind_eq by (apply zn_check_pass; lia).
    erewrite bind_eq by (apply zn_check_pass; lia).
    erewrite bind_eq by (apply bytes_check_pass; lia).
    erewrite bind_eq.
    2:{ replace (Z.to_nat (zlen ss)) with (length ss) by (unfold zlen; lia).
        eapply read_scalars_occ; eauto. }
    erewrite bind_eq.
    2:{ apply arrays_iff. replace (p + 4 + 4 + 4 + 4 + zlen sb) with (p + 16 + zlen sb) by lia. split; [exact HA|].
        unfold zlen. lia. }
    unfold bind, get_cursor. replace (p + sz - p =? sz) with true by lia. reflexivity.
Qed.

Lemma block_span p sz b : block_at buf p sz b -> 0 <= p /\ 0 < sz /\ p + sz <= zlen buf.
Proof. intros [ss aa ident szb nsb nab sb HO HI HSZ HNS HNA HR HSS HAA HC HS HA]. apply occurs_bounds in HO. lia. Qed.

Lemma blocks_ok fuel : forall p bl q, 0 <= p <= zlen buf -> read_blocks buf fuel p = (Ok bl, q) -> blocks_at buf p bl /\ q = zlen buf.
Proof.
  induction fuel as [|fuel IH]; intros p bl q H0 H; cbn [read_blocks] in H;
    unfold bind at 1, get_cursor, end_bytes in H; destruct (p <? zlen buf) eqn:EC; try discriminate.
  - injection H as <- <-. replace p with (zlen buf) by lia. split; [constructor|lia].
  - inv_bind H. inv_bind H. injection H as <- <-. apply block_iff in H1 as (sz & HBK & ->); [|lia].
    apply block_span in HBK as HS. apply IH in H2 as (HBS & ->); [|lia]. split; [econstructor; eauto|reflexivity].
  - injection H as <- <-. replace p with (zlen buf) by lia. split; [constructor|lia].
Qed.

Lemma blocks_back p bl : blocks_at buf p bl -> forall fuel, (Z.to_nat (zlen buf - p) < fuel)%nat -> read_blocks buf fuel p = (Ok bl, zlen buf).
Proof.
  intros H. induction H as [|p sz b bl HBK HBS IH]; intros fuel HF; (destruct fuel as [|fuel]; [lia|]);
    cbn [read_blocks]; unfold bind at 1, get_cursor, end_bytes.
  - rewrite Z.ltb_irrefl. reflexivity.
  - apply block_span in HBK as HS. replace (p <? zlen buf) with true by lia.
    erewrite bind_eq by (apply block_iff; [lia|exists sz; split; [exact HBK|reflexivity]]).
    erewrite bind_eq by (apply IH; lia). reflexivity.
Qed.

Lemma fields_iff bl : dmap_read_fields buf = Ok bl <-> bl <> [] /\ blocks_at buf 0 bl.
Proof.
  unfold dmap_read_fields. pose proof (zlen_nonneg buf). split.
  - destruct (zlen buf =? 0) eqn:E0; [discriminate|].
    destruct (read_blocks buf (S (length buf)) 0) as [[bl'|e'] c] eqn:EB; [|discriminate].
    destruct (_ <? _) eqn:EE; [discriminate|]. intros H1. injection H1 as ->.
    apply blocks_ok in EB as [HBS _]; [|lia]. split; [|exact HBS]. intros ->. inversion HBS. lia.
  - intros [HN HBS]. rewrite (blocks_back _ _ HBS) by (unfold zlen; lia). unfold end_bytes. rewrite Z.ltb_irrefl.
    inversion HBS as [E1 E2|p sz b bl' HBK HBS']; subst; [now elim HN|]. apply block_span in HBK. now replace (zlen buf =? 0) with false by lia.
Qed.
End Any.

Lemma read_any buf rs : is_bytearray buf ->
  dmap_read buf = Ok rs <-> exists bl, bl <> [] /\ blocks_at buf 0 bl /\ Forall2 dict_of_block bl rs.
Proof.
  intros [HB HM]. rewrite dmap_read_iff_trace. split; intros (bl & H).
  - destruct H as [HF HD]. apply fields_iff in HF as [HN HA]; auto. exists bl. auto.
  - destruct H as (HN & HA & HD). exists bl. split; [apply fields_iff; auto|exact HD].
Qed.

Lemma any_tame buf bl : is_bytearray buf -> nonneg_sizes bl -> blocks_at buf 0 bl <-> wire_file bl buf.
Proof.
  intros [HB HM] HN. destruct bl as [|b bl].
  - split; intros H; inversion H; subst.
    + match goal with H : zlen buf = 0 |- _ => apply zlen_0 in H; rewrite H end. constructor.
    + apply bs_end.
  - split; intros H.
    + apply fields_sound; auto. apply fields_iff; auto. split; [discriminate|exact H].
    + apply fields_complete in H; [|exact HM|discriminate]. now apply fields_iff in H.
Qed.

Lemma any_once buf bl bl' : is_bytearray buf -> blocks_at buf 0 bl -> blocks_at buf 0 bl' -> bl = bl'.
Proof.
  intros [HB HM] H H'. pose proof (blocks_back buf HB HM _ _ H (S (length buf)) ltac:(unfold zlen; lia)) as E.
  rewrite (blocks_back buf HB HM _ _ H' (S (length buf)) ltac:(unfold zlen; lia)) in E. now injection E.
Qed.
