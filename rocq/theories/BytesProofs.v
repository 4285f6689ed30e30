(** Lemmas about the byte-level primitives of Bytes.v. *)
From Coq Require Import ZArith List Bool Lia ZifyBool ZifyNat.
From Verif Require Import Base Bytes BytesSpec.
Import ListNotations.
Open Scope Z_scope.
Ltac Zify.zify_post_hook ::= Z.div_mod_to_equations.

Lemma zlen_nonneg {A} (l : list A) : 0 <= zlen l.
Proof. unfold zlen; lia. Qed.

Lemma zlen_app {A} (l m : list A) : zlen (l ++ m) = zlen l + zlen m.
Proof. unfold zlen; rewrite app_length; lia. Qed.

Lemma zlen_cons {A} (x : A) l : zlen (x :: l) = 1 + zlen l.
Proof. unfold zlen; cbn [length]; lia. Qed.

Lemma zlen_nil {A} : zlen (@nil A) = 0.
Proof. reflexivity. Qed.

Lemma zlen_map {A B} (f : A -> B) l : zlen (map f l) = zlen l.
Proof. unfold zlen; now rewrite map_length. Qed.

Lemma zlen_rev {A} (l : list A) : zlen (rev l) = zlen l.
Proof. unfold zlen; now rewrite rev_length. Qed.

Lemma zlen_0 {A} (l : list A) : zlen l = 0 <-> l = [].
Proof. destruct l; unfold zlen; cbn [length]; split; intros; try discriminate; auto; lia. Qed.

Lemma str_eqb_eq a b : str_eqb a b = true <-> a = b.
Proof.
  revert b; induction a as [|x a IH]; destruct b as [|y b]; cbn [str_eqb];
    split; intros H; try discriminate; auto.
  - apply andb_true_iff in H as [H1 H2]. apply Z.eqb_eq in H1. apply IH in H2. congruence.
  - injection H as -> ->. apply andb_true_iff; split; [apply Z.eqb_refl|now apply IH].
Qed.

Lemma str_eqb_refl a : str_eqb a a = true.
Proof. now apply str_eqb_eq. Qed.

Lemma str_eqb_neq a b : str_eqb a b = false <-> a <> b.
Proof.
  rewrite <- str_eqb_eq. destruct (str_eqb a b); split; intros; congruence.
Qed.

Lemma str_eqb_sym a b : str_eqb a b = str_eqb b a.
Proof.
  destruct (str_eqb a b) eqn:E.
  - apply str_eqb_eq in E; subst; now rewrite str_eqb_refl.
  - symmetry; apply str_eqb_neq; apply str_eqb_neq in E; congruence.
Qed.

Lemma str_eq_dec (a b : pystr) : {a = b} + {a <> b}.
Proof. apply list_eq_dec, Z.eq_dec. Qed.

Lemma str_mem_In s l : str_mem s l = true <-> In s l.
Proof.
  induction l as [|x l IH]; cbn [str_mem In]; [split; [discriminate|tauto]|].
  rewrite orb_true_iff, str_eqb_eq, IH. tauto.
Qed.

(** ** Little-endian integers *)

Lemma wrap_mod_pos n : 0 < wrap_mod n.
Proof. unfold wrap_mod. apply Z.pow_pos_nonneg; lia. Qed.

Lemma wrap_mod_S n : wrap_mod (S n) = 256 * wrap_mod n.
Proof.
  unfold wrap_mod. replace (8 * Z.of_nat (S n)) with (8 + 8 * Z.of_nat n) by lia.
  rewrite Z.pow_add_r by lia. reflexivity.
Qed.

Lemma wrap_mod_even n : (0 < n)%nat -> wrap_mod n = 2 * (wrap_mod n / 2).
Proof.
  intros H. destruct n as [|n]; [lia|]. rewrite wrap_mod_S. lia.
Qed.

Lemma le_enc_length n z : length (le_enc n z) = n.
Proof. revert z; induction n; cbn [le_enc length]; auto. Qed.

Lemma zlen_le_enc n z : zlen (le_enc n z) = Z.of_nat n.
Proof. unfold zlen; now rewrite le_enc_length. Qed.

Lemma le_enc_bytes n z : Forall is_byte (le_enc n z).
Proof.
  revert z; induction n; cbn [le_enc]; constructor; auto. unfold is_byte; lia.
Qed.

Lemma le_dec_enc n z : le_dec (le_enc n z) = z mod wrap_mod n.
Proof.
  revert z; induction n; intros z; cbn [le_enc le_dec].
  - unfold wrap_mod; cbn. now rewrite Z.mod_1_r.
  - rewrite IHn, wrap_mod_S. rewrite Z.rem_mul_r by (pose proof (wrap_mod_pos n); lia). lia.
Qed.

Lemma le_dec_range bs : Forall is_byte bs -> 0 <= le_dec bs < wrap_mod (length bs).
Proof.
  induction 1 as [|b bs Hb Hbs IH]; cbn [le_dec length].
  - unfold wrap_mod; cbn; lia.
  - rewrite wrap_mod_S. unfold is_byte in Hb. lia.
Qed.

Lemma le_enc_mod n z : le_enc n (z mod wrap_mod n) = le_enc n z.
Proof.
  revert z; induction n; intros z; cbn [le_enc]; auto.
  rewrite wrap_mod_S. pose proof (wrap_mod_pos n).
  rewrite Z.rem_mul_r by lia. f_equal.
  - generalize (z / 256 mod wrap_mod n); intros; lia.
  - replace ((z mod 256 + 256 * (z / 256 mod wrap_mod n)) / 256)
      with (z / 256 mod wrap_mod n) by lia.
    apply IHn.
Qed.

Lemma le_enc_dec bs : Forall is_byte bs -> le_enc (length bs) (le_dec bs) = bs.
Proof.
  induction 1 as [|b bs Hb Hbs IH]; cbn [le_dec length le_enc]; auto.
  unfold is_byte in Hb. f_equal; [lia|].
  replace ((b + 256 * le_dec bs) / 256) with (le_dec bs) by lia. exact IH.
Qed.

Lemma le_dec_inj a b :
  length a = length b -> Forall is_byte a -> Forall is_byte b ->
  le_dec a = le_dec b -> a = b.
Proof.
  intros HL Ha Hb E. rewrite <- (le_enc_dec a Ha), <- (le_enc_dec b Hb). congruence.
Qed.

Lemma to_signed_mod n u :
  (0 < n)%nat -> 0 <= u < wrap_mod n -> (to_signed n u) mod wrap_mod n = u.
Proof.
  intros Hn H. unfold to_signed. destruct (u <? wrap_mod n / 2).
  - now apply Z.mod_small.
  - replace (u - wrap_mod n) with (u + (-1) * wrap_mod n) by lia.
    rewrite Z.mod_add by lia. now apply Z.mod_small.
Qed.

Lemma to_signed_range n u :
  (0 < n)%nat -> 0 <= u < wrap_mod n -> int_min true n <= to_signed n u <= int_max true n.
Proof.
  intros Hn H. pose proof (wrap_mod_even n Hn). unfold to_signed, int_min, int_max.
  destruct (u <? wrap_mod n / 2) eqn:E; lia.
Qed.

Lemma to_signed_of_range n z :
  (0 < n)%nat -> int_min true n <= z <= int_max true n -> to_signed n (z mod wrap_mod n) = z.
Proof.
  intros Hn H. pose proof (wrap_mod_even n Hn) as HE. unfold int_min, int_max in H.
  pose proof (wrap_mod_pos n) as HP. set (w := wrap_mod n) in *.
  unfold to_signed. fold w.
  destruct (Z_lt_le_dec z 0).
  - assert (HM : z mod w = z + w).
    { symmetry; apply Z.mod_unique with (q := -1); lia. }
    rewrite HM. destruct (z + w <? w / 2) eqn:E; lia.
  - rewrite Z.mod_small by lia. destruct (z <? w / 2) eqn:E; lia.
Qed.

Lemma unpack_pack s n v bs :
  (0 < n)%nat -> pack_int s n v = Ok bs -> unpack_int s n bs = v.
Proof.
  unfold pack_int. destruct ((int_min s n <=? v) && (v <=? int_max s n)) eqn:E; [|discriminate].
  intros Hn [= <-]. unfold unpack_int. rewrite le_dec_enc. destruct s.
  - apply to_signed_of_range; auto. lia.
  - unfold int_min, int_max in E. apply Z.mod_small. lia.
Qed.

Lemma unpack_int_range s n bs :
  (0 < n)%nat -> length bs = n -> Forall is_byte bs ->
  int_min s n <= unpack_int s n bs <= int_max s n.
Proof.
  intros Hn HL HB. pose proof (le_dec_range bs HB) as HR. rewrite HL in HR.
  unfold unpack_int. destruct s.
  - now apply to_signed_range.
  - unfold int_min, int_max; lia.
Qed.

Lemma pack_unpack s n bs :
  (0 < n)%nat -> length bs = n -> Forall is_byte bs ->
  pack_int s n (unpack_int s n bs) = Ok bs.
Proof.
  intros Hn HL HB. unfold pack_int.
  pose proof (unpack_int_range s n bs Hn HL HB).
  replace ((int_min s n <=? unpack_int s n bs) && (unpack_int s n bs <=? int_max s n))
    with true by lia.
  f_equal. rewrite <- le_enc_mod.
  pose proof (le_dec_range bs HB) as HR. rewrite HL in HR.
  assert (E : unpack_int s n bs mod wrap_mod n = le_dec bs).
  { unfold unpack_int. destruct s; [now apply to_signed_mod|now apply Z.mod_small]. }
  rewrite E, <- HL. now apply le_enc_dec.
Qed.

Lemma pack_int_inv s n v bs :
  pack_int s n v = Ok bs -> bs = le_enc n v /\ int_min s n <= v <= int_max s n.
Proof.
  unfold pack_int. destruct ((int_min s n <=? v) && (v <=? int_max s n)) eqn:E; [|discriminate].
  intros [= <-]. split; auto. lia.
Qed.

Lemma pack_int_ok s n v :
  int_min s n <= v <= int_max s n -> pack_int s n v = Ok (le_enc n v).
Proof.
  intros H. unfold pack_int.
  replace ((int_min s n <=? v) && (v <=? int_max s n)) with true by lia. reflexivity.
Qed.

Lemma int32_range z : int_min true 4 <= z <= int_max true 4 <-> - 2 ^ 31 <= z < 2 ^ 31.
Proof. unfold int_min, int_max, wrap_mod. cbn. lia. Qed.

(** ** Occurrences of a byte string at a position *)

Lemma occurs_bounds buf c x : occurs buf c x -> 0 <= c /\ c + zlen x <= zlen buf.
Proof.
  intros (pre & post & -> & <-). rewrite !zlen_app.
  pose proof (zlen_nonneg pre). pose proof (zlen_nonneg post). lia.
Qed.

Lemma app_eq_len {A} (a b c d : list A) :
  length a = length c -> a ++ b = c ++ d -> a = c /\ b = d.
Proof.
  revert c; induction a as [|x a IH]; destruct c as [|y c]; cbn [length app]; intros HL E;
    try lia; auto.
  injection E as -> E. injection HL as HL. destruct (IH _ HL E) as [-> ->]. auto.
Qed.

Lemma occurs_app buf c x y :
  occurs buf c (x ++ y) <-> occurs buf c x /\ occurs buf (c + zlen x) y.
Proof.
  split.
  - intros (pre & post & -> & <-). split.
    + exists pre, (y ++ post). split; auto. now rewrite <- app_assoc.
    + exists (pre ++ x), post. split; [now rewrite <- !app_assoc|apply zlen_app].
  - intros [(pre & post & E1 & <-) (pre' & post' & E2 & HL)].
    exists pre, post'. split; auto.
    rewrite E1 in E2. rewrite app_assoc in E2. rewrite <- app_assoc.
    apply app_eq_len in E2 as [E2 E3].
    + subst. reflexivity.
    + unfold zlen in HL. rewrite app_length. lia.
Qed.

Lemma occurs_nil buf c : 0 <= c <= zlen buf -> occurs buf c [].
Proof.
  intros H. exists (firstn (Z.to_nat c) buf), (skipn (Z.to_nat c) buf). cbn [app].
  rewrite firstn_skipn. split; auto. unfold zlen in *. rewrite firstn_length. lia.
Qed.

Lemma occurs_all buf : occurs buf 0 buf.
Proof. exists [], []. rewrite app_nil_r. auto. Qed.

Lemma occurs_full buf x : occurs buf 0 x -> zlen x = zlen buf -> x = buf.
Proof.
  intros (pre & post & -> & H) HL. apply zlen_0 in H. subst. cbn [app] in *.
  rewrite zlen_app in HL. assert (zlen post = 0) by lia. apply zlen_0 in H. subst.
  now rewrite app_nil_r.
Qed.

Lemma occurs_slice buf c n :
  0 <= c -> 0 <= n -> c + n <= zlen buf ->
  occurs buf c (slice buf c n) /\ zlen (slice buf c n) = n.
Proof.
  intros H1 H2 H3. split.
  - exists (firstn (Z.to_nat c) buf), (skipn (Z.to_nat n) (skipn (Z.to_nat c) buf)).
    unfold slice. rewrite !firstn_skipn. split; auto.
    unfold zlen in *. rewrite firstn_length. lia.
  - unfold slice, zlen in *. rewrite firstn_length, skipn_length. lia.
Qed.

Lemma occurs_eq buf c x y : occurs buf c x -> occurs buf c y -> zlen x = zlen y -> x = y.
Proof.
  intros (pre & post & E1 & H1) (pre' & post' & E2 & H2) HL.
  rewrite E1 in E2. apply app_eq_len in E2 as [-> E2]; [|unfold zlen in *; lia].
  apply app_eq_len in E2 as [-> _]; auto. unfold zlen in *; lia.
Qed.

Lemma slice_occurs buf c x : occurs buf c x -> slice buf c (zlen x) = x.
Proof.
  intros H. pose proof (occurs_bounds _ _ _ H). pose proof (zlen_nonneg x).
  destruct (occurs_slice buf c (zlen x)) as [HO HL]; try lia.
  eapply occurs_eq; eauto.
Qed.

Lemma occurs_Forall {P : Z -> Prop} buf c x : Forall P buf -> occurs buf c x -> Forall P x.
Proof.
  intros H (pre & post & -> & _). apply Forall_app in H as [_ H]. now apply Forall_app in H.
Qed.

Lemma occurs_prefix buf c x y : occurs buf c (x ++ y) -> occurs buf c x.
Proof. intros H; now apply occurs_app in H. Qed.

Lemma occurs_shift A buf c x : occurs buf c x -> occurs (A ++ buf) (zlen A + c) x.
Proof.
  intros (pre & post & -> & <-). exists (A ++ pre), post. split.
  - now rewrite <- app_assoc.
  - apply zlen_app.
Qed.

Lemma occurs_extend B buf c x : occurs buf c x -> occurs (buf ++ B) c x.
Proof.
  intros (pre & post & -> & <-). exists pre, (post ++ B). split; auto.
  now rewrite <- !app_assoc.
Qed.

Lemma occurs_in_prefix A B c x :
  occurs (A ++ B) c x -> c + zlen x <= zlen A -> occurs A c x.
Proof.
  intros H HL. pose proof (occurs_bounds _ _ _ H) as [H0 _]. pose proof (zlen_nonneg x).
  destruct (occurs_slice A c (zlen x)) as [HO HL']; try lia.
  assert (x = slice A c (zlen x)) as ->; auto.
  eapply occurs_eq; eauto. now apply occurs_extend.
Qed.

Lemma occurs_in_suffix A B c x :
  occurs (A ++ B) c x -> zlen A <= c -> occurs B (c - zlen A) x.
Proof.
  intros H HL. pose proof (occurs_bounds _ _ _ H) as [H0 H1]. pose proof (zlen_nonneg x).
  rewrite zlen_app in H1.
  destruct (occurs_slice B (c - zlen A) (zlen x)) as [HO HL']; try lia.
  assert (x = slice B (c - zlen A) (zlen x)) as ->; auto.
  apply occurs_shift with (A := A) in HO.
  replace (zlen A + (c - zlen A)) with c in HO by lia.
  eapply occurs_eq; eauto.
Qed.

Lemma py_index_occurs buf c b : occurs buf c [b] -> py_index buf c = Ok b.
Proof.
  intros H. pose proof (occurs_bounds _ _ _ H) as [H0 H1].
  destruct H as (pre & post & -> & <-).
  unfold py_index. rewrite !zlen_app in *. change (zlen [b]) with 1 in *.
  replace (zlen pre <? 0) with false by lia.
  pose proof (zlen_nonneg post).
  replace ((0 <=? zlen pre) && (zlen pre <? zlen pre + (1 + zlen post))) with true by lia.
  f_equal. unfold zlen. rewrite Nat2Z.id. cbn [app]. now rewrite nth_middle.
Qed.

Lemma py_index_ok buf c b : 0 <= c -> py_index buf c = Ok b -> occurs buf c [b].
Proof.
  intros H0. unfold py_index. replace (c <? 0) with false by lia.
  destruct ((0 <=? c) && (c <? zlen buf)) eqn:E; [|discriminate]. intros [= <-].
  destruct (occurs_slice buf c 1) as [HO HL]; try lia.
  destruct (slice buf c 1) as [|b [|? ?]] eqn:ES; unfold zlen in HL; cbn [length] in HL; try lia.
  replace (nth (Z.to_nat c) buf 0) with b; auto.
  destruct HO as (pre & post & -> & <-). unfold zlen. rewrite Nat2Z.id.
  cbn [app]. now rewrite nth_middle.
Qed.

Lemma py_index_byte buf c b : Forall is_byte buf -> py_index buf c = Ok b -> is_byte b.
Proof.
  unfold py_index. intros HB. generalize (if c <? 0 then c + zlen buf else c) as j. intros j.
  destruct (_ && _) eqn:E; [|discriminate]. intros [= <-].
  rewrite Forall_forall in HB. apply HB, nth_In. unfold zlen in E. lia.
Qed.

Lemma unpack_from_occurs buf c x :
  occurs buf c x -> zlen buf <= ssize_max -> unpack_from buf c (zlen x) = Ok x.
Proof.
  intros H HM. pose proof (occurs_bounds _ _ _ H) as [H0 H1].
  pose proof (zlen_nonneg x).
  unfold unpack_from. unfold ssize_min, ssize_max in *.
  replace ((c <? - 2 ^ 63) || (2 ^ 63 - 1 <? c)) with false by lia.
  replace (c <? 0) with false by lia.
  replace (zlen buf - c <? zlen x) with false by lia.
  now rewrite slice_occurs.
Qed.

Lemma unpack_from_ok buf c n x :
  0 <= c -> 0 <= n -> unpack_from buf c n = Ok x -> occurs buf c x /\ zlen x = n.
Proof.
  intros H0 Hn. unfold unpack_from.
  destruct ((c <? ssize_min) || (ssize_max <? c)); [discriminate|].
  replace (c <? 0) with false by lia.
  destruct (zlen buf - c <? n) eqn:E; [discriminate|]. intros [= <-].
  apply occurs_slice; lia.
Qed.

(** ** Cutting into equal pieces *)

Lemma chunks_concat k xs post :
  Forall (fun x => length x = k) xs ->
  chunks k (length xs) (concat xs ++ post) = xs.
Proof.
  induction 1 as [|x xs Hx Hxs IH]; cbn [length chunks concat]; auto.
  rewrite <- app_assoc.
  assert (E1 : firstn k (x ++ concat xs ++ post) = x).
  { rewrite <- Hx, firstn_app, Nat.sub_diag, firstn_all. cbn [firstn]. apply app_nil_r. }
  assert (E2 : skipn k (x ++ concat xs ++ post) = concat xs ++ post).
  { rewrite <- Hx, skipn_app, Nat.sub_diag, skipn_all. reflexivity. }
  rewrite E1, E2. f_equal. exact IH.
Qed.

Lemma chunks_length k n bs : length (chunks k n bs) = n.
Proof. revert bs; induction n; cbn [chunks length]; auto. Qed.

Lemma chunks_spec k n bs :
  (k * n <= length bs)%nat ->
  Forall (fun x => length x = k) (chunks k n bs) /\
  concat (chunks k n bs) = firstn (k * n) bs.
Proof.
  revert bs; induction n as [|n IH]; intros bs H; cbn [chunks concat].
  - rewrite Nat.mul_0_r. auto.
  - destruct (IH (skipn k bs)) as [H1 H2].
    { rewrite skipn_length. lia. }
    split.
    + constructor; auto. rewrite firstn_length. lia.
    + rewrite H2. replace (k * S n)%nat with (k + k * n)%nat by lia.
      rewrite <- (firstn_skipn k bs) at 3. rewrite firstn_app.
      rewrite firstn_firstn, firstn_length.
      replace (Nat.min (k + k * n) k) with k by lia.
      replace (k + k * n - Nat.min k (length bs))%nat with (k * n)%nat by lia.
      reflexivity.
Qed.

Lemma frombuffer_occurs buf k xs c :
  occurs buf c (concat xs) -> zlen buf <= ssize_max ->
  (0 < k)%nat -> Forall (fun x => length x = k) xs ->
  frombuffer buf k (zlen xs) c = Ok xs.
Proof.
  intros H HM Hk HF. pose proof (occurs_bounds _ _ _ H) as [H0 H1].
  assert (HLc : zlen (concat xs) = zlen xs * Z.of_nat k).
  { clear - HF. induction HF as [|x xs Hx HF IH]; cbn [concat]; auto.
    rewrite zlen_app, zlen_cons, IH. unfold zlen at 1. rewrite Hx. lia. }
  pose proof (zlen_nonneg xs).
  assert (zlen xs <= zlen xs * Z.of_nat k) by (assert (1 <= Z.of_nat k) by lia; nia).
  unfold frombuffer. unfold ssize_min, ssize_max in *.
  replace ((zlen xs <? - 2 ^ 63) || (2 ^ 63 - 1 <? zlen xs)) with false by lia.
  replace ((c <? - 2 ^ 63) || (2 ^ 63 - 1 <? c)) with false by lia.
  replace ((c <? 0) || (zlen buf <? c)) with false by lia.
  replace (zlen xs <? 0) with false by lia.
  replace (zlen buf - c <? zlen xs * Z.of_nat k) with false by lia.
  f_equal. destruct H as (pre & post & -> & <-).
  unfold zlen at 2. rewrite Nat2Z.id, skipn_app, Nat.sub_diag, skipn_all. cbn [skipn app].
  unfold zlen. rewrite Nat2Z.id. now apply chunks_concat.
Qed.

Lemma frombuffer_ok buf k count c xs :
  0 <= count -> (0 < k)%nat -> frombuffer buf k count c = Ok xs ->
  0 <= c /\ occurs buf c (concat xs) /\ Forall (fun x => length x = k) xs /\ zlen xs = count.
Proof.
  intros Hn Hk. unfold frombuffer.
  destruct ((count <? ssize_min) || (ssize_max <? count)); [discriminate|].
  destruct ((c <? ssize_min) || (ssize_max <? c)); [discriminate|].
  destruct ((c <? 0) || (zlen buf <? c)) eqn:Ec; [discriminate|].
  replace (count <? 0) with false by lia.
  destruct (zlen buf - c <? count * Z.of_nat k) eqn:E; [discriminate|]. intros [= <-].
  assert (HL : (k * Z.to_nat count <= length (skipn (Z.to_nat c) buf))%nat).
  { rewrite skipn_length. unfold zlen in *. nia. }
  destruct (chunks_spec k (Z.to_nat count) _ HL) as [H1 H2].
  split; [lia|]. split; [|split; auto].
  - rewrite H2. exists (firstn (Z.to_nat c) buf), (skipn (k * Z.to_nat count) (skipn (Z.to_nat c) buf)).
    rewrite !firstn_skipn. split; auto. unfold zlen in *. rewrite firstn_length. lia.
  - unfold zlen. rewrite chunks_length. lia.
Qed.

Lemma zlen_concat_const k (xs : list bytes) :
  Forall (fun x => length x = k) xs -> zlen (concat xs) = zlen xs * Z.of_nat k.
Proof.
  induction 1 as [|x xs Hx HF IH]; cbn [concat]; auto.
  rewrite zlen_app, zlen_cons, IH. unfold zlen at 1. rewrite Hx. lia.
Qed.
