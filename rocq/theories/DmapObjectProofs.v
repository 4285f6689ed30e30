(** The writer object over several calls: text bytes, repeated writes, file
    names and files. *)
From Coq Require Import ZArith List Bool Lia ZifyBool ZifyNat.
From Verif Require Import Base Bytes BytesSpec BytesProofs Utf8 Utf8Proofs FloatBits FloatBitsProofs
  DmapTypes DmapRead DmapWrite Conversions DmapSpec DmapWriteSpec
  DmapReadProofs DmapFileProofs DmapStreamProofs DmapWriteProofs DmapWriterProofs DmapRewriteProofs
  DmapWriteFacts.
Import ListNotations.
Open Scope Z_scope.
Ltac Zify.zify_post_hook ::= Z.div_mod_to_equations.

(** ** Text *)

Lemma pack_text_spec s bs : pack_text s = Ok bs ->
  exists e, utf8_enc s = Some e /\ bs = firstn (S (length s)) (e ++ [0]).
Proof.
  unfold pack_text. rewrite utf8_enc_app. destruct (utf8_enc s) as [e|] eqn:E; [|discriminate].
  change (utf8_enc [0]) with (Some [0]). intros [= <-]. exists e. split; auto.
  unfold pack_s. apply utf8_enc_len in E. rewrite !app_length. cbn [length].
  replace (length s + 1 - (length e + 1))%nat with 0%nat by lia. cbn [repeat].
  rewrite app_nil_r. f_equal. lia.
Qed.

Lemma pack_text_nonascii s bs : pack_text s = Ok bs -> ~ ascii s ->
  exists e rest, utf8_enc s = Some e /\ e ++ [0] = bs ++ rest /\ rest <> [] /\
    length bs = S (length s) /\ bs = firstn (S (length s)) e.
Proof.
  intros H HA. apply pack_text_spec in H as (e & He & ->).
  pose proof (utf8_enc_len_nonascii _ _ He HA) as HL.
  assert (HF : firstn (S (length s)) (e ++ [0]) = firstn (S (length s)) e).
  { rewrite firstn_app. replace (S (length s) - length e)%nat with 0%nat by lia.
    cbn [firstn]. apply app_nil_r. }
  exists e, (skipn (S (length s)) (e ++ [0])). splits; auto.
  - now rewrite firstn_skipn.
  - intros HX. apply (f_equal (@length Z)) in HX. rewrite skipn_length, app_length in HX. cbn in HX. lia.
  - rewrite firstn_length, app_length. cbn [length]. lia.
Qed.

Lemma utf8_enc_ge k s e : k <= 128 -> utf8_enc s = Some e -> Forall (fun c => k <= c) s ->
  Forall (fun c => k <= c) e.
Proof.
  intros Hk. revert e; induction s as [|c s IH]; intros e He HF; cbn [utf8_enc] in He.
  - injection He as <-. constructor.
  - inversion HF as [|? ? Hc HF2]; subst.
    destruct (utf8_enc1 c) as [b|] eqn:E1; [|discriminate]. destruct (utf8_enc s) as [t|] eqn:E2; [|discriminate].
    apply some_inj in He. subst e. apply Forall_app. split; [|auto].
    apply utf8_enc1_shape in E1 as [[_ ->]|(_ & HB & _)]; [constructor; auto|].
    eapply Forall_impl; [|exact HB]. cbn. lia.
Qed.

Lemma pack_type_small c : 0 <= c < 128 -> pack_type c = Ok [c].
Proof. intros H. unfold pack_type. now rewrite chr_encode_small. Qed.

(** A non-ASCII printable name followed by a type code is not read as itself. *)
Lemma name_not_reread name code bs tail :
  pack_text name = Ok bs -> ~ ascii name -> Forall (fun c => 32 <= c) name -> 1 <= code < 32 ->
  forall nb rest, wire_text name nb -> nb ++ rest <> bs ++ [code] ++ tail.
Proof.
  intros H HA HP HC nb rest (e & He & _ & ->) HE.
  apply pack_text_nonascii in H as (e' & r & He' & HB & HR & _ & HF); auto.
  assert (e' = e) as -> by congruence. rewrite HB, <- app_assoc in HE.
  apply app_inv_head in HE.
  assert (HG : Forall (fun c => 32 <= c) e) by (eapply utf8_enc_ge; eauto; lia).
  destruct r as [|x r]; [congruence|]. cbn [app] in HE. injection HE as -> _.
  assert (HI : In code (e ++ [0])) by (rewrite HB; apply in_app_iff; right; left; reflexivity).
  apply in_app_iff in HI as [HI|[HI|[]]]; [|lia].
  rewrite Forall_forall in HG. apply HG in HI. lia.
Qed.

(** ** Chars *)

Lemma chr_encode_cases v :
  (0 <= v < 128 -> chr_encode v = Ok [v]) /\
  (128 <= v <= 1114111 -> v < 55296 \/ 57344 <= v ->
     exists bs, chr_encode v = Ok bs /\ 2 <= zlen bs <= 4 /\ utf8_enc [v] = Some bs) /\
  (55296 <= v < 57344 -> chr_encode v = Raise UnicodeEncodeError) /\
  (1114112 <= v < 2 ^ 31 -> chr_encode v = Raise ValueError) /\
  (- 2 ^ 31 <= v < 0 -> chr_encode v = Raise ValueError) /\
  (v < - 2 ^ 31 \/ 2 ^ 31 <= v -> chr_encode v = Raise OverflowError).
Proof.
  splits.
  - apply chr_encode_small.
  - intros H1 H2. unfold chr_encode.
    replace ((v <? - 2 ^ 31) || (2 ^ 31 <=? v)) with false by lia.
    replace ((v <? 0) || (1114111 <? v)) with false by lia.
    cbn [utf8_enc].
    destruct (utf8_enc1 v) as [bs|] eqn:E.
    + exists bs. rewrite app_nil_r. splits; auto.
      * apply utf8_enc1_shape in E as [[HX _]|(_ & _ & HL)]; [lia|]. unfold zlen. lia.
      * unfold utf8_enc1 in E. revert E.
        repeat match goal with |- context [if ?x then _ else _] => destruct x end; try discriminate;
          intros E; apply some_inj in E; subst bs; unfold zlen; cbn [length]; lia.
    + exfalso. unfold utf8_enc1 in E. revert E.
      replace (v <? 0) with false by lia. replace (v <? 128) with false by lia.
      destruct (v <? 2048); [discriminate|]. destruct (v <? 65536).
      * replace ((55296 <=? v) && (v <? 57344)) with false by lia. discriminate.
      * replace (v <? 1114112) with true by lia. discriminate.
  - intros H. unfold chr_encode.
    replace ((v <? - 2 ^ 31) || (2 ^ 31 <=? v)) with false by lia.
    replace ((v <? 0) || (1114111 <? v)) with false by lia. unfold utf8_enc1.
    replace (v <? 0) with false by lia. replace (v <? 128) with false by lia.
    replace (v <? 2048) with false by lia. replace (v <? 65536) with true by lia.
    now replace ((55296 <=? v) && (v <? 57344)) with true by lia.
  - intros H. unfold chr_encode.
    replace ((v <? - 2 ^ 31) || (2 ^ 31 <=? v)) with false by lia.
    now replace ((v <? 0) || (1114111 <? v)) with true by lia.
  - intros H. unfold chr_encode.
    replace ((v <? - 2 ^ 31) || (2 ^ 31 <=? v)) with false by lia.
    now replace ((v <? 0) || (1114111 <? v)) with true by lia.
  - intros H. unfold chr_encode.
    now replace ((v <? - 2 ^ 31) || (2 ^ 31 <=? v)) with true by lia.
Qed.

(** ** Repeated writes *)

Lemma flip_after r : flip_record r = record_after r.
Proof. unfold flip_record, record_after. apply map_ext. intros [k [| |]]; reflexivity. Qed.

Lemma flip_item_twice it : flip_item (flip_item it) = it.
Proof.
  destruct it as [s|[n v t f d sh]|v]; auto. cbn [flip_item ar_name ar_value ar_type ar_fmt ar_dim ar_shape].
  destruct (1 <? d); auto. now rewrite rev_involutive.
Qed.

Lemma flip_twice r : flip_record (flip_record r) = r.
Proof.
  unfold flip_record. rewrite map_map. cbn [fst snd]. rewrite <- (map_id r) at 2. apply map_ext.
  intros [k it]. cbn [fst snd]. now rewrite flip_item_twice.
Qed.

(** The shape of every array of rank above 1 is a palindrome. *)
Definition palindrome_item (it : item) : Prop :=
  match it with IArray a => 1 < ar_dim a -> rev (ar_shape a) = ar_shape a | _ => True end.

Lemma wire_ints_forall l bs : wire_list wire_int32 l bs -> Forall (fun n => - 2 ^ 31 <= n < 2 ^ 31) l.
Proof.
  intros H. induction H as [|x xs b bs (_ & _ & HF & _) H IH]; constructor; auto.
Qed.

Lemma wire_ints_inj l : forall l' bs, length l = length l' ->
  wire_list wire_int32 l bs -> wire_list wire_int32 l' bs -> l = l'.
Proof.
  induction l as [|x l IH]; intros [|x' l'] bs HL H1 H2; try discriminate; auto.
  inversion H1 as [|? ? b bs1 HR H1']; subst. inversion H2 as [|? ? b' bs2 HR' H2' HX HE]; subst.
  pose proof (wire_int_len _ _ _ _ HR). pose proof (wire_int_len _ _ _ _ HR'). unfold zlen in *.
  apply app_eq_len in HE as [-> ->]; [|lia].
  apply wire_int_iff in HR as (_ & _ & ->), HR' as (_ & _ & ->); try lia.
  f_equal. eapply IH; eauto.
Qed.

Lemma flip_item_bytes it b : item_bytes it = Ok b ->
  exists b', item_bytes (flip_item it) = Ok b' /\ zlen b' = zlen b /\ (b' = b <-> palindrome_item it).
Proof.
  destruct it as [s|a|v]; cbn [item_bytes flip_item palindrome_item]; intros H.
  - exists b. splits; auto. tauto.
  - unfold dmap_array_to_bytes in *. cbn [ar_name ar_value ar_type ar_fmt ar_dim ar_shape].
    destruct (rbind _ _) as [h|e]; [|discriminate]. cbv zeta in *. cbn [fst] in *.
    inv_rbind H sb. apply ok_inj in H as <-.
    apply pack_sizes_inv in H0 as HS. pose proof (wire_ints_forall _ _ HS) as HF.
    destruct (1 <? ar_dim a) eqn:E.
    + rewrite rev_involutive.
      destruct (pack_sizes_wire (ar_shape a)) as (sb' & HP & HW & HL).
      { rewrite <- (rev_involutive (ar_shape a)). now apply Forall_rev. }
      rewrite HP. cbn [rbind]. eexists. splits; [reflexivity| |].
      * apply wire_list_int_len in HS. rewrite zlen_rev in HS. rewrite !zlen_app. lia.
      * apply wire_list_int_len in HS as HSl. rewrite zlen_rev in HSl. split.
        -- intros HE _. apply app_inv_head in HE. apply app_eq_len in HE as [-> _].
           2:{ unfold zlen in *. lia. }
           eapply wire_ints_inj; eauto. now rewrite rev_length.
        -- intros HR. rewrite HR in H0 by lia. congruence.
    + rewrite H0. cbn [rbind]. eexists. splits; [reflexivity|reflexivity|]. split; [lia|reflexivity].
  - discriminate.
Qed.

Lemma flip_counts r : scalars_of (flip_record r) = scalars_of r /\ arrays_of (flip_record r) = arrays_of r.
Proof.
  unfold scalars_of, arrays_of. induction r as [|[k it] r [IH1 IH2]]; cbn [flip_record map filter fst snd]; auto.
  fold (flip_record r). destruct it; cbn [flip_item is_scalar is_array]; rewrite ?zlen_cons; lia.
Qed.

Definition palindrome_record (r : record) : Prop := Forall (fun p => palindrome_item (snd p)) r.

Lemma flip_fields r bl :
  Forall2 (fun p b => item_bytes (snd p) = Ok b) r bl ->
  exists bl', Forall2 (fun p b => item_bytes (snd p) = Ok b) (flip_record r) bl' /\
    map zlen bl' = map zlen bl /\ (concat bl' = concat bl <-> palindrome_record r).
Proof.
  intros H. induction H as [|[k it] b r bl Hb H (bl' & IH1 & IH2 & IH3)].
  - exists []. splits; [constructor|reflexivity|]. split; [constructor|reflexivity].
  - cbn [snd] in Hb. destruct (flip_item_bytes _ _ Hb) as (b' & Hb' & HL & HP).
    exists (b' :: bl'). splits.
    + cbn [flip_record map fst snd]. constructor; auto.
    + cbn [map]. congruence.
    + cbn [concat]. split.
      * intros HE. apply app_eq_len in HE as [HE1 HE2]; [|unfold zlen in HL; lia].
        constructor; [now apply HP|now apply IH3].
      * intros HF. inversion HF as [|? ? H1 H2]; subst. cbn [snd] in H1.
        apply HP in H1. apply IH3 in H2. congruence.
Qed.

Lemma zlen_concat_map (a b : list bytes) : map zlen a = map zlen b -> zlen (concat a) = zlen (concat b).
Proof.
  revert b; induction a as [|x a IH]; intros [|y b] H; cbn [map concat] in *; try discriminate; auto.
  rewrite !zlen_app. assert (zlen x = zlen y) by congruence. rewrite (IH b) by congruence. lia.
Qed.

Lemma flip_record_bytes r b r' : dmap_record_to_bytes r = (Ok b, r') ->
  exists b', dmap_record_to_bytes (flip_record r) = (Ok b', r) /\ zlen b' = zlen b /\
    (b' = b <-> palindrome_record r).
Proof.
  unfold dmap_record_to_bytes.
  destruct (fields_to_bytes r) as [[[[d n1] n2]|e] r''] eqn:Er; [|discriminate].
  apply fields_to_bytes_iff in Er as (bl & HF & -> & -> & -> & ->). cbv zeta.
  destruct (flip_fields _ _ HF) as (bl' & HF' & HL & HP). destruct (flip_counts r) as [HC1 HC2].
  assert (HB : fields_to_bytes (flip_record r) =
    (Ok (concat bl', scalars_of r, arrays_of r), r)).
  { apply fields_to_bytes_iff. exists bl'. splits; auto. rewrite <- flip_after, flip_twice. reflexivity. }
  rewrite HB. rewrite (zlen_concat_map _ _ HL).
  destruct (header_bytes _ _ _) as [h|e] eqn:Eh; [|discriminate]. cbn [rbind]. intros HE.
  injection HE as <- _. eexists. splits; [reflexivity| |].
  - rewrite !zlen_app, (zlen_concat_map _ _ HL). reflexivity.
  - rewrite <- HP. split; [apply app_inv_head|congruence].
Qed.

Lemma flip_records rs bl :
  Forall2 (fun r b => dmap_record_to_bytes r = (Ok b, record_after r)) rs bl ->
  exists bl', Forall2 (fun r b => dmap_record_to_bytes r = (Ok b, record_after r)) (map flip_record rs) bl' /\
    map zlen bl' = map zlen bl /\ (concat bl' = concat bl <-> Forall palindrome_record rs).
Proof.
  intros H. induction H as [|r b rs bl Hb H (bl' & IH1 & IH2 & IH3)].
  - exists []. splits; [constructor|reflexivity|]. split; [constructor|reflexivity].
  - destruct (flip_record_bytes _ _ _ Hb) as (b' & Hb' & HL & HP).
    exists (b' :: bl'). splits.
    + cbn [map]. constructor; auto. rewrite Hb'. f_equal. now rewrite <- flip_after, flip_twice.
    + cbn [map]. congruence.
    + cbn [concat]. split.
      * intros HE. apply app_eq_len in HE as [HE1 HE2]; [|unfold zlen in HL; lia].
        constructor; [now apply HP|now apply IH3].
      * intros HF. inversion HF as [|? ? H1 H2]; subst. apply HP in H1. apply IH3 in H2. congruence.
Qed.

(** One more write on an object that holds records. *)
Lemma stream_step fn rs acc bl rs_arg :
  rs <> [] -> Forall2 (fun r b => dmap_record_to_bytes r = (Ok b, record_after r)) rs bl ->
  write_dmap_stream (mk_writer fn rs acc) rs_arg =
  (Ok (acc ++ concat bl), mk_writer fn (map flip_record rs) (acc ++ concat bl)).
Proof.
  intros HN HF. destruct rs as [|r rs]; [congruence|].
  cbv beta iota zeta delta [write_dmap_stream empty_record_check wr_records wr_filename wr_bytearr].
  assert (HB : dmap_records_to_bytes acc (r :: rs) = (Ok tt, acc ++ concat bl, map record_after (r :: rs))).
  { apply records_bytes_iff. eauto. }
  rewrite HB. reflexivity.
Qed.

Lemma repeated_stream k : forall fn rs acc blA blB,
  rs <> [] ->
  Forall2 (fun r b => dmap_record_to_bytes r = (Ok b, record_after r)) rs blA ->
  Forall2 (fun r b => dmap_record_to_bytes r = (Ok b, record_after r)) (map flip_record rs) blB ->
  fst (write_dmap_stream (iterate k (fun w => snd (write_dmap_stream w [])) (mk_writer fn rs acc)) [])
  = Ok (acc ++ alternate (S k) (concat blA) (concat blB)).
Proof.
  induction k as [|k IH]; intros fn rs acc blA blB HN HA HB.
  - cbn [iterate alternate]. rewrite (stream_step fn rs acc blA []); auto. cbn [fst].
    now rewrite app_nil_r.
  - cbn [iterate]. rewrite (stream_step fn rs acc blA []); auto. cbn [snd].
    rewrite (IH fn (map flip_record rs) (acc ++ concat blA) blB blA); auto.
    + cbn [alternate]. now rewrite <- !app_assoc.
    + destruct rs; [congruence|discriminate].
    + rewrite map_map. rewrite (map_ext (fun x => flip_record (flip_record x)) (fun x => x)) by apply flip_twice.
      now rewrite map_id.
Qed.

Lemma check_flip rs bl :
  Forall2 (fun r b => dmap_record_to_bytes r = (Ok b, record_after r)) rs bl ->
  check_dmap_dict (map flip_record rs) = Ok (map flip_record rs).
Proof.
  intros H. destruct H as [|r b rs bl Hb H]; auto.
  destruct r as [|[k [s|a|v]] r]; auto.
  unfold dmap_record_to_bytes in Hb. cbn in Hb. discriminate.
Qed.

(** ** The exceptions of the writer *)

Definition write_exceptions : list exn :=
  [UnicodeEncodeError; OverflowError; ValueError; StructError; TypeError; IndexError; KeyError;
   DmapCharError; DmapDataError; DmapTypeError; OutOfModel].

Definition raises_w {A} (r : res A) : Prop := forall e, r = Raise e -> In e write_exceptions.

Lemma rw_ok {A} (a : A) : raises_w (Ok a).
Proof. discriminate. Qed.
Lemma rw_raise {A} e : In e write_exceptions -> raises_w (@Raise A e).
Proof. intros H e' [= <-]. exact H. Qed.
Lemma rw_bind {A B} (r : res A) (f : A -> res B) :
  raises_w r -> (forall a, r = Ok a -> raises_w (f a)) -> raises_w (rbind r f).
Proof. intros H1 H2. destruct r; cbn [rbind]; [auto|]. intros e' [= <-]. now apply H1. Qed.

Ltac wexn := apply rw_raise; cbn; tauto.

Lemma rw_pack_int s n v : raises_w (pack_int s n v).
Proof. unfold pack_int. destruct (_ && _); [apply rw_ok|wexn]. Qed.
Lemma rw_pack_text s : raises_w (pack_text s).
Proof. unfold pack_text. destruct (utf8_enc _); [apply rw_ok|wexn]. Qed.
Lemma rw_chr v : raises_w (chr_encode v).
Proof.
  unfold chr_encode. destruct (_ || _); [wexn|]. destruct (_ || _); [wexn|].
  destruct (utf8_enc1 v); [apply rw_ok|wexn].
Qed.
Lemma rw_pack_type c : raises_w (pack_type c).
Proof.
  unfold pack_type. apply rw_bind; [apply rw_chr|]. intros [|b [|b2 l]] _; [wexn|apply rw_ok|wexn].
Qed.
Lemma rw_decimal z : raises_w (pack_decimal z).
Proof. unfold pack_decimal. destruct (_ <? _); [wexn|apply rw_pack_text]. Qed.
Lemma rw_double z : raises_w (pack_double z).
Proof. unfold pack_double. destruct (FloatInt.double_of_int z); [apply rw_ok|wexn]. Qed.
Lemma rw_single z : raises_w (pack_single z).
Proof. unfold pack_single. destruct (FloatInt.double_of_int z); [apply rw_ok|wexn]. Qed.
Lemma rw_scalar s : raises_w (dmap_scalar_to_bytes s).
Proof.
  unfold dmap_scalar_to_bytes. apply rw_bind; [apply rw_pack_text|]. intros n _.
  apply rw_bind; [apply rw_pack_type|]. intros t _. apply rw_bind; [|intros; apply rw_ok].
  destruct (sc_fmt s), (sc_value s); cbn [scalar_data_bytes];
    first [apply rw_ok|wexn|apply rw_pack_int|apply rw_chr|apply rw_pack_text|apply rw_decimal|apply rw_double|apply rw_single
          |match goal with |- context [nd_shape ?a] => destruct (nd_shape a); wexn end
          |destruct (_ <=? _); [apply rw_single|wexn]
          |match goal with |- context [nd_shape ?a] =>
             destruct (nd_shape a); [|destruct (nd_dtype a)]; destruct (nd_data a) as [|? [|]]; wexn end
          |match goal with |- context [nd_shape ?a] => destruct (nd_shape a), (nd_data a) as [|? [|]]; wexn end
          |match goal with |- context [forallb ?p ?l] => destruct (forallb p l), l as [|? [|]]; wexn end].
Qed.
Lemma rw_sizes l : raises_w (pack_sizes l).
Proof.
  induction l as [|x l IH]; cbn [pack_sizes]; [apply rw_ok|].
  apply rw_bind; [apply rw_pack_int|]. intros b _. apply rw_bind; [auto|]. intros; apply rw_ok.
Qed.
Lemma rw_array a : raises_w (fst (dmap_array_to_bytes a)).
Proof.
  unfold dmap_array_to_bytes. cbv zeta.
  match goal with |- context [match ?p with Ok _ => _ | Raise _ => _ end] =>
    match p with rbind _ _ => assert (HQ : raises_w p); [|destruct p as [h|e]] end end.
  - apply rw_bind.
    + destruct (ar_fmt a); try apply rw_ok; try wexn.
      apply rw_bind; [|intros [] _; [wexn|apply rw_ok]]. unfold first_is_str.
      destruct (nd_shape (ar_value a)) as [|n l]; [wexn|]. destruct (n <=? 0); [wexn|apply rw_ok].
    + intros _ _. apply rw_bind; [apply rw_pack_text|]. intros n _.
      apply rw_bind; [apply rw_pack_type|]. intros t _. apply rw_bind; [apply rw_pack_int|]. intros; apply rw_ok.
  - cbn [fst]. apply rw_bind; [apply rw_sizes|]. intros; apply rw_ok.
  - cbn [fst]. intros e' [= <-]. now apply HQ.
Qed.

Lemma rw_fields r : raises_w (fst (fields_to_bytes r)).
Proof.
  induction r as [|[k it] r IH]; cbn [fields_to_bytes]; [apply rw_ok|].
  destruct it as [s|a|v].
  - pose proof (rw_scalar s) as HS. destruct (dmap_scalar_to_bytes s) as [b|e].
    + destruct (fields_to_bytes r) as [[[[d n1] n2]|e] r'']; cbn [fst] in *; [apply rw_ok|].
      intros e' [= <-]. now apply IH.
    + cbn [fst]. intros e' [= <-]. now apply HS.
  - pose proof (rw_array a) as HS. destruct (dmap_array_to_bytes a) as [[b|e] a'].
    + destruct (fields_to_bytes r) as [[[[d n1] n2]|e] r'']; cbn [fst] in *; [apply rw_ok|].
      intros e' [= <-]. now apply IH.
    + cbn [fst] in *. intros e' [= <-]. now apply HS.
  - cbn [fst]. wexn.
Qed.

Lemma rw_record r : raises_w (fst (dmap_record_to_bytes r)).
Proof.
  unfold dmap_record_to_bytes. pose proof (rw_fields r) as HF.
  destruct (fields_to_bytes r) as [[[[d n1] n2]|e] r'']; cbv zeta; cbn [fst] in *.
  - apply rw_bind; [|intros; apply rw_ok]. unfold header_bytes.
    repeat (apply rw_bind; [apply rw_pack_int|]; intros ? _). apply rw_ok.
  - intros e' [= <-]. now apply HF.
Qed.

Lemma rw_records rs : forall acc, raises_w (fst (fst (dmap_records_to_bytes acc rs))).
Proof.
  induction rs as [|r rs IH]; intros acc; cbn [dmap_records_to_bytes]; [apply rw_ok|].
  pose proof (rw_record r) as HR. destruct (dmap_record_to_bytes r) as [[b|e] r']; cbn [fst] in *.
  - specialize (IH (acc ++ b)). destruct (dmap_records_to_bytes (acc ++ b) rs) as [[x y] z].
    cbn [fst] in *. exact IH.
  - intros e' [= <-]. now apply HR.
Qed.

Lemma rw_field2dmap k it : raises_w (field2dmap k it).
Proof.
  destruct it as [s|a|v]; cbn [field2dmap]; try wexn.
  assert (HA : forall x, raises_w (array_item k x)).
  { intros x. unfold array_item. destruct (dtype_format _); [apply rw_ok|wexn]. }
  destruct v; cbn [value_format]; try apply rw_ok; try wexn; auto.
  destruct (_ =? _); auto. destruct (forallb _ _); auto. destruct (forallb _ _); wexn.
Qed.
Lemma rw_record2dmap r : raises_w (record2dmap r).
Proof.
  induction r as [|[k it] r IH]; cbn [record2dmap]; [apply rw_ok|].
  apply rw_bind; [apply rw_field2dmap|]. intros x _. apply rw_bind; auto. intros; apply rw_ok.
Qed.
Lemma rw_dict2dmap rs : raises_w (dict2dmap rs).
Proof.
  induction rs as [|r rs IH]; cbn [dict2dmap]; [apply rw_ok|].
  apply rw_bind; [apply rw_record2dmap|]. intros x _. apply rw_bind; auto. intros; apply rw_ok.
Qed.
Lemma rw_check rs : raises_w (check_dmap_dict rs).
Proof.
  destruct rs as [|[|[k [| |v]] r] rs]; cbn [check_dmap_dict]; try apply rw_ok. apply rw_dict2dmap.
Qed.

Lemma rw_stream w rs : raises_w (fst (write_dmap_stream w rs)).
Proof.
  unfold write_dmap_stream.
  set (loaded := match wr_records w with [] => _ | _ => _ end).
  assert (HL : raises_w loaded).
  { unfold loaded. destruct (wr_records w); [|apply rw_ok].
    apply rw_bind; [apply rw_check|]. intros; apply rw_ok. }
  destruct loaded as [w1|e]; [|intros e' [= <-]; now apply HL].
  unfold empty_record_check. destruct (wr_records w1) as [|r0 rs0]; [cbn [fst]; wexn|].
  pose proof (rw_records (r0 :: rs0) (wr_bytearr w1)) as HR.
  destruct (dmap_records_to_bytes (wr_bytearr w1) (r0 :: rs0)) as [[r acc] rs2]. cbv zeta. cbn [fst] in *.
  apply rw_bind; auto. intros; apply rw_ok.
Qed.

(** ** Sequences of calls *)

(** One call: what it returns (bytes of a stream, or [] for a file), the object
    and the file system afterwards (dmap.py:944-983). *)
Definition run_op (fs : fsys) (w : writer) (op : wop) : res bytes * writer * fsys :=
  match op with
  | OpWrite n => match write_dmap fs w n with (r, w', fs') => (rlet _ := r in Ok [], w', fs') end
  | OpStream rs => match write_dmap_stream w rs with (r, w') => (r, w', fs) end
  end.

(** Several calls, each exception caught by the caller. *)
Fixpoint run_ops (fs : fsys) (w : writer) (ops : list wop) : writer * fsys :=
  match ops with
  | [] => (w, fs)
  | op :: ops' => match run_op fs w op with (_, w', fs') => run_ops fs' w' ops' end
  end.

Lemma filename_check_cases w fn :
  filename_check w fn =
  match (match fn with [] => wr_filename w | _ => fn end) with
  | [] => Raise FilenameRequiredError
  | n => Ok (mk_writer n (wr_records w) (wr_bytearr w))
  end.
Proof. destruct w as [[|c n] rs acc], fn as [|d m]; reflexivity. Qed.

Lemma write_dmap_cases fs w fn :
  write_dmap fs w fn =
  match (match fn with [] => wr_filename w | _ => fn end) with
  | [] => (Raise FilenameRequiredError, w, fs)
  | n => match write_dmap_stream (mk_writer n (wr_records w) (wr_bytearr w)) [] with
         | (Raise e, w2) => (Raise e, w2, fs)
         | (Ok _, w2) => (Ok tt, w2, fs_write fs (wr_filename w2) (wr_bytearr w2))
         end
  end.
Proof.
  unfold write_dmap. rewrite filename_check_cases.
  destruct (match fn with [] => wr_filename w | _ => fn end); reflexivity.
Qed.

(** The name plays no role for the bytes. *)
Lemma stream_name w n rs :
  fst (write_dmap_stream (mk_writer n (wr_records w) (wr_bytearr w)) rs) = fst (write_dmap_stream w rs).
Proof.
  destruct w as [m recs acc]. unfold write_dmap_stream. cbn [wr_records wr_filename wr_bytearr].
  destruct recs as [|r recs].
  - destruct (check_dmap_dict rs) as [rs'|e]; [|reflexivity]. cbn [rbind].
    destruct rs' as [|r' rs']; [reflexivity|]. cbn [empty_record_check wr_records wr_bytearr wr_filename].
    destruct (dmap_records_to_bytes acc (r' :: rs')) as [[x y] z]. reflexivity.
  - cbn [empty_record_check wr_records wr_bytearr wr_filename].
    destruct (dmap_records_to_bytes acc (r :: recs)) as [[x y] z]. reflexivity.
Qed.

Lemma stream_filename w rs : wr_filename (snd (write_dmap_stream w rs)) = wr_filename w.
Proof.
  destruct w as [m recs acc]. unfold write_dmap_stream. cbn [wr_records wr_filename wr_bytearr].
  destruct recs as [|r recs].
  - destruct (check_dmap_dict rs) as [rs'|e]; [|reflexivity]. cbn [rbind].
    destruct rs' as [|r' rs']; [reflexivity|]. cbn [empty_record_check wr_records wr_bytearr wr_filename].
    destruct (dmap_records_to_bytes acc (r' :: rs')) as [[x y] z]. reflexivity.
  - cbn [empty_record_check wr_records wr_bytearr wr_filename].
    destruct (dmap_records_to_bytes acc (r :: recs)) as [[x y] z]. reflexivity.
Qed.

Lemma stream_bytes w rs bs : fst (write_dmap_stream w rs) = Ok bs ->
  wr_bytearr (snd (write_dmap_stream w rs)) = bs.
Proof.
  destruct w as [m recs acc]. unfold write_dmap_stream. cbn [wr_records wr_filename wr_bytearr].
  destruct recs as [|r recs].
  - destruct (check_dmap_dict rs) as [rs'|e]; [|discriminate]. cbn [rbind].
    destruct rs' as [|r' rs']; [discriminate|]. cbn [empty_record_check wr_records wr_bytearr wr_filename].
    destruct (dmap_records_to_bytes acc (r' :: rs')) as [[[x|e] y] z]; cbn; congruence.
  - cbn [empty_record_check wr_records wr_bytearr wr_filename].
    destruct (dmap_records_to_bytes acc (r :: recs)) as [[[x|e] y] z]; cbn; congruence.
Qed.

Lemma write_dmap_effect fs w fn r w' fs' :
  write_dmap fs w fn = (r, w', fs') ->
  let name := match fn with [] => wr_filename w | _ => fn end in
  match r with
  | Raise e => fs' = fs /\ (e = FilenameRequiredError <-> name = [])
  | Ok _ => exists bs, name <> [] /\ fst (write_dmap_stream w []) = Ok bs /\
              fs' name = Some bs /\ forall n, n <> name -> fs' n = fs n
  end.
Proof.
  rewrite write_dmap_cases. cbv zeta.
  destruct (match fn with [] => wr_filename w | _ => fn end) as [|c n].
  - intros [= <- <- <-]. split; auto. tauto.
  - set (name := c :: n).
    pose proof (stream_name w name []) as HS.
    pose proof (stream_filename (mk_writer name (wr_records w) (wr_bytearr w)) []) as HF.
    pose proof (rw_stream (mk_writer name (wr_records w) (wr_bytearr w)) []) as HX.
    pose proof (stream_bytes (mk_writer name (wr_records w) (wr_bytearr w)) []) as HB.
    destruct (write_dmap_stream (mk_writer name (wr_records w) (wr_bytearr w)) []) as [[bs|e] w2];
      cbn [fst snd wr_filename] in *.
    + intros [= <- <- <-]. exists bs. splits; [discriminate|auto| |].
      * unfold fs_write. rewrite HF, str_eqb_refl. f_equal. now apply HB.
      * intros m Hm. unfold fs_write. rewrite HF. destruct (str_eqb m name) eqn:E; auto.
        apply str_eqb_eq in E. congruence.
    + intros [= <- <- <-]. split; auto. split; [|discriminate]. intros ->.
      specialize (HX _ eq_refl). cbn in HX. intuition discriminate.
Qed.

Lemma run_ops_name ops : forall fs w,
  wr_filename (fst (run_ops fs w ops)) = last_given (wr_filename w) ops.
Proof.
  induction ops as [|op ops IH]; intros fs w; cbn [run_ops last_given]; auto.
  destruct op as [fn|rs]; cbn [run_op].
  - destruct (write_dmap fs w fn) as [[r w'] fs'] eqn:E. rewrite IH.
    rewrite write_dmap_cases in E.
    assert (HN : wr_filename w' = match fn with [] => wr_filename w | _ => fn end).
    { destruct (match fn with [] => wr_filename w | _ => fn end) as [|c n] eqn:EN.
      - injection E as _ <- _. destruct fn; congruence.
      - pose proof (stream_filename (mk_writer (c :: n) (wr_records w) (wr_bytearr w)) []) as HF.
        destruct (write_dmap_stream _ _) as [[bs|e] w2]; cbn [snd wr_filename] in HF; congruence. }
    rewrite HN. destruct fn; reflexivity.
  - pose proof (stream_filename w rs) as HF. destruct (write_dmap_stream w rs) as [r w'].
    cbn [snd] in HF. rewrite IH, HF. reflexivity.
Qed.

(** ** Records that cannot be converted *)

Definition stuck (r : record) : Prop := exists e, fst (dmap_record_to_bytes r) = Raise e.

Lemma pack_sizes_raise l e : pack_sizes l = Raise e -> forall bs, pack_sizes (rev l) <> Ok bs.
Proof.
  intros H bs C. apply pack_sizes_inv in C. pose proof (wire_ints_forall _ _ C) as HF.
  apply Forall_rev in HF. rewrite rev_involutive in HF.
  destruct (pack_sizes_wire l HF) as (sb & HP & _). congruence.
Qed.

Lemma stuck_array a e a' : dmap_array_to_bytes a = (Raise e, a') -> exists e', fst (dmap_array_to_bytes a') = Raise e'.
Proof.
  unfold dmap_array_to_bytes. cbv zeta.
  destruct (rbind _ _) as [h|e0] eqn:EH.
  - destruct (pack_sizes _) as [sb|e1] eqn:EP; [discriminate|]. cbn [rbind]. intros [= _ <-].
    cbn [ar_name ar_value ar_type ar_fmt ar_dim ar_shape]. rewrite EH. cbn [fst].
    destruct (1 <? ar_dim a).
    + destruct (pack_sizes (rev (rev (ar_shape a)))) as [sb|e2] eqn:E2; [|cbn [rbind]; eauto].
      exfalso. exact (pack_sizes_raise _ _ EP _ E2).
    + rewrite EP. cbn [rbind]. eauto.
  - intros [= _ <-]. rewrite EH. cbn [fst]. eauto.
Qed.

Lemma stuck_fields r : forall e r', fields_to_bytes r = (Raise e, r') -> exists e', fst (fields_to_bytes r') = Raise e'.
Proof.
  induction r as [|[k it] r IH]; intros e r'; cbn [fields_to_bytes]; [discriminate|].
  destruct it as [s|a|v].
  - destruct (dmap_scalar_to_bytes s) as [b|e0] eqn:ES.
    + destruct (fields_to_bytes r) as [[[[bs ns] na]|e1] r''] eqn:ER; [discriminate|]. intros [= _ <-].
      destruct (IH _ _ eq_refl) as (e2 & H2). cbn [fields_to_bytes]. rewrite ES.
      destruct (fields_to_bytes r'') as [[[[bs ns] na]|e3] r3]; [discriminate H2|cbn [fst]; eauto].
    + intros [= _ <-]. cbn [fields_to_bytes]. rewrite ES. cbn [fst]. eauto.
  - destruct (dmap_array_to_bytes a) as [[b|e0] a'] eqn:EA.
    + destruct (fields_to_bytes r) as [[[[bs ns] na]|e1] r''] eqn:ER; [discriminate|]. intros [= _ <-].
      destruct (IH _ _ eq_refl) as (e2 & H2). cbn [fields_to_bytes].
      destruct (dmap_array_to_bytes a') as [[b'|e3] a'']; [|cbn [fst]; eauto].
      destruct (fields_to_bytes r'') as [[[[bs ns] na]|e3] r3]; [discriminate H2|cbn [fst]; eauto].
    + intros [= _ <-]. destruct (stuck_array _ _ _ EA) as (e1 & H1). cbn [fields_to_bytes].
      destruct (dmap_array_to_bytes a') as [[b'|e3] a'']; [discriminate H1|cbn [fst]; eauto].
  - intros [= _ <-]. cbn [fields_to_bytes fst]. eauto.
Qed.

(** What a record that fails turns into fails as well. *)
Lemma stuck_after r e r' : dmap_record_to_bytes r = (Raise e, r') -> stuck r'.
Proof.
  unfold dmap_record_to_bytes, stuck.
  destruct (fields_to_bytes r) as [[[[d n1] n2]|e0] r''] eqn:Er.
  - apply fields_to_bytes_iff in Er as (bl & HF & -> & -> & -> & ->). cbv zeta.
    destruct (flip_fields _ _ HF) as (bl' & HF' & HL & _). destruct (flip_counts r) as [HC1 HC2].
    assert (HB : fields_to_bytes (record_after r) = (Ok (concat bl', scalars_of r, arrays_of r), r)).
    { rewrite <- flip_after. apply fields_to_bytes_iff. exists bl'. splits; auto.
      rewrite <- flip_after, flip_twice. reflexivity. }
    intros [= HE <-]. unfold dmap_record_to_bytes. rewrite HB. cbv zeta. cbn [fst].
    rewrite (zlen_concat_map _ _ HL).
    destruct (header_bytes _ _ _) as [h|e1]; [discriminate|]. cbn [rbind]. eauto.
  - intros [= _ <-]. destruct (stuck_fields _ _ _ Er) as (e1 & H1). unfold dmap_record_to_bytes.
    destruct (fields_to_bytes r'') as [[[[bs ns] na]|e3] r3]; [discriminate H1|cbn [fst]; eauto].
Qed.

Lemma stuck_records rs : Exists stuck rs -> forall acc q acc' rs',
  dmap_records_to_bytes acc rs = (q, acc', rs') -> (exists e, q = Raise e) /\ Exists stuck rs'.
Proof.
  intros H. induction H as [r rs H|r rs H IH]; intros acc q acc' rs'; cbn [dmap_records_to_bytes].
  - destruct H as (e & H). destruct (dmap_record_to_bytes r) as [[b|e0] r'] eqn:E; [discriminate|].
    intros [= <- <- <-]. split; [eauto|]. apply Exists_cons_hd. eapply stuck_after; eauto.
  - destruct (dmap_record_to_bytes r) as [[b|e0] r'] eqn:E.
    + destruct (dmap_records_to_bytes (acc ++ b) rs) as [[q2 acc2] rs2] eqn:E2. intros [= <- <- <-].
      destruct (IH _ _ _ _ E2) as [H1 H2]. split; [exact H1|now apply Exists_cons_tl].
    + intros [= <- <- <-]. split; [eauto|]. apply Exists_cons_hd. eapply stuck_after; eauto.
Qed.

(** What is left of a record that fails: nothing, or the first word of the header
    of a record that is too long. *)
Lemma item_bytes_pos it b : item_bytes it = Ok b -> 1 <= zlen b.
Proof.
  destruct it as [s|a|v]; cbn [item_bytes]; intros H; [| |discriminate].
  - unfold dmap_scalar_to_bytes in H. inv_rbind H n. inv_rbind H t. inv_rbind H d. apply ok_inj in H as <-.
    match goal with HP : pack_text _ = Ok _ |- _ => apply pack_text_len in HP as HL end.
    rewrite !zlen_app. pose proof (zlen_nonneg (sc_name s)). pose proof (zlen_nonneg t). pose proof (zlen_nonneg d). lia.
  - unfold dmap_array_to_bytes in H. destruct (rbind _ _) as [h|e] eqn:EH; [|discriminate]. cbv zeta in H. cbn [fst] in H.
    inv_rbind H sb. apply ok_inj in H as <-. inv_rbind EH u. inv_rbind EH n. inv_rbind EH t. inv_rbind EH d. apply ok_inj in EH as <-.
    match goal with HP : pack_text _ = Ok _ |- _ => apply pack_text_len in HP as HL end.
    rewrite !zlen_app. pose proof (zlen_nonneg (ar_name a)). pose proof (zlen_nonneg t). pose proof (zlen_nonneg d).
    pose proof (zlen_nonneg sb). pose proof (zlen_nonneg (tostring (ar_value a))). lia.
Qed.

Lemma counts_small r bl : Forall2 (fun p b => item_bytes (snd p) = Ok b) r bl ->
  0 <= scalars_of r /\ 0 <= arrays_of r /\ scalars_of r + arrays_of r <= zlen (concat bl).
Proof.
  intros H. induction H as [|[k it] b r bl Hb H (I1 & I2 & I3)]; [unfold scalars_of, arrays_of, zlen; cbn; lia|].
  cbn [snd] in Hb. pose proof (item_bytes_pos _ _ Hb). cbn [concat]. rewrite zlen_app.
  unfold scalars_of, arrays_of in *. cbn [filter snd].
  destruct it; cbn [is_scalar is_array]; rewrite ?zlen_cons; lia.
Qed.

Lemma rest_cases r e r' : dmap_record_to_bytes r = (Raise e, r') ->
  (record_rest r = [] /\ fst (fields_to_bytes r) = Raise e) \/
  (record_rest r = ident65537 /\ e = StructError /\
   exists bl, Forall2 (fun p b => item_bytes (snd p) = Ok b) r bl /\ 2 ^ 31 <= 16 + zlen (concat bl) /\
     r' = record_after r).
Proof.
  unfold dmap_record_to_bytes, record_rest.
  destruct (fields_to_bytes r) as [[[[d n1] n2]|e0] r''] eqn:Er; cbn [fst].
  - apply fields_to_bytes_iff in Er as (bl & HF & -> & -> & -> & ->). cbv zeta.
    destruct (counts_small _ _ HF) as (C1 & C2 & C3). intros [= HE <-]. right.
    assert (W : forall z, 0 <= z < 2 ^ 31 -> pack_int true 4 z = Ok (le_enc 4 z)).
    { intros z H. apply pack_int_ok. apply fits_iff; [lia|]. unfold fits. change (8 * Z.of_nat 4 - 1) with 31. lia. }
    unfold header_bytes in HE. cbn [words_left].
    rewrite (W 65537) in * by lia. cbn [rbind] in HE. change (le_enc 4 65537) with ident65537 in *.
    destruct (Z_lt_le_dec (zlen (concat bl) + 16) (2 ^ 31)) as [HL|HL].
    + exfalso. rewrite (W (zlen (concat bl) + 16)), (W (scalars_of r)), (W (arrays_of r)) in HE by lia.
      cbn [rbind] in HE. discriminate.
    + assert (HP : pack_int true 4 (zlen (concat bl) + 16) = Raise StructError).
      { destruct (pack_int true 4 (zlen (concat bl) + 16)) as [b|e1] eqn:EP.
        - apply pack_int_inv in EP as [_ R]. apply fits_iff in R; [|lia]. unfold fits in R.
          change (8 * Z.of_nat 4 - 1) with 31 in R. lia.
        - unfold pack_int in EP. destruct (_ && _); congruence. }
      rewrite HP in *. cbn [rbind] in HE. injection HE as <-. splits; [now rewrite app_nil_r|reflexivity|].
      exists bl. splits; auto. lia.
  - intros [= -> <-]. left. auto.
Qed.

(** Whatever happens, what is appended is a sequence of whole blocks, followed by
    the rest of a record that can never be converted. *)
Lemma records_bytes_any acc rs res acc' rs' :
  dmap_records_to_bytes acc rs = (res, acc', rs') ->
  exists bl rest n, Forall2 (fun r b => dmap_record_to_bytes r = (Ok b, record_after r)) (firstn n rs) bl /\
    acc' = acc ++ concat bl ++ rest /\ length rs' = length rs /\ (rest = [] \/ Exists stuck rs').
Proof.
  revert acc acc' rs' res; induction rs as [|r rs IH]; intros acc acc' rs' res; cbn [dmap_records_to_bytes].
  - intros [= <- <- <-]. exists [], [], O. splits; [constructor|cbn; now rewrite app_nil_r|auto|auto].
  - destruct (dmap_record_to_bytes r) as [[b|e] r'] eqn:Er.
    + destruct (dmap_records_to_bytes (acc ++ b) rs) as [[res2 acc2] rs2] eqn:E2.
      intros [= <- <- <-]. apply IH in E2 as (bl & rest & n & HF & -> & HL & HS).
      exists (b :: bl), rest, (S n). splits.
      * cbn [firstn]. constructor; auto. rewrite Er. f_equal.
        apply record_bytes_header in Er. now destruct Er as (w1 & w2 & w3 & bl' & _ & _ & _ & _ & _ & ->).
      * cbn [concat]. now rewrite <- !app_assoc.
      * cbn [length]. lia.
      * destruct HS as [HS|HS]; [now left|right; now apply Exists_cons_tl].
    + intros [= <- <- <-]. exists [], (record_rest r), O. splits; [constructor|reflexivity|auto|].
      right. apply Exists_cons_hd. eapply stuck_after; eauto.
Qed.

(** ** The writer object *)

Definition good_writer (w : writer) : Prop :=
  (exists bl, Forall block_like bl /\ wr_bytearr w = concat bl) \/ Exists stuck (wr_records w).

Lemma writer_new_good rs fn w : writer_new rs fn = Ok w -> good_writer w.
Proof.
  unfold writer_new. intros H. inv_rbind H x. injection H as <-.
  left. exists []. split; [constructor|reflexivity].
Qed.

Lemma stream_stuck w rs res w' : Exists stuck (wr_records w) -> write_dmap_stream w rs = (res, w') ->
  Exists stuck (wr_records w') /\ exists e, res = Raise e.
Proof.
  intros HS H. unfold write_dmap_stream, empty_record_check in H.
  destruct (wr_records w) as [|r0 rs0] eqn:ER; [inversion HS|]. rewrite ER in H.
  destruct (dmap_records_to_bytes (wr_bytearr w) (r0 :: rs0)) as [[r acc] rs2] eqn:EB.
  destruct (stuck_records _ HS _ _ _ _ EB) as [(e & ->) HX]. injection H as <- <-. cbn [wr_records rbind]. eauto.
Qed.

Lemma stream_good w rs res w' :
  good_writer w -> write_dmap_stream w rs = (res, w') -> good_writer w'.
Proof.
  intros [(bl & HB & HW)|HS] H; [|right; eapply stream_stuck; eauto]. unfold write_dmap_stream in H.
  set (loaded := match wr_records w with [] => _ | _ => _ end) in H.
  assert (HL : forall w1, loaded = Ok w1 -> wr_bytearr w1 = wr_bytearr w /\ wr_filename w1 = wr_filename w).
  { unfold loaded. destruct (wr_records w).
    - intros w1 H1. inv_rbind H1 x. injection H1 as <-. auto.
    - intros w1 [= <-]. auto. }
  destruct loaded as [w1|e].
  2:{ injection H as <- <-. left. exists bl; auto. }
  destruct (HL w1 eq_refl) as [HL1 HL2].
  unfold empty_record_check in H. destruct (wr_records w1) as [|r0 rs0] eqn:ER.
  - injection H as <- <-. left. exists bl; split; auto; congruence.
  - destruct (dmap_records_to_bytes (wr_bytearr w1) (r0 :: rs0)) as [[r acc] rs2] eqn:EB.
    cbv zeta in H. injection H as <- <-.
    apply records_bytes_any in EB as HA. destruct HA as (bl2 & rest & n & HF & HA & HLn & [->|HS]); [left|now right].
    exists (bl ++ bl2). cbn [wr_bytearr]. split; [|rewrite HA, HL1, HW, concat_app, app_nil_r; auto].
    apply Forall_app. split; auto.
    clear - HF. induction HF as [|x y l l' Hx HF IH]; constructor; auto.
    eapply record_bytes_block_like; eauto.
Qed.

(** ** Nothing empty is ever written *)

Lemma run_op_good fs w op r w' fs' : good_writer w -> run_op fs w op = (r, w', fs') -> good_writer w'.
Proof.
  intros HG. destruct op as [fn|rs]; cbn [run_op].
  - rewrite write_dmap_cases.
    destruct (match fn with [] => wr_filename w | _ => fn end) as [|c n]; [now intros [= _ <- _]|].
    destruct (write_dmap_stream _ _) as [[bs|e] w2] eqn:E; intros [= _ <- _];
      eapply stream_good in E as HG'; eauto.
  - destruct (write_dmap_stream w rs) as [x w2] eqn:E. intros [= _ <- _].
    eapply stream_good in E as HG'; eauto.
Qed.

Lemma run_ops_good ops : forall fs w, good_writer w -> good_writer (fst (run_ops fs w ops)).
Proof.
  induction ops as [|op ops IH]; intros fs w HG; cbn [run_ops]; auto.
  destruct (run_op fs w op) as [[r w'] fs'] eqn:E. apply IH. eapply run_op_good; eauto.
Qed.

Lemma stream_nonempty w rs bs : good_writer w -> fst (write_dmap_stream w rs) = Ok bs ->
  exists ns, ns <> [] /\ walk bs 0 ns /\ bs <> [].
Proof.
  intros [(bl & HB & HA)|HS] H.
  2:{ exfalso. destruct (write_dmap_stream w rs) as [q w'] eqn:E. destruct (stream_stuck _ _ _ _ HS E) as [_ (e & ->)]. discriminate H. }
  destruct w as [m recs acc]. cbn [wr_bytearr] in HA.
  assert (HX : forall recs', recs' <> [] ->
    fst (let '(r, acc', rs') := dmap_records_to_bytes acc recs' in
         (rlet _ := r in Ok acc', mk_writer m rs' acc')) = Ok bs ->
    exists ns, ns <> [] /\ walk bs 0 ns /\ bs <> []).
  { intros recs' HN HR. destruct (dmap_records_to_bytes acc recs') as [[[[]|e] acc'] rs'] eqn:E;
      cbn [rbind fst] in HR; [|discriminate]. apply ok_inj in HR as ->.
    apply records_bytes_iff in E as (bl2 & HF & -> & _).
    assert (HB2 : Forall block_like bl2).
    { clear - HF. induction HF as [|x y l l' Hx HF IH]; constructor; auto.
      eapply record_bytes_block_like; eauto. }
    rewrite HA, <- concat_app. exists (map zlen (bl ++ bl2)). splits.
    - destruct bl; [|discriminate]. destruct bl2; [|discriminate]. inversion HF; congruence.
    - apply walk_blocks0. apply Forall_app. auto.
    - rewrite concat_app. intros HE. apply app_eq_nil in HE as [_ HE].
      destruct HF as [|r b recs' bl2 Hb HF]; [congruence|]. cbn [concat] in HE.
      apply app_eq_nil in HE as [-> _]. inversion HB2 as [|? ? (w1 & rest & HE & _) _]. discriminate. }
  unfold write_dmap_stream in H. cbn [wr_records wr_filename wr_bytearr] in H.
  destruct recs as [|r recs].
  - destruct (check_dmap_dict rs) as [rs'|e]; [|discriminate]. cbn [rbind] in H.
    destruct rs' as [|r' rs']; [discriminate|]. cbn [empty_record_check wr_records wr_bytearr wr_filename] in H.
    apply (HX (r' :: rs')); [discriminate|exact H].
  - cbn [empty_record_check wr_records wr_bytearr wr_filename] in H.
    apply (HX (r :: recs)); [discriminate|exact H].
Qed.

(** An object without records stays without records as long as no stream call
    supplies any. *)
Definition no_records (op : wop) : Prop := match op with OpStream rs => rs = [] | _ => True end.

Lemma empty_run ops : forall fs w, wr_records w = [] -> Forall no_records ops ->
  wr_records (fst (run_ops fs w ops)) = [] /\ snd (run_ops fs w ops) = fs.
Proof.
  induction ops as [|op ops IH]; intros fs w HR HO; cbn [run_ops]; auto.
  inversion HO as [|? ? H1 H2]; subst. destruct w as [m recs acc]. cbn [wr_records] in HR. subst recs.
  destruct op as [fn|rs]; cbn [run_op].
  - rewrite write_dmap_cases. cbn [wr_filename wr_records wr_bytearr].
    destruct (match fn with [] => m | _ => fn end) as [|c n]; [apply IH; auto|].
    cbn. apply IH; auto.
  - cbn [no_records] in H1. subst rs. cbn. apply IH; auto.
Qed.
