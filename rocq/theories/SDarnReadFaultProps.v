(** C87: which error read_<type> raises on any input, and what it leaves behind.
    Every theorem is followed by a concrete case that meets its hypotheses. *)
From Coq Require Import ZArith String List Bool Lia.
From Verif Require Import Base Bytes BytesSpec BytesProofs DmapTypes DmapRead DmapWrite Conversions DmapSpec DmapFileProofs
  DmapStreamProofs DmapFaultSpec SDarnFormats SDarn SDarnSpec SDarnChecks SDarnProofs SDarnProps SDarnFileProofs
  SDarnFaultSpec SDarnReadFaultProofs.
Import ListNotations.
Open Scope string_scope.
Open Scope list_scope.
Open Scope Z_scope.

(** read_<type> returns exactly the records of a well-formed file all of which
    obey the rules; otherwise it raises the error of the first block that is no
    block, or whose record breaks the rules.  The object keeps the records before
    it, and the number of that record. *)
Theorem C87_read : forall t fs src rd,
  sd_reader_init fs src = Ok rd -> is_bytearray (rdr_buf rd) -> ~ negative_slist (rdr_buf rd) ->
  match sd_read t rd with
  | (Ok ds, rd') => (exists bl, good_start t (rdr_buf rd) bl (rdr_records rd')) /\
      dmap2dict (rdr_records rd') = Ok ds /\ dmap_read_dicts (rdr_buf rd) = Ok ds
  | (Raise e, rd') => darn_fault t (rdr_buf rd) (rdr_records rd') e /\ rdr_rec_num rd' = zlen (rdr_records rd')
  end.
Proof. exact darn_outcome. Qed.
Print Assumptions C87_read.

(** A block fault behind acceptable records is always reported as such, whatever
    sizes arrays called slist have. *)
Theorem C87_block : forall t fs rd A B bl rs e,
  sd_reader_init fs (FromStream (A ++ B)) = Ok rd -> is_bytearray (A ++ B) ->
  good_start t A bl rs -> block_fault B e ->
  fst (sd_read t rd) = Raise e /\ rdr_records (snd (sd_read t rd)) = rs.
Proof.
  intros t fs rd A B bl rs e HI HA HG HF. destruct (init_fresh _ _ _ HI) as [-> _].
  assert (HB : rdr_buf rd = A ++ B).
  { unfold sd_reader_init, dmap_reader_init, reader_new in HI. destruct (_ =? 0); [discriminate|]. now injection HI as <-. }
  rewrite HB. destruct (block_reported t A B bl rs e HA HG HF) as [c ->]. split; reflexivity.
Qed.
Print Assumptions C87_block.

(** A record that breaks the rules is reported with its number and exactly its
    fields concerned, whatever bytes come after it; the reader stands behind it. *)
Theorem C87_check : forall t fs rd A W B bl rs ident b r,
  sd_reader_init fs (FromStream (A ++ W ++ B)) = Ok rd -> is_bytearray (A ++ W ++ B) ->
  good_start t A bl rs -> wire_block ident b W -> dict_of_block b r -> ~ acceptable t r ->
  exists e, fst (sd_read t rd) = Raise e /\ read_check_error t r (zlen rs) e /\
    rdr_records (snd (sd_read t rd)) = rs /\ rdr_cursor (snd (sd_read t rd)) = zlen A + zlen W.
Proof.
  intros t fs rd A W B bl rs ident b r HI HA HG HW HD HN. destruct (init_fresh _ _ _ HI) as [-> _].
  assert (HB : rdr_buf rd = A ++ W ++ B).
  { unfold sd_reader_init, dmap_reader_init, reader_new in HI. destruct (_ =? 0); [discriminate|]. now injection HI as <-. }
  rewrite HB. destruct (check_reported t A W B bl rs ident b r HA HG HW HD HN) as (e & HE & ->).
  exists e. splits; auto.
Qed.
Print Assumptions C87_check.

(** ** Cases *)

(** The bytes of a grid record, and of one with 4 of its 8 fields. *)
Definition grid_bytes : bytes := match dmap_write [block_fields ex_grid] with Ok b => b | Raise _ => [] end.
Definition half_bytes : bytes := match dmap_write [block_fields ex_half] with Ok b => b | Raise _ => [] end.

Fixpoint pair_in (x y : Z) (l : list Z) : bool :=
  match l with
  | a :: (b :: _) as l' => ((a =? x) && (b =? y)) || pair_in x y l'
  | _ => false
  end.
Lemma pair_in_app x y l1 l2 : pair_in x y (l1 ++ x :: y :: l2) = true.
Proof.
  induction l1 as [|a l1 IH]; [cbn; now rewrite !Z.eqb_refl|].
  cbn [app]. destruct (l1 ++ x :: y :: l2) as [|b l] eqn:E; [now destruct l1|].
  cbn [pair_in]. cbn [pair_in] in IH. rewrite IH. apply orb_true_r.
Qed.
Lemma no_pair_no_slist buf : pair_in 115 108 buf = false -> ~ negative_slist buf.
Proof.
  intros H (p & ty & dims & db & sb & (x & y & -> & _) & _).
  change s_slist with [115; 108; 105; 115; 116] in H. cbn [app] in H. now rewrite pair_in_app in H.
Qed.

Definition bytesb (l : list Z) : bool := forallb (fun z => (0 <=? z) && (z <? 256)) l.
Lemma bytesb_ok l : bytesb l = true -> zlen l <=? 2 ^ 63 - 1 = true -> is_bytearray l.
Proof.
  intros H1 H2. unfold bytesb in H1. rewrite forallb_forall in H1. split; [|unfold ssize_max; lia].
  apply Forall_forall. intros z Hz. specialize (H1 z Hz). unfold is_byte. lia.
Qed.

Lemma good_sound t A rs : is_bytearray A -> ~ negative_slist A -> dmap_read A = Ok rs -> Forall (acceptable t) rs ->
  exists bl, good_start t A bl rs.
Proof. intros H1 H2 H3 H4. destruct (read_sound _ _ H1 H2 H3) as (bl & H5 & H6). exists bl. unfold good_start. auto. Qed.

Example C87_case :
  (exists bl, good_start Grid (grid_bytes ++ grid_bytes) bl [block_fields ex_grid; block_fields ex_grid]) /\
  (exists ident b, wire_block ident b half_bytes /\ dict_of_block b (block_fields ex_half)) /\
  ~ acceptable Grid (block_fields ex_half) /\
  block_fault (firstn 5 grid_bytes) CursorError /\
  is_bytearray (grid_bytes ++ grid_bytes ++ half_bytes ++ firstn 5 grid_bytes) /\
  ~ negative_slist (grid_bytes ++ grid_bytes ++ half_bytes ++ firstn 5 grid_bytes).
Proof.
  splits.
  - apply good_sound.
    + apply bytesb_ok; vm_compute; reflexivity.
    + apply no_pair_no_slist. vm_compute. reflexivity.
    + vm_compute. reflexivity.
    + constructor; [apply ex_fields|constructor; [apply ex_fields|constructor]].
  - destruct (read_sound half_bytes [block_fields ex_half]) as (bl & H1 & H2).
    + apply bytesb_ok; vm_compute; reflexivity.
    + apply no_pair_no_slist. vm_compute. reflexivity.
    + vm_compute. reflexivity.
    + inversion H2 as [|b r bl' rs' HD H3]; subst. inversion H3; subst.
      inversion H1 as [|b0 l0 x0 xs0 [id Hb] Hn E1 E2]; subst. inversion Hn; subst.
      exists id, b. rewrite app_nil_r. auto.
  - apply ex_fields.
  - apply bf_cut. vm_compute. split; reflexivity.
  - apply bytesb_ok; vm_compute; reflexivity.
  - apply no_pair_no_slist. vm_compute. reflexivity.
Qed.

Example C87_case_run :
  let run b := rlet rd := sd_reader_init (fun _ => None) (FromStream b) in
               let q := sd_read Grid rd in Ok (fst q, zlen (rdr_records (snd q)), rdr_cursor (snd q)) in
  run (grid_bytes ++ grid_bytes ++ half_bytes ++ firstn 5 grid_bytes) =
    Ok (Raise (SuperDARNFieldMissingError 2 [str "vector.vel.sd"; str "vector.index"; str "vector.kvect"; str "vector.mlon"]),
        2, 2 * 229 + zlen half_bytes) /\
  rbind (run (grid_bytes ++ firstn 5 grid_bytes)) (fun q => Ok (fst q)) = Ok (Raise CursorError, 1) /\
  rbind (run (grid_bytes ++ firstn 100 grid_bytes ++ half_bytes)) (fun q => Ok (fst q)) = Ok (Raise MismatchByteError, 1).
Proof. cbv zeta. splits; vm_compute; reflexivity. Qed.
