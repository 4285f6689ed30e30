(** C79: the shape of the arrays read from any file; C80: the integrity check
    after another call. *)
From Coq Require Import ZArith List Bool Lia.
From Verif Require Import Base Bytes BytesSpec DmapTypes DmapRead DmapSpec DmapReadProofs DmapFileProofs
  DmapReadProps DmapShapeSpec DmapShapeProofs.
Import ListNotations.
Open Scope Z_scope.

(** ** C79 *)

Theorem C79_shapes : forall buf rs r k a,
  is_bytearray buf -> dmap_read buf = Ok rs -> In r rs -> dict_get r k = Some (IArray a) ->
  ar_name a = k /\ array_read buf a.
Proof. intros buf rs r k a [HB _] H. exact (any_file buf rs HB H r k a). Qed.
Print Assumptions C79_shapes.

(** slist of size -1 in a file of two records: 53 chars, which are the rest of the
    file, all of the second record but its first byte. *)
Definition ex_slist : darray :=
  mk_darray s_slist (mk_ndarray DI8 false [53] (map (fun b => if b <? 128 then b else b - 256) (tl ex_block_bytes)))
            1 Fc 1 [-1].

Example C79_case :
  is_bytearray ex_negative_slist /\
  exists rs r, dmap_read ex_negative_slist = Ok rs /\ In r rs /\ length rs = 2%nat /\
               dict_get r s_slist = Some (IArray ex_slist).
Proof.
  split; [split; [unfold ex_negative_slist, ex_block_bytes; bytes_tac|vm_compute; discriminate]|].
  eexists _, _. split; [vm_compute; reflexivity|]. split; [left; reflexivity|].
  split; [reflexivity|vm_compute; reflexivity].
Qed.

(** The stronger form, that the shape is always the one in the file, is false. *)
Theorem C79_same_refuted :
  ~ (forall buf rs r k a, is_bytearray buf -> dmap_read buf = Ok rs -> In r rs ->
       dict_get r k = Some (IArray a) -> nd_shape (ar_value a) = ar_shape a).
Proof.
  intros H. destruct C79_case as (HB & rs & r & HR & HI & _ & HG).
  specialize (H _ _ _ _ _ HB HR HI HG). vm_compute in H. discriminate.
Qed.
Print Assumptions C79_same_refuted.

(** Two sizes, 2 and -2: the second record follows after its first 4 bytes, which
    are the 2, and its other 50 bytes are the array. *)
Definition ex_two_sizes : bytes :=
  [1;0;1;0; 35;0;0;0; 1;0;0;0; 1;0;0;0; 97;0;1;5;
   115;108;105;115;116;0;1; 2;0;0;0; 254;255;255;255; 2;0;0;0] ++ skipn 4 ex_block_bytes.
Example C79_two_case :
  is_bytearray ex_two_sizes /\
  match dmap_read ex_two_sizes with
  | Ok [r; _] =>
      match dict_get r s_slist with
      | Some (IArray a) => ar_shape a = [2; -2] /\ nd_shape (ar_value a) = [2; 25]
      | _ => False
      end
  | _ => False
  end.
Proof.
  split; [split; [unfold ex_two_sizes, ex_block_bytes; cbn [skipn app]; bytes_tac|vm_compute; discriminate]|].
  vm_compute. split; reflexivity.
Qed.

(** ** C80 *)

(** After the records were read, or after a check that failed, the check is a
    CursorError, and stays one. *)
Theorem C80_after : forall fs src r,
  dmap_reader_init fs src = Ok r ->
  (forall rs r', read_records r = (Ok rs, r') -> reader_integrity r' = (Raise CursorError, r')) /\
  (forall e r', reader_integrity r = (Raise e, r') -> reader_integrity r' = (Raise CursorError, r')).
Proof.
  intros fs src r Hr.
  assert (exists buf, buf <> [] /\ reader_new buf = Ok r) as (buf & HN & HE).
  { destruct src as [name|content]; cbn [dmap_reader_init] in Hr.
    - destruct (fs name) as [content|]; [|discriminate]. exists content. split; auto.
      intros ->. discriminate.
    - exists content. split; auto. intros ->. discriminate. }
  pose proof HE as HE'. unfold reader_new in HE'. destruct (zlen buf =? 0) eqn:EL; [discriminate|].
  injection HE' as <-. split.
  - intros rs r' H. apply check_moved. apply (read_cursor buf rs r'); auto.
    unfold dmap_read. rewrite HE. cbn [rbind]. now rewrite H.
  - intros e r' H. apply check_moved. exact (check_failed buf e r' HN H).
Qed.
Print Assumptions C80_after.

Example C80_case :
  fst (read_records (mk_reader ex_block_bytes 0 [] 0)) <> Raise CursorError /\
  fst (reader_integrity (mk_reader ex_block_bytes 0 [] 0)) = Ok tt /\
  fst (reader_integrity (snd (read_records (mk_reader ex_block_bytes 0 [] 0)))) = Raise CursorError /\
  fst (reader_integrity (mk_reader [1;0;1;0; 0;0;0;0] 0 [] 0)) = Raise ZeroByteError /\
  fst (reader_integrity (snd (reader_integrity (mk_reader [1;0;1;0; 0;0;0;0] 0 [] 0)))) = Raise CursorError.
Proof. vm_compute. repeat split; discriminate. Qed.
