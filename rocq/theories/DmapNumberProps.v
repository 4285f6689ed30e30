(** C89: integers given for float, double and text fields. *)
From Coq Require Import ZArith List Bool Lia.
From Verif Require Import Base Bytes BytesSpec FloatBits FloatSpec DmapTypes DmapSpec DmapWriteSpec DmapRead DmapWrite Conversions
  DmapFileProofs DmapWriteProps NumeralSpec NumeralProofs FloatInt DmapWriteFaultSpec DmapNumberSpec DmapNumberProofs.
Import ListNotations.
Open Scope Z_scope.

(** An integer given for a double is stored as the double nearest to it, exactly if
    it has at most 53 bits; it is a struct.error if there is no such double. *)
Theorem C89_double : forall v z, int_of v = Some z ->
  (no_double z -> scalar_data_bytes Fd v = Raise StructError) /\
  (~ no_double z -> exists bs, scalar_data_bytes Fd v = Ok bs /\ length bs = 8%nat /\ Forall is_byte bs /\
     nearest_double z (le_num bs) /\ (Z.abs z <= 2 ^ 53 -> f64_val (le_num bs) = z * 2 ^ 1074)).
Proof. intros v z H. destruct (double_outcome v z H) as (A & _ & B). exact (conj A B). Qed.
Print Assumptions C89_double.

(** There is one such double and no other. *)
Theorem C89_one : forall z, Z.abs z < 2 ^ 1024 - 2 ^ 970 ->
  exists b, nearest_double z b /\ forall c, nearest_double z c -> c = b.
Proof.
  intros z L. destruct (double_of_int z) as [b|] eqn:D.
  - exists b. split; [exact (made_nearest z b D)|]. intros c C. apply nearest_made in C. congruence.
  - apply FloatIntProofs.double_huge in D. exfalso. exact (Zle_not_lt _ _ D L).
Qed.
Print Assumptions C89_one.

(** 5, a tie beyond 2^53 that goes down and one that goes up, a negative numpy
    integer, the largest double and the first integer beyond. *)
Example C89_double_case :
  let up := (2 ^ 54 - 1) * 2 ^ 970 in
  scalar_data_bytes Fd (VInt 5) = Ok [0; 0; 0; 0; 0; 0; 20; 64] /\
  scalar_data_bytes Fd (VInt (2 ^ 53 + 1)) = Ok [0; 0; 0; 0; 0; 0; 64; 67] /\
  scalar_data_bytes Fd (VInt (2 ^ 53 + 3)) = Ok [2; 0; 0; 0; 0; 0; 64; 67] /\
  scalar_data_bytes Fd (VNpInt NI64 (-3)) = Ok [0; 0; 0; 0; 0; 0; 8; 192] /\
  scalar_data_bytes Fd (VInt (up - 1)) = Ok [255; 255; 255; 255; 255; 255; 239; 127] /\
  scalar_data_bytes Fd (VInt (- up)) = Raise StructError /\
  no_double up /\ ~ no_double (up - 1).
Proof.
  cbv zeta. splits; try (vm_compute; reflexivity).
  - vm_compute. discriminate.
  - intros H. vm_compute in H. now apply H.
Qed.

(** An integer of at most 53 bits given for a float is stored as the single nearest
    to it, exactly if it has at most 24 bits. *)
Theorem C89_single : forall v z, int_of v = Some z -> Z.abs z <= 2 ^ 53 ->
  exists bs, scalar_data_bytes Ff v = Ok bs /\ length bs = 4%nat /\ Forall is_byte bs /\
    nearest_single z (le_num bs) /\ (Z.abs z <= 2 ^ 24 -> f32_val (le_num bs) = z * 2 ^ 149).
Proof. exact single_outcome. Qed.
Print Assumptions C89_single.

(** A larger int is made a double first, and an OverflowError if there is none. *)
Theorem C89_single_large : forall z,
  (no_double z -> scalar_data_bytes Ff (VInt z) = Raise OverflowError) /\
  (forall b, nearest_double z b -> scalar_data_bytes Ff (VInt z) = scalar_data_bytes Ff (VFloat b)).
Proof. exact single_large. Qed.
Print Assumptions C89_single_large.

(** So it is rounded twice, and what is stored need not be the nearest single:
    2^54 + 2^30 + 1 is stored as 2^54, but 2^54 + 2^31 is nearer. *)
Theorem C89_single_refuted : exists z bs, z = 2 ^ 54 + 2 ^ 30 + 1 /\
  scalar_data_bytes Ff (VInt z) = Ok bs /\ f32_exp (le_num bs) <> 255 /\ ~ nearest_single z (le_num bs).
Proof.
  eexists _, [0; 0; 128; 90]. splits; [reflexivity|vm_compute; reflexivity|vm_compute; discriminate|].
  intros (_ & _ & N). destruct (N (le_num [1; 0; 128; 90])) as [C _].
  - split; [vm_compute; split; [discriminate|reflexivity]|vm_compute; discriminate].
  - vm_compute in C. now apply C.
Qed.
Print Assumptions C89_single_refuted.

(** A small integer, two ties beyond 2^24, a numpy integer, an int beyond the
    largest single (infinity) and one beyond the largest double. *)
Example C89_single_case :
  scalar_data_bytes Ff (VInt 5) = Ok [0; 0; 160; 64] /\
  scalar_data_bytes Ff (VInt (2 ^ 24 + 1)) = Ok [0; 0; 128; 75] /\
  scalar_data_bytes Ff (VInt (2 ^ 24 + 3)) = Ok [2; 0; 128; 75] /\
  scalar_data_bytes Ff (VNpInt NI32 (-3)) = Ok [0; 0; 64; 192] /\
  scalar_data_bytes Ff (VInt (2 ^ 128)) = Ok [0; 0; 128; 127] /\
  scalar_data_bytes Ff (VInt (- 2 ^ 1024)) = Raise OverflowError /\ no_double (- 2 ^ 1024) /\ Z.abs (2 ^ 24 + 3) <= 2 ^ 53.
Proof. splits; try (vm_compute; reflexivity); vm_compute; discriminate. Qed.

(** An integer given for a text is stored as its decimal numeral. *)
Theorem C89_text : forall v z s, int_of v = Some z -> Z.abs z < 10 ^ 4300 -> numeral z s ->
  scalar_data_bytes Fs v = Ok (s ++ [0]).
Proof. intros v z s H1 H2 H3. exact (proj1 (text_outcome v z s H1 H2 H3)). Qed.
Print Assumptions C89_text.

Example C89_text_case :
  scalar_data_bytes Fs (VInt (-1780)) = Ok [45; 49; 55; 56; 48; 0] /\ numeral (-1780) [45; 49; 55; 56; 48] /\
  scalar_data_bytes Fs (VNpInt NU8 0) = Ok [48; 0] /\ numeral 0 [48] /\ Z.abs (-1780) < 10 ^ 4300.
Proof.
  splits; [vm_compute; reflexivity|exact (decimal_numeral (-1780))|vm_compute; reflexivity|exact (decimal_numeral 0)|].
  apply Z.lt_le_trans with (10 ^ 4); [reflexivity|]. apply Z.pow_le_mono_r; lia.
Qed.

(** Arrays and lists are no floats unless they have one element. *)
Theorem C89_many : forall a l,
  nd_shape a <> [] -> length (nd_data a) <> 1%nat -> length l <> 1%nat -> Forall (fun z => - 2 ^ 63 < z < 2 ^ 63) l ->
  scalar_data_bytes Fd (VArr a) = Raise StructError /\ scalar_data_bytes Fd (VIntList l) = Raise StructError /\
  (nd_dtype a <> DStr -> scalar_data_bytes Ff (VArr a) = Raise StructError) /\
  scalar_data_bytes Ff (VIntList l) = Raise StructError.
Proof.
  intros a l H1 H2 H3 H4. splits.
  - apply (DmapWriteFaultProofs.value_fails Fd (VArr a) (conj H1 H2)). constructor.
  - reflexivity.
  - intros H. apply (DmapWriteFaultProofs.value_fails Ff (VArr a) (conj H1 (conj H H2))). constructor.
  - apply (DmapWriteFaultProofs.value_fails Ff (VIntList l) (conj H3 H4)). constructor.
Qed.
Print Assumptions C89_many.

Example C89_many_case :
  scalar_data_bytes Ff (VArr (mk_ndarray DI16 false [2] [1; 2])) = Raise StructError /\
  scalar_data_bytes Ff (VIntList [1; 2]) = Raise StructError /\ Forall (fun z => - 2 ^ 63 < z < 2 ^ 63) [1; 2].
Proof. splits; try reflexivity. repeat constructor. Qed.

(** Records with integers in float, double or text fields are written as the same
    bytes as the records with the floats and texts that stand for them. *)
Theorem C89_same : forall rs rs', Forall2 record_stands rs rs' -> dmap_write rs = dmap_write rs'.
Proof. exact write_stand. Qed.
Print Assumptions C89_same.

(** So they are read back as those floats and texts. *)
Theorem C89_back : forall rs bl bl', bl <> [] -> Forall2 record_stands rs (map block_fields bl) ->
  Forall2 block_back bl bl' -> file_bytes bl <= 2 ^ 63 - 1 ->
  exists bs, dmap_write rs = Ok bs /\ zlen bs = file_bytes bl /\ dmap_read bs = Ok (map block_fields bl').
Proof. intros rs bl bl' N H B L. rewrite (write_stand _ _ H). exact (C01_round_trip bl bl' N B L). Qed.
Print Assumptions C89_back.

(** The integer 5 in a double and in a float field, 1780 in a text field. *)
Definition given : record :=
  [([100], IScalar (mk_dscalar [100] (VInt 5) 8 Fd)); ([102], IScalar (mk_dscalar [102] (VNpInt NI16 5) 4 Ff));
   ([116], IScalar (mk_dscalar [116] (VInt 1780) 9 Fs));
   ([109], IArray (mk_darray [109] (mk_ndarray DI16 false [1] [7]) 2 Fh 1 [1]))].
Definition stood : block :=
  ([mk_dscalar [100] (VFloat 4617315517961601024) 8 Fd; mk_dscalar [102] (VFloat (widen 1084227584)) 4 Ff;
    mk_dscalar [116] (VStr [49; 55; 56; 48]) 9 Fs],
   [mk_darray [109] (mk_ndarray DI16 false [1] [7]) 2 Fh 1 [1]]).
Example C89_back_case : record_stands given (block_fields stood) /\ block_back stood stood /\
  (rlet bs := dmap_write [given] in dmap_read bs) = Ok [block_fields stood].
Proof.
  splits; [| |vm_compute; reflexivity].
  - repeat (apply Forall2_cons || apply Forall2_nil); (split; [reflexivity|]).
    + constructor. eapply sf_double; [reflexivity|]. apply made_nearest. reflexivity.
    + constructor. eapply sf_single; [reflexivity|right; vm_compute; discriminate|]. apply made_nearest. reflexivity.
    + constructor. eapply sf_text; [reflexivity| |exact (decimal_numeral 1780)].
      apply Z.lt_le_trans with (10 ^ 4); [reflexivity|]. apply Z.pow_le_mono_r; lia.
    + constructor.
  - assert (HB : block_bytes stood = 55) by reflexivity. unfold block_back. rewrite HB. splits; try discriminate; try lia.
    + repeat constructor; cbn; intuition discriminate.
    + constructor; [|constructor; [|constructor; [|constructor]]].
      * apply (scalar_back_intro [100] Fd); [forall_tac|]. apply rb_f64; [lia|cbn; auto].
      * apply (scalar_back_intro [102] Ff); [forall_tac|]. apply rb_f32; [lia|reflexivity|cbn; auto].
      * apply (scalar_back_intro [116] Fs); [forall_tac|]. apply rb_str. forall_tac.
    + constructor; [|constructor].
      apply (array_back_intro 55 [109] Fh DI16); try reflexivity; try (forall_tac; fail); [cbv; split; congruence|].
      left. forall_tac.
Qed.
