(** Properties of restructured files: C81. *)
From Coq Require Import String ZArith List Bool Lia.
From Verif Require Import Base BytesProofs SDarnFormats BorealisTypes BorealisFormats BorealisChecks BorealisArrays
  BorealisTime BorealisFile BorealisRestructure BorealisSpec BorealisCatalogue BorealisShapes BorealisFileSpec
  BorealisRestructureSpec BorealisRestructureFileSpec BorealisCases BorealisCheckProofs BorealisCaseProofs BorealisRestructProofs
  BorealisFileProofs BorealisFileCaseProofs BorealisArrayProps BorealisFileProps BorealisRestructureProofs DmapFileProofs
  BorealisRestructureProps BorealisRestructureFileProps BorealisRestructureArrayFileProofs BorealisRestructureArrayFileProps
  BorealisRestructureWideProofs.
Import ListNotations.
Open Scope list_scope.
Open Scope Z_scope.

(** C81. A site file of bfiq or rawacf records in which a later record has more beams
    than the first is never restructured: a ValueError, and no file is touched. *)
Theorem C81_wide : forall av fs i o f t g z cs rs c v,
  has_structures t -> i <> o -> holds fs i f -> site_layout (format_class g t) f -> read_records f = Ok rs ->
  (forall n r, In (n, r) rs -> site_record_ok (format_class g t) r /\ storable (format_class g t) r) ->
  consistent g t z cs rs -> records_version rs v -> supported v g ->
  t <> AntennasIq -> ~ widest_first cs ->
  (role_of g t (str "pulse_phase_offset") Varying -> forall n r, In (n, r) rs -> phases_of_pulses r) ->
  restructure av fs i o (type_name t) (str "array") c = (fs, Raise ValueError).
Proof. exact wide_never. Qed.
Print Assumptions C81_wide.

(** So the beams of the first record decide. *)
Theorem C81_exact : forall av fs i o f t g z cs rs c v,
  has_structures t -> i <> o -> holds fs i f -> site_layout (format_class g t) f -> read_records f = Ok rs ->
  (forall n r, In (n, r) rs -> site_record_ok (format_class g t) r /\ storable (format_class g t) r) ->
  consistent g t z cs rs -> common_arrays g t rs -> records_version rs v -> supported v g ->
  (role_of g t (str "pulse_phase_offset") Varying -> forall n r, In (n, r) rs -> phases_of_pulses r) ->
  can_compress av c -> fs o = None ->
  (snd (restructure av fs i o (type_name t) (str "array") c) = Ok tt <-> t = AntennasIq \/ widest_first cs).
Proof. exact wide_exact. Qed.
Print Assumptions C81_exact.

(** [raw_two], whose second record has one beam more, and a bfiq file of such records;
    the same bfiq records the other way round are restructured. *)
Definition bf_narrow : brecords :=
  [(str "1558583991060", bfiq6 t1 2 1 1 [2; 2]%nat (ints 1 4)); (str "1558583991822", bfiq6 t2 3 2 2 [3; 2]%nat (ints 7 6))].
Definition bf_narrow_fs : hfs := bf_fs bf_narrow.
Definition narrow_counts : list counts := [mk_counts 2 1 1; mk_counts 3 2 2]%nat.
Lemma bf_narrow_hyps : site_hyps bf_narrow_fs Bfiq G6 bf_sizes narrow_counts (records_in bf_narrow_fs) (str "v0.6").
Proof.
  site_hyps ltac:(right; intros c [<-|[<-|[]]]; cbn; lia)
    ltac:(intros _; exists (fun c => [c_seq c; 2%nat]); split; [constructor; lia|];
          apply all_phasesb_ok; vm_compute; reflexivity).
Qed.
Lemma narrow_first : ~ widest_first narrow_counts.
Proof. intros H. specialize (H (mk_counts 3 2 2) (or_intror (or_introl eq_refl))). cbn in H. lia. Qed.
Lemma raw_first : ~ widest_first raw_counts.
Proof. intros H. specialize (H _ (or_intror (or_introl eq_refl))). cbn in H. lia. Qed.
Example C81_case :
  site_hyps narrow_fs BRawacf G6 raw_sizes raw_counts (records_in narrow_fs) (str "v0.6") /\ ~ widest_first raw_counts /\
  snd (joined narrow_fs BRawacf) = Raise ValueError /\
  site_hyps bf_narrow_fs Bfiq G6 bf_sizes narrow_counts (records_in bf_narrow_fs) (str "v0.6") /\ ~ widest_first narrow_counts /\
  (forall n r, In (n, r) (records_in bf_narrow_fs) -> phases_of_pulses r) /\ snd (joined bf_narrow_fs Bfiq) = Raise ValueError /\
  snd (joined bf_wide_fs Bfiq) = Ok tt.
Proof.
  split; [exact narrow_hyps|]. split; [exact raw_first|]. split; [vm_compute; reflexivity|]. split; [exact bf_narrow_hyps|].
  split; [exact narrow_first|]. split; [apply phases_fitb_ok; vm_compute; reflexivity|]. split; vm_compute; reflexivity.
Qed.
