(** Properties of the groups of restructured files: C71. *)
From Coq Require Import String ZArith List Bool Lia.
From Verif Require Import Base BytesProofs FloatBits SDarnFormats BorealisTypes BorealisFormats BorealisChecks BorealisArrays
  BorealisTime BorealisFile BorealisRestructure BorealisSpec BorealisShapes BorealisFileSpec BorealisRestructureSpec BorealisAppendSpec
  BorealisRestructureNamesSpec BorealisCases BorealisCheckProofs BorealisFileProofs BorealisTimeProofs BorealisFileCaseProofs BorealisArrayProps BorealisFileProps
  BorealisRestructureProofs BorealisRestructureProps BorealisRestructureFileProps BorealisRestructureNamesProofs.
Import ListNotations.
Open Scope list_scope.
Open Scope Z_scope.

(** C71. Whatever the result, restructuring an array file only appends groups to the
    output file: new ones, one for each row of the timestamps up to the point of
    failure, named by the first timestamp of the row. *)
Theorem C71_output : forall av fs i o f ft c f0 fs' r, holds fs i f -> NoDup (keys (h_items f)) -> BorealisRestructureSpec.array_file f ->
  output_before fs o f0 -> restructure av fs i o ft (str "site") c = (fs', r) ->
  exists its, (holds fs' o (mk_hfile (h_items f0 ++ its) (h_attrs f0)) \/ (its = [] /\ fs' o = fs o)) /\
    Forall (fun p => is_group (snd p)) its /\ NoDup (keys its) /\ (forall n, In n (keys its) -> ~ In n (keys (h_items f0))) /\
    (forall j n, nth_error (keys its) j = Some n -> exists b, row_time f j b /\ record_name b = Ok n) /\
    (r = Ok tt -> forall n, time_rows f n -> length its = n).
Proof. exact restructure_groups. Qed.
Print Assumptions C71_output.

(** Two rows with the same name, or a name that the output file has already, make
    restructuring fail. *)
Theorem C71_clash : forall av fs i o f t c v g f0 n j b nm fs' r, has_structures t -> i <> o -> holds fs i f -> NoDup (keys (h_items f)) ->
  BorealisRestructureSpec.array_file f -> has_version f v -> supported v g -> output_before fs o f0 -> time_rows f n ->
  row_time f j b -> record_name b = Ok nm ->
  (In nm (keys (h_items f0)) \/ exists k b', k <> j /\ row_time f k b' /\ record_name b' = Ok nm) ->
  restructure av fs i o (type_name t) (str "site") c = (fs', r) ->
  r = Raise BorealisRestructureError \/ r = Raise OutOfModel.
Proof. exact restructure_clash. Qed.
Print Assumptions C71_clash.

(** So records that start in the same millisecond, which the array reader merges
    (C42), make restructuring fail. *)
Theorem C71_millisecond : forall av fs i o f t c v g f0 n j k b b' m m' fs' r, has_structures t -> i <> o -> holds fs i f ->
  NoDup (keys (h_items f)) -> BorealisRestructureSpec.array_file f -> has_version f v -> supported v g -> output_before fs o f0 ->
  time_rows f n -> row_time f j b -> row_time f k b' -> k <> j ->
  0 <= b -> f64_sign b = 0 -> f64_exp b = 1053 -> rounds_to (f64_man b + 2 ^ 52) m -> 1099511628776000 < m < 2147483648000000 ->
  0 <= b' -> f64_sign b' = 0 -> f64_exp b' = 1053 -> rounds_to (f64_man b' + 2 ^ 52) m' -> 1099511628776000 < m' < 2147483648000000 ->
  m / 1000 = m' / 1000 ->
  restructure av fs i o (type_name t) (str "site") c = (fs', r) ->
  r = Raise BorealisRestructureError \/ r = Raise OutOfModel.
Proof.
  intros av fs i o f t c v g f0 n j k b b' m m' fs' r HT HO HF ND HA HV HG OB TR RJ RK NE B1 B2 B3 B4 B5 K1 K2 K3 K4 K5 EM H.
  refine (restructure_clash av fs i o f t c v g f0 n j b _ fs' r HT HO HF ND HA HV HG OB TR RJ (record_name_era b _ m B1 B2 B3 eq_refl B4 B5) _ H).
  right. exists k, b'. split; [exact NE|]. split; [exact RK|]. rewrite EM. exact (record_name_era b' _ m' K1 K2 K3 eq_refl K4 K5).
Qed.
Print Assumptions C71_millisecond.

(** An array file without timestamps changes no file, and gives no site file. *)
Theorem C71_empty : forall av fs i o f ft c fs' r, holds fs i f -> NoDup (keys (h_items f)) -> BorealisRestructureSpec.array_file f ->
  time_rows f 0 -> restructure av fs i o ft (str "site") c = (fs', r) -> fs' = fs.
Proof. exact restructure_empty. Qed.
Print Assumptions C71_empty.

(** An array file of two records, restructured once, and again into the same output
    file: the second time fails and changes nothing.  The same for two records of one
    millisecond: the first is written. *)
Definition site_names (fs : hfs) : option (list pystr) :=
  match fs (str "s") with Some (Hdf f) => Some (keys (h_items f)) | _ => None end.
Definition again (fs : hfs) : hfs * res unit := restructure h5py_filters fs (str "g") (str "s") (str "bfiq") (str "site") None.
Definition clash_in : hfile := Eval vm_compute in file_in (BorealisRestructureFileProps.array_file bf_clash) (str "g").

Lemma row_of f j b d n w al : dict_get (h_items f) (str "sqn_timestamps") = Some (HDset d al) -> hd_shape d = [n; w] -> Nat.ltb j n = true ->
  nth_error (hd_data d) (j * w) = Some (CZ b) -> row_time f j b.
Proof. intros H1 H2 H3 H4. exists d, al, n, w. split; [now apply SDarnChecks.dict_get_In|]. split; [exact H2|]. split; [now apply Nat.ltb_lt|exact H4]. Qed.
Lemma rows_of f d n w al : dict_get (h_items f) (str "sqn_timestamps") = Some (HDset d al) -> hd_shape d = [n; w] -> time_rows f n.
Proof. intros H1 H2. exists d, al, [w]. split; [now apply SDarnChecks.dict_get_In|exact H2]. Qed.

Example C71_case :
  let fs := BorealisRestructureFileProps.array_file bf_clash in
  (holds fs (str "g") clash_in /\ NoDup (keys (h_items clash_in)) /\ BorealisRestructureSpec.array_file clash_in /\
   has_version clash_in (str "v0.6") /\ supported (str "v0.6") G6 /\ output_before fs (str "s") (mk_hfile [] [])) /\
  (time_rows clash_in 2 /\ row_time clash_in 0 t1 /\ row_time clash_in 1 t1' /\
   record_name t1 = Ok (str "1558583991060") /\ record_name t1' = Ok (str "1558583991060")) /\
  (snd (split_file bf_clash) = Raise BorealisRestructureError /\ site_names (fst (split_file bf_clash)) = Some [str "1558583991060"]) /\
  (snd (split_file bf_two) = Ok tt /\ site_names (fst (split_file bf_two)) = Some [str "1558583991060"; str "1558583991822"] /\
   snd (again (fst (split_file bf_two))) = Raise BorealisRestructureError /\
   site_names (fst (again (fst (split_file bf_two)))) = Some [str "1558583991060"; str "1558583991822"]).
Proof.
  cbv zeta. split; [split; [|split; [|split; [|split; [|split]]]]|split; [|split]].
  - vm_compute. reflexivity.
  - apply nodupb_ok. vm_compute. reflexivity.
  - right. apply str_mem_In. vm_compute. reflexivity.
  - eexists. split; cycle 1; [left; eexists; split; vm_compute; reflexivity|]. apply version_of_ok. vm_compute. reflexivity.
  - exact v06.
  - right. split; [vm_compute; reflexivity|reflexivity].
  - split; [eapply rows_of; vm_compute; reflexivity|]. split; [eapply row_of; vm_compute; reflexivity|]. split; [eapply row_of; vm_compute; reflexivity|].
    split; vm_compute; reflexivity.
  - split; vm_compute; reflexivity.
  - repeat apply conj; vm_compute; reflexivity.
Qed.
