(** What consistent site records are: the dimensions of the fields that vary from
    record to record, and which fields must agree. *)
From Coq Require Import String ZArith List Bool.
From Verif Require Import Base SDarnFormats BorealisTypes BorealisFormats BorealisSpec BorealisCatalogue.
Import ListNotations.
Open Scope list_scope.
Open Scope nat_scope.

(** The dimensions that occur: sequences, beams, blanked samples (different from
    record to record); antennas or antenna arrays, ranges, lags, samples, transmit
    antennas (the same in the whole file). *)
Inductive dim : Type := DSeq | DBeam | DBlank | DArr | DRange | DLag | DSamp | DPhase.

(** The sizes of one record, and of the file. *)
Record counts : Type := mk_counts { c_seq : nat; c_beam : nat; c_blank : nat }.
Record sizes : Type := mk_sizes { z_arr : nat; z_range : nat; z_lag : nat; z_samp : nat; z_phase : nat }.

Definition dim_val (z : sizes) (c : counts) (d : dim) : nat :=
  match d with
  | DSeq => c_seq c | DBeam => c_beam c | DBlank => c_blank c
  | DArr => z_arr z | DRange => z_range z | DLag => z_lag z | DSamp => z_samp z | DPhase => z_phase z
  end.

(** The dimensions of the data of a file type. *)
Definition data_layout (t : filetype) : list dim :=
  match t with
  | AntennasIq => [DArr; DSeq; DSamp]
  | Bfiq => [DArr; DSeq; DBeam; DSamp]
  | _ => [DBeam; DRange; DLag]
  end.

Definition is_one_of (k : pystr) (l : list string) : bool := existsb (fun s => str_eqb k (str s)) l.

(** The fields that hold the data. *)
Definition data_field (t : filetype) (k : pystr) : bool :=
  match t with
  | BRawacf => is_one_of k ["main_acfs"; "intf_acfs"; "xcfs"]%string
  | _ => is_one_of k ["data"]%string
  end.

(** The dimensions of the varying array fields other than pulse_phase_offset. *)
Definition layout (t : filetype) (k : pystr) : list dim :=
  if is_one_of k ["sqn_timestamps"; "noise_at_freq"]%string then [DSeq]
  else if is_one_of k ["beam_nums"; "beam_azms"]%string then [DBeam]
  else if is_one_of k ["blanked_samples"]%string then [DBlank]
  else if is_one_of k ["tx_antenna_phases"]%string
       then match t with AntennasIq => [DArr] | _ => [DPhase] end
  else data_layout t.

Definition shape_of (t : filetype) (z : sizes) (c : counts) (k : pystr) : list nat :=
  map (dim_val z c) (layout t k).

(** Data is stored flat in site records, except in rawacf from version 0.7 on. *)
Definition flat (g : generation) (t : filetype) (k : pystr) : bool :=
  data_field t k && negb (match g, t with G7, BRawacf => true | _, _ => false end).

Definition stored_shape (g : generation) (t : filetype) (z : sizes) (c : counts) (k : pystr) : list nat :=
  if flat g t k then [size (shape_of t z c k)] else shape_of t z c k.

(** The fields that hold the data's dimensions and their names. *)
Definition dims_field (g : generation) (t : filetype) : pystr :=
  match t, g with
  | BRawacf, (G4 | G5 | G6) => str "correlation_dimensions"
  | _, _ => str "data_dimensions"
  end.
Definition names_field (g : generation) (t : filetype) : pystr :=
  match t, g with
  | BRawacf, (G4 | G5 | G6) => str "correlation_descriptors"
  | _, _ => str "data_descriptors"
  end.

(** A value of a varying single-element field: a scalar of the type, or a text of
    at most 256 characters without a NUL at the end. *)
Inductive one_ok (ty : btype) : bval -> Prop :=
| one_scalar : forall c, ty <> BStr -> one_ok ty (BScalar ty c)
| one_text : forall s, ty = BStr -> length s <= 256 -> last s 1%Z <> 0%Z -> one_ok ty (BText s).

(** One record with the sizes [c]. *)
Record record_fits (g : generation) (t : filetype) (z : sizes) (c : counts) (r : brecord) : Prop := {
  rf_fields : forall k, In k (keys r) <-> exists ro, role_of g t k ro /\ ro <> MadeArray;
  rf_one : forall k ty, listed g t k One ty Varying -> exists v, dict_get r k = Some v /\ one_ok ty v;
  rf_seq : dict_get r (str "num_sequences") = Some (BScalar BI64 (CZ (Z.of_nat (c_seq c))));
  rf_many : forall k ty, listed g t k Many ty Varying -> k <> str "pulse_phase_offset" ->
    exists data, dict_get r k = Some (BArr ty (stored_shape g t z c k) data) /\
      length data = size (shape_of t z c k);
  rf_dims : dict_get r (dims_field g t) =
    Some (BArr BU32 [length (data_layout t)] (map (fun d => CZ (Z.of_nat (dim_val z c d))) (data_layout t)));
  rf_small : forall d, (Z.of_nat (dim_val z c d) < 2 ^ 32)%Z;
  rf_pos : forall d, d <> DBlank -> 1 <= dim_val z c d
}.

(** The shapes of pulse_phase_offset that survive, in a file of [n] records: empty
    in all records; one number per pulse, with at most as many pulses as
    sequences in every record; one row per sequence. *)
Inductive ppo_shapes (cs : list counts) : (counts -> list nat) -> Prop :=
| ppo_none : ppo_shapes cs (fun _ => [0])
| ppo_pulses : forall p, 1 <= p -> (forall c, In c cs -> p <= c_seq c <= length cs * p) ->
    ppo_shapes cs (fun _ => [p])
| ppo_rows : forall q, 1 <= q -> ppo_shapes cs (fun c => [c_seq c; q]).

(** The records of a file; [cs] are their sizes in order. *)
Record consistent (g : generation) (t : filetype) (z : sizes) (cs : list counts) (rs : brecords) : Prop := {
  co_records : Forall2 (fun c p => record_fits g t z c (snd p)) cs rs;
  co_some : rs <> [];
  co_common : forall k n r n' r', role_of g t k Common -> In (n, r) rs -> In (n', r') rs ->
    dict_get r k = dict_get r' k;
  co_blank : (forall c, In c cs -> c_blank c = 0) \/ (forall c, In c cs -> 1 <= c_blank c);
  co_ppo : role_of g t (str "pulse_phase_offset") Varying -> exists f, ppo_shapes cs f /\
    Forall2 (fun c p => exists data,
      dict_get (snd p) (str "pulse_phase_offset") = Some (BArr BF32 (f c) data) /\
      length data = size (f c)) cs rs
}.

(** The first timestamp of a record. *)
Definition first_time (r : brecord) (b : Z) : Prop :=
  exists ty s l, dict_get r (str "sqn_timestamps") = Some (BArr ty s (CZ b :: l)).

(** The records are named by their first timestamps, differently. *)
Definition named_by (record_name : Z -> res pystr) (rs : brecords) : Prop :=
  NoDup (keys rs) /\ forall n r, In (n, r) rs -> exists b, first_time r b /\ record_name b = Ok n.

(** [nms] are the names the first timestamps of the records give. *)
Definition names_of (record_name : Z -> res pystr) (rs : brecords) (nms : list pystr) : Prop :=
  Forall2 (fun p nm => exists b, first_time (snd p) b /\ record_name b = Ok nm) rs nms.

(** The distinct names of a list, in the order of their first occurrences. *)
Fixpoint first_names (l : list pystr) : list pystr :=
  match l with
  | [] => []
  | x :: l' => x :: filter (fun y => negb (str_eqb y x)) (first_names l')
  end.

(** The names of the data's dimensions in a site record; their type is [np.str_],
    but in rawacf and antennas_iq of version 0.7. *)
Definition dim_names (t : filetype) : list pystr :=
  match t with
  | AntennasIq => [str "num_antennas"; str "num_sequences"; str "num_samps"]
  | Bfiq => [str "num_antenna_arrays"; str "num_sequences"; str "num_beams"; str "num_samps"]
  | _ => [str "num_beams"; str "num_ranges"; str "num_lags"]
  end.
Definition names_type (g : generation) (t : filetype) : btype :=
  match g, t with
  | G7, (AntennasIq | BRawacf) => BBytes
  | _, _ => BNpStr
  end.
Definition names_value (g : generation) (t : filetype) : bval :=
  BArr (names_type g t) [length (dim_names t)] (map CS (dim_names t)).

(** [r'] is [r] again, with the standard names of the dimensions. *)
Definition same_record (g : generation) (t : filetype) (r r' : brecord) : Prop :=
  (forall k, k <> names_field g t -> dict_get r' k = dict_get r k) /\
  dict_get r' (names_field g t) = Some (names_value g t).

(** ** What the arrays made of such records hold *)

(** The place of a multi-index in row-major order. *)
Fixpoint offset (ds idx : list nat) : nat :=
  match ds, idx with
  | _ :: ds', i :: idx' => i * size ds' + offset ds' idx'
  | _, _ => 0
  end.

(** The greatest size over the records. *)
Definition top_dim (z : sizes) (cs : list counts) (d : dim) : nat :=
  list_max (map (fun c => dim_val z c d) cs).

(** The value of a cell no record fills: NaN, -1 in int64, 0 in unsigned types,
    True in bool, 'nan' in texts. *)
Definition blank_cell (ty : btype) : cell :=
  match ty with
  | BF32 => CZ 2143289344
  | BF64 => CZ 9221120237041090560
  | BC64 => CC 2143289344 0
  | BC128 => CC 9221120237041090560 0
  | BI64 => CZ (-1)
  | BBool => CZ 1
  | BStr => CS (str "nan")
  | _ => CZ 0
  end.

(** Texts are stored in arrays of [np.str_]. *)
Definition array_type (ty : btype) : btype := match ty with BStr => BNpStr | ty => ty end.

(** The single value a cell stands for. *)
Definition plain_value (ty : btype) (c : cell) : bval :=
  match ty, c with
  | BStr, CS s => BText s
  | _, _ => BScalar ty c
  end.

(** In an array of shape [n :: ms], row [i] holds the elements [b] of shape [ss] in
    its leading corner and blanks elsewhere. *)
Definition row_holds (ty : btype) (n : nat) (ms : list nat) (data : list cell) (i : nat)
    (ss : list nat) (b : list cell) : Prop :=
  forall idx, Forall2 lt idx ms ->
    (Forall2 lt idx ss -> nth_error data (offset (n :: ms) (i :: idx)) = nth_error b (offset ss idx)) /\
    (~ Forall2 lt idx ss -> nth_error data (offset (n :: ms) (i :: idx)) = Some (blank_cell ty)).

(** The greatest shape of pulse_phase_offset. *)
Definition ppo_greatest (z : sizes) (cs : list counts) (s : list nat) : list nat :=
  match s with
  | [_; q] => [top_dim z cs DSeq; q]
  | s => s
  end.

(** The names of the dimensions in an array file. *)
Definition array_dim_names (t : filetype) : list pystr :=
  str "num_records" ::
  match t with
  | AntennasIq => [str "num_antennas"; str "max_num_sequences"; str "num_samps"]
  | Bfiq => [str "num_antenna_arrays"; str "max_num_sequences"; str "max_num_beams"; str "num_samps"]
  | _ => [str "max_num_beams"; str "num_ranges"; str "num_lags"]
  end.

(** [a] is the array dictionary of the records [rs], whose sizes are [cs]. *)
Record arrays_of (g : generation) (t : filetype) (z : sizes) (cs : list counts) (rs : brecords) (a : brecord) : Prop := {
  ao_nodup : NoDup (keys a);
  ao_fields : forall k, In k (keys a) <-> exists ro, role_of g t k ro /\ ro <> MadeSite;
  ao_common : forall k n r, role_of g t k Common -> In (n, r) rs -> dict_get a k = dict_get r k;
  ao_one : forall k ty, listed g t k One ty Varying -> exists data,
    dict_get a k = Some (BArr (array_type ty) [length rs] data) /\
    Forall2 (fun c p => dict_get (snd p) k = Some (plain_value ty c)) data rs;
  ao_many : forall k ty, listed g t k Many ty Varying -> k <> str "pulse_phase_offset" ->
    let ms := map (top_dim z cs) (layout t k) in
    exists data, dict_get a k = Some (BArr ty (length rs :: ms) data) /\ length data = length rs * size ms /\
      forall i c n r, nth_error cs i = Some c -> nth_error rs i = Some (n, r) ->
        exists b, dict_get r k = Some (BArr ty (stored_shape g t z c k) b) /\
          row_holds ty (length rs) ms data i (shape_of t z c k) b;
  ao_ppo : role_of g t (str "pulse_phase_offset") Varying ->
    exists ms data, dict_get a (str "pulse_phase_offset") = Some (BArr BF32 (length rs :: ms) data) /\
      length data = length rs * size ms /\
      forall i n r, nth_error rs i = Some (n, r) ->
        exists s b, dict_get r (str "pulse_phase_offset") = Some (BArr BF32 s b) /\ ms = ppo_greatest z cs s /\
          row_holds BF32 (length rs) ms data i s b;
  ao_beams : dict_get a (str "num_beams") = Some (BArr BU32 [length rs] (map (fun c => CZ (Z.of_nat (c_beam c))) cs));
  ao_blanked : g <> G4 -> dict_get a (str "num_blanked_samples") =
    Some (BArr BU32 [length rs] (map (fun c => CZ (Z.of_nat (c_blank c))) cs));
  ao_names : exists ty, dict_get a (names_field g t) =
    Some (BArr ty [length (array_dim_names t)] (map CS (array_dim_names t))) /\
    ty = match g, t with G7, BRawacf => BBytes | _, _ => BNpStr end
}.
