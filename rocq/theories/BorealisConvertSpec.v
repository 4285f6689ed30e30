(** Specification of the conversion of Borealis files: what a record says, which
    records can be converted, what the converted records contain. *)
From Coq Require Import String ZArith List Bool Permutation Sorted.
From Verif Require Import Base FloatBits FloatSpec DmapTypes SDarnFormats BorealisTypes.
Import ListNotations.
Open Scope list_scope.
Open Scope Z_scope.

(** ** Fields of a Borealis record *)

(** The text [s], as Python or numpy string. *)
Definition text_field (r : brecord) (k s : pystr) : Prop :=
  dict_get r k = Some (BText s) \/ dict_get r k = Some (BScalar BNpStr (CS s)).
(** One number; for a float type its bit pattern. *)
Definition number_field (r : brecord) (k : pystr) (t : btype) (z : Z) : Prop :=
  dict_get r k = Some (BScalar t (CZ z)).
(** A one-dimensional array of numbers. *)
Definition vector_field (r : brecord) (k : pystr) (t : btype) (l : list Z) : Prop :=
  dict_get r k = Some (BArr t [length l] (map CZ l)).

(** ** Version texts *)

(** "v<major>.<rest>" with the first dot before the first dash. *)
Definition tagged (h : pystr) : Prop :=
  exists major rest, h = 118 :: major ++ 46 :: rest /\ ~ In 45 major /\ ~ In 46 major.
(** A text that does not start with v. *)
Definition untagged (h : pystr) : Prop := exists c rest, h = c :: rest /\ c <> 118.

(** ** Blanked samples *)

(** The pulses, their spacing [tau] and length [len] in microseconds and the blanked
    samples of a record, and its version. *)
Record timed (r : brecord) (hash : pystr) (tau len : Z) (pulses blanked : list Z) : Prop := mk_timed {
  tm_hash : text_field r (str "borealis_git_hash") hash;
  tm_tau : number_field r (str "tau_spacing") BU32 tau;
  tm_len : number_field r (str "tx_pulse_len") BU32 len;
  tm_pulses : vector_field r (str "pulses") BU32 pulses;
  tm_blanked : vector_field r (str "blanked_samples") BU32 blanked
}.

(** The sample at which a pulse is sent, in 32-bit arithmetic. *)
Definition pulse_sample (tau len p : Z) : Z := (p * (tau / len)) mod 2 ^ 32.
(** The blanked samples are the samples of the pulses, or these and the sample after each
    of them, in ascending order. *)
Definition blanked_rule (tau len : Z) (pulses blanked : list Z) : Prop :=
  blanked = map (pulse_sample tau len) pulses \/
  Permutation blanked (map (pulse_sample tau len) pulses ++
                       map (fun p => (pulse_sample tau len p + 1) mod 2 ^ 32) pulses) /\
  StronglySorted Z.le blanked.
Definition well_blanked (r : brecord) : Prop :=
  exists h tau len pulses blanked, timed r h tau len pulses blanked /\ blanked_rule tau len pulses blanked.

(** A record with the fields the check looks at, a pulse length and a version. *)
Definition checkable (r : brecord) : Prop :=
  exists h tau len pulses blanked, timed r h tau len pulses blanked /\ 0 < len /\ (tagged h \/ untagged h).

(** A float32 that is 0. *)
Definition zero_phase (b : Z) : Prop := f32_exp b = 0 /\ f32_man b = 0.
Definition phases (r : brecord) (l : list Z) : Prop :=
  vector_field r (str "pulse_phase_offset") BF32 l /\ Forall (fun b => 0 <= b < 2 ^ 32) l.

(** Phase offsets for each pulse, all 0. *)
Definition all_zero_phases (r : brecord) : Prop := exists l, phases r l /\ Forall zero_phase l.

(** ** Fields of a DMAP record *)

(** An array of the given element type, shape and elements. *)
Definition out_array (r : record) (k : pystr) (d : dtype) (shape : list nat) (data : list Z) : Prop :=
  exists a, dict_get r k = Some (IArray a) /\ ar_value a = mk_ndarray d false (map Z.of_nat shape) data.
(** A scalar. *)
Definition out_scalar (r : record) (k : pystr) (v : pyval) : Prop :=
  exists s, dict_get r k = Some (IScalar s) /\ sc_value s = v.

(** The int16 with the same remainder modulo 2^16, the int32 modulo 2^32. *)
Definition is_int16 (z w : Z) : Prop := - 2 ^ 15 <= w < 2 ^ 15 /\ (w - z) mod 2 ^ 16 = 0.
Definition is_int32 (z w : Z) : Prop := - 2 ^ 31 <= w < 2 ^ 31 /\ (w - z) mod 2 ^ 32 = 0.

(** ** Samples *)

(** A float32 as int16: cut off towards zero and limited; an infinity gives the limit, a
    NaN gives 0. *)
Definition limited16 (b w : Z) : Prop :=
  if f32_exp b =? 255 then
    w = if f32_man b =? 0 then (if f32_sign b =? 0 then 32767 else -32768) else 0
  else
    let t := Z.quot (f32_val b) (2 ^ 149) in
    w = if t <? -32768 then -32768 else if 32767 <? t then 32767 else t.

(** The complex samples of a record with dimensions [dims] under name [dk]. *)
Definition complex_field (r : brecord) (dk k : pystr) (dims : list nat) (data : list (Z * Z)) : Prop :=
  dict_get r dk = Some (BArr BU32 [length dims] (map (fun n => CZ (Z.of_nat n)) dims)) /\
  (exists shape, dict_get r k = Some (BArr BC64 shape (map (fun c => CC (fst c) (snd c)) data))) /\
  length data = size dims.

(** *** bfiq *)

(** A bfiq record: its beams, the numbers of sequences and samples, the antenna arrays,
    the normalization and the data of [na] arrays, [ns] sequences, [nb] beams and [n]
    samples. *)
Record bfiq_source (r : brecord) (beams : list Z) (nseq arrays samps : nat) (norm : Z) (na ns nb n : nat)
    (data : list (Z * Z)) : Prop := mk_bfiq_source {
  bs_beams : vector_field r (str "beam_nums") BU32 beams;
  bs_sequences : number_field r (str "num_sequences") BI64 (Z.of_nat nseq);
  bs_arrays : exists t names, dict_get r (str "antenna_arrays_order") = Some (BArr t [arrays] names);
  bs_samples : number_field r (str "num_samps") BU32 (Z.of_nat samps);
  bs_norm : number_field r (str "data_normalization_factor") BF64 norm;
  bs_data : complex_field r (str "data_dimensions") (str "data") [na; ns; nb; n] data
}.

(** [vals]: for each sequence, array and sample of beam [b] the real and the imaginary
    part of the scaled sample, as int16. *)
Definition iq_values (scale : Z * Z -> Z * Z) (nseq na ns nb n : nat) (data : list (Z * Z)) (b : nat)
    (vals : list Z) : Prop :=
  length vals = (nseq * na * n * 2)%nat /\
  forall i x s, (i < nseq)%nat -> (x < na)%nat -> (s < n)%nat ->
  exists z re im,
    nth_error data (((x * ns + i) * nb + b) * n + s) = Some z /\
    limited16 (fst (scale z)) re /\ limited16 (snd (scale z)) im /\
    nth_error vals (((i * na + x) * n + s) * 2) = Some re /\
    nth_error vals (((i * na + x) * n + s) * 2 + 1) = Some im.

(** *** rawacf *)

(** A rawacf record of [nb] beams, [nr] ranges and [nl] lags. *)
Record rawacf_source (r : brecord) (beams : list Z) (norm : Z) (nb nr nl : nat) (main xcfs : list (Z * Z))
    : Prop := mk_rawacf_source {
  rs_beams : vector_field r (str "beam_nums") BU32 beams;
  rs_norm : number_field r (str "data_normalization_factor") BF64 norm;
  rs_data : exists dk,
    (dk = str "correlation_dimensions" \/
     dict_get r (str "correlation_dimensions") = None /\ dk = str "data_dimensions") /\
    complex_field r dk (str "main_acfs") [nb; nr; nl] main /\ complex_field r dk (str "xcfs") [nb; nr; nl] xcfs
}.

(** [vals]: for each range and each lag but the last of beam [b] the real and the
    imaginary part of the scaled correlation. *)
Definition lag_values (scale : Z * Z -> Z * Z) (nr nl : nat) (data : list (Z * Z)) (b : nat) (vals : list Z) : Prop :=
  length vals = (nr * (nl - 1) * 2)%nat /\
  forall i j, (i < nr)%nat -> (j < nl - 1)%nat ->
  exists z, nth_error data ((b * nr + i) * nl + j) = Some z /\
    nth_error vals ((i * (nl - 1) + j) * 2) = Some (fst (scale z)) /\
    nth_error vals ((i * (nl - 1) + j) * 2 + 1) = Some (snd (scale z)).
(** [vals]: the power of lag zero of each range of beam [b]. *)
Definition lag0_values (scale : Z * Z -> Z * Z) (power : Z * Z -> Z) (nr nl : nat) (data : list (Z * Z)) (b : nat)
    (vals : list Z) : Prop :=
  length vals = nr /\
  forall i, (i < nr)%nat ->
  exists z, nth_error data ((b * nr + i) * nl) = Some z /\ nth_error vals i = Some (power (scale z)).
