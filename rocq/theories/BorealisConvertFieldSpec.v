(** Specification of the single fields of converted records: numbers, dates,
    counts and texts. *)
From Coq Require Import String ZArith List Bool.
From Verif Require Import Base FloatBits FloatSpec DmapTypes SDarnFormats BorealisTypes BorealisConvertSpec.
From Verif Require Export NumeralSpec.
Import ListNotations.
Open Scope list_scope.
Open Scope Z_scope.

(** ** Numbers *)

(** [n] is the integer part of [a / b] after rounding to [p] bits: the integer part of
    [a / b], or the next integer if [a / b] is within a relative distance of [2^-p]. *)
Definition cut_quotient (p a b n : Z) : Prop :=
  n = a / b \/ n = a / b + 1 /\ (n * b - a) * 2 ^ p <= a.

(** [n] is the integer nearest to [a / b], of two the even one. *)
Definition nearest_integer (a b n : Z) : Prop :=
  2 * Z.abs (a - n * b) <= b /\ (2 * Z.abs (a - n * b) = b -> Z.even n = true).

(** [c] is the float32 nearest to the finite float64 [b], of two the one with the even
    mantissa; beyond the largest float32 it is infinite. *)
Definition nearest_single (b c : Z) : Prop :=
  f32_sign c = f64_sign b /\
  (f32_exp c = 255 <-> (2 ^ 25 - 1) * 2 ^ 1177 <= Z.abs (f64_val b)) /\
  (f32_exp c = 255 -> f32_man c = 0) /\
  (f32_exp c <> 255 -> forall c', 0 <= c' < 2 ^ 32 -> f32_exp c' <> 255 ->
     Z.abs (f64_val b - f32_val c * 2 ^ 925) <= Z.abs (f64_val b - f32_val c' * 2 ^ 925) /\
     (Z.abs (f64_val b - f32_val c * 2 ^ 925) = Z.abs (f64_val b - f32_val c' * 2 ^ 925) ->
      f32_val c <> f32_val c' -> Z.even (f32_man c) = true)).

(** ** Dates *)

(** The calendar: year, month, day. *)
Definition leap (y : Z) : bool := (y mod 4 =? 0) && negb (y mod 100 =? 0) || (y mod 400 =? 0).
Definition month_days (y m : Z) : Z :=
  if m =? 2 then (if leap y then 29 else 28)
  else if existsb (Z.eqb m) [4; 6; 9; 11] then 30 else 31.
Definition valid_date (t : Z * Z * Z) : Prop :=
  let '(y, m, d) := t in 1 <= m <= 12 /\ 1 <= d <= month_days y m.
Definition next_day (t : Z * Z * Z) : Z * Z * Z :=
  let '(y, m, d) := t in
  if d <? month_days y m then (y, m, d + 1) else if m <? 12 then (y, m + 1, 1) else (y + 1, 1, 1).

(** The date of a number of days since 1970-01-01. *)
Inductive date_of : Z -> Z * Z * Z -> Prop :=
| date_epoch : date_of 0 (1970, 1, 1)
| date_next  : forall n t, date_of n t -> date_of (n + 1) (next_day t)
| date_prev  : forall n t, valid_date t -> date_of n (next_day t) -> date_of (n - 1) t.

(** A date and time of day, in microseconds since 1970. *)
Definition is_time (m yr mo dy hr mt sc us : Z) : Prop :=
  exists days, date_of days (yr, mo, dy) /\ 0 <= hr < 24 /\ 0 <= mt < 60 /\ 0 <= sc < 60 /\ 0 <= us < 1000000 /\
    m = (((days * 24 + hr) * 60 + mt) * 60 + sc) * 1000000 + us.

(** The microseconds [m] of the timestamp [b], a float64 in seconds: at most half a
    microsecond and [2^-34] microseconds from it. *)
Definition micros_of (b m : Z) : Prop :=
  2 * Z.abs (m * 2 ^ 1074 - f64_val b * 1000000) <= 2 ^ 1074 + 2 ^ 1041.

(** ** Fields *)

(** A scalar of type short with the remainder of [z]. *)
Definition short_field (o : record) (k : pystr) (z : Z) : Prop :=
  exists w, is_int16 z w /\ out_scalar o k (VNpInt NI16 w).

(** A scalar of type int with the remainder of [z]. *)
Definition int_field (o : record) (k : pystr) (z : Z) : Prop :=
  exists w, is_int32 z w /\ out_scalar o k (VNpInt NI32 w).
(** An array of shorts with the remainders of [l]. *)
Definition short_array (o : record) (k : pystr) (shape : list nat) (l : list Z) : Prop :=
  exists l', Forall2 is_int16 l l' /\ out_array o k DI16 shape l'.

(** The integer fields that are copied. *)
Definition copied_fields : list (pystr * pystr) :=
  [(str "experiment_id", str "cp"); (str "num_sequences", str "nave"); (str "scan_start_marker", str "scan");
   (str "tx_pulse_len", str "txpl"); (str "tau_spacing", str "mpinc"); (str "freq", str "tfreq")].
(** The status words: 0 if there is none. *)
Definition status_fields : list (pystr * pystr) :=
  [(str "agc_status_word", str "stat.agc"); (str "lp_status_word", str "stat.lopwr")].
(** The fields that are the same in all records. *)
Definition constant_fields : list (pystr * pyval) :=
  [(str "origin.code", VNpInt NI8 100); (str "atten", VNpInt NI16 0); (str "ercod", VNpInt NI16 0);
   (str "noise.mean", VF32 0); (str "offset", VNpInt NI16 0); (str "rxrise", VNpInt NI16 0);
   (str "mxpwr", VNpInt NI32 (-1)); (str "lvmax", VNpInt NI32 20000)].
(** Its first length. *)
Definition array_length (r : brecord) (k : pystr) (n : nat) : Prop :=
  exists t ds l, dict_get r k = Some (BArr t (n :: ds) l).


(** The converted records [recs] of [rs] are one for each beam of each record, in order,
    and have the property [P] of: the record's name and contents, the place of the beam,
    its number, the converted record. *)
Definition each_beam (rs : brecords) (recs : list record)
    (P : pystr -> brecord -> nat -> Z -> record -> Prop) : Prop :=
  exists outs, recs = concat outs /\
    Forall2 (fun p os => forall beams, vector_field (snd p) (str "beam_nums") BU32 beams ->
      length os = length beams /\
      forall b beam, nth_error beams b = Some beam ->
      exists o, nth_error os b = Some o /\ P (fst p) (snd p) b beam o) rs outs.

(** An array with the same places as [l], each with a property. *)
Definition item_array (o : record) (k : pystr) (d : dtype) (l : list Z) (P : Z -> Z -> Prop) : Prop :=
  exists l', out_array o k d [length l] l' /\ Forall2 P l l'.

(** A time after 1970 and before the year 36000, as float64 in seconds. *)
Definition usual_time (b : Z) : Prop := f64_exp b <> 2047 /\ f64_sign b = 0 /\ f64_val b < 2 ^ 40 * 2 ^ 1074.

(** ** Texts *)

(** The comment of a converted record. *)
Definition comment_text (key origin scaling beams c s : pystr) : pystr :=
  str "Converted from Borealis file: " ++ origin ++ str " record " ++ key ++ str " with scaling factor = " ++ scaling ++
  str " ; Number of beams in record: " ++ beams ++ str " ; " ++ c ++ str " ; " ++ s.

(** ** Antennas *)

(** The complex64 with these parts is not 0; a NaN does not count, unless the other part
    is infinite. *)
Definition infinite32 (b : Z) : Prop := f32_exp b = 255 /\ f32_man b = 0.
Definition nan32 (b : Z) : Prop := f32_exp b = 255 /\ f32_man b <> 0.
Definition transmitting (re im : Z) : Prop :=
  infinite32 re \/ infinite32 im \/ ~ nan32 re /\ ~ nan32 im /\ ~ (zero_phase re /\ zero_phase im).
(** The phases of the antennas of a record. *)
Definition antenna_phases (r : brecord) (l : list (Z * Z)) : Prop :=
  dict_get r (str "tx_antenna_phases") = Some (BArr BC64 [length l] (map (fun c => CC (fst c) (snd c)) l)) /\
  Forall (fun c => 0 <= fst c < 2 ^ 32 /\ 0 <= snd c < 2 ^ 32) l.
