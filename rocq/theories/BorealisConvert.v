(** Model of pydarnio/borealis/borealis_convert.py: Borealis bfiq and rawacf files to
    SuperDARN iqdat and rawacf files.

    Numbers follow numpy 1.x on x86-64: conversions to integer types wrap around, a
    float outside int32 becomes -2^31.  Not modelled: the arithmetic on the complex
    samples and the text of strftime("%c"); these are parameters. *)
From Coq Require Import String ZArith List Bool.
From Verif Require Import Base Bytes FloatBits DmapTypes SDarnFormats SDarn BorealisTypes BorealisFormats
  BorealisTime BorealisArrays BorealisFile.
From Verif Require Conversions.
Import ListNotations.
Open Scope list_scope.
Open Scope Z_scope.

(** ** Numbers *)

(** np.int8(z) of an integer (borealis_convert.py:628-629, 922-923). *)
Definition wrap8 (z : Z) : Z := to_signed 1 (z mod 2 ^ 8).
(** np.int16(z) of an integer (borealis_convert.py:630-748, 924-1015). *)
Definition wrap16 (z : Z) : Z := to_signed 2 (z mod 2 ^ 16).
(** np.int32(z) of an integer (borealis_convert.py:630-748, 924-1015). *)
Definition wrap32 (z : Z) : Z := to_signed 4 (z mod 2 ^ 32).

(** The cast of a float with integer part [t] to int32; [special]: infinite or not a
    number (borealis_convert.py:671-673, 689-691, 730-740, 966-967,
    983-985). *)
Definition cast_i32 (special : bool) (t : Z) : Z :=
  if special || (t <? - 2 ^ 31) || (2 ^ 31 <=? t) then - 2 ^ 31 else t.

(** A finite float32 is [sig32 / 2^pos32] in magnitude, a float64 [sig64 / 2^pos64]
    (the operands of borealis_convert.py:671-740, 966-985): infinite or not a number? *)
Definition special32 (b : Z) : bool := f32_exp b =? 255.
(** The significand of a float32 (see [special32]; borealis_convert.py:671-740). *)
Definition sig32 (b : Z) : Z := if f32_exp b =? 0 then f32_man b else f32_man b + 2 ^ 23.
(** The position of its binary point (borealis_convert.py:671-740). *)
Definition pos32 (b : Z) : Z := 150 - Z.max (f32_exp b) 1.
(** As [special32], for a float64 (borealis_convert.py:673, 735-740, 967). *)
Definition special64 (b : Z) : bool := f64_exp b =? 2047.
(** The significand of a float64 (borealis_convert.py:673, 735-740, 967). *)
Definition sig64 (b : Z) : Z := if f64_exp b =? 0 then f64_man b else f64_man b + 2 ^ 52.
(** The position of its binary point (borealis_convert.py:673, 735-740, 967). *)
Definition pos64 (b : Z) : Z := 1075 - Z.max (f64_exp b) 1.
(** A magnitude with a sign bit (borealis_convert.py:671-740). *)
Definition signed (s z : Z) : Z := if s =? 0 then z else - z.

(** [sig / 2^k] rounded down (the cut-off of a conversion to an integer type,
    borealis_convert.py:671-740). *)
Definition whole_part (sig k : Z) : Z := if k <=? 0 then sig * 2 ^ (- k) else sig / 2 ^ k.
(** The fraction of [sig / 2^k] in units of [2^-k] (np.fmod(x, 1.0),
    borealis_convert.py:690, 984). *)
Definition fraction (sig k : Z) : Z := if k <=? 0 then 0 else sig mod 2 ^ k.

(** np.int16(x) for a float32 (borealis_convert.py:671, 966). *)
Definition int16_of_f32 (b : Z) : Z :=
  wrap16 (cast_i32 (special32 b) (signed (f32_sign b) (whole_part (sig32 b) (pos32 b)))).

(** np.floor (borealis_convert.py:689, 735, 983) of [sig / 2^k] with sign bit [s]. *)
Definition floor_of (s sig k : Z) : Z :=
  if s =? 0 then whole_part sig k
  else - whole_part sig k - (if fraction sig k =? 0 then 0 else 1).

(** np.int16(np.floor(x)) for a float32 (borealis_convert.py:689, 983). *)
Definition int_seconds (b : Z) : Z :=
  wrap16 (cast_i32 (special32 b) (floor_of (f32_sign b) (sig32 b) (pos32 b))).
(** np.int32(np.fmod(x, 1.0) * 1e6) for a float32 (borealis_convert.py:690-691,
    984-985); the product is exact in double. *)
Definition int_micros (b : Z) : Z :=
  cast_i32 (special32 b)
    (signed (f32_sign b) (whole_part (fraction (sig32 b) (pos32 b) * 1000000) (pos32 b))).

(** Python's round() of a float32 (borealis_convert.py:698-699, 992-993): an int. *)
Definition round_f32 (b : Z) : res Z :=
  if special32 b then (if f32_man b =? 0 then Raise OverflowError else Raise ValueError)
  else
    let k := pos32 b in
    let n := signed (f32_sign b) (if k <=? 0 then sig32 b * 2 ^ (- k) else round_div (sig32 b) (2 ^ k)) in
    if (n <? - 2 ^ 63) || (2 ^ 63 <=? n) then Raise OverflowError else Ok n.

(** [a / b] for positive integers, rounded to [p] significant bits, as a fraction
    [fst / 2^snd] (the divisions of borealis_convert.py:673, 730, 735, 967). *)
Definition quotient (p a b : Z) : Z * Z :=
  let over k := if 0 <=? k then (a * 2 ^ k, b) else (a, b * 2 ^ (- k)) in
  let k0 := p - (Z.log2 a - Z.log2 b) in
  let k := if fst (over k0) <? 2 ^ p * snd (over k0) then k0 else k0 - 1 in
  (round_div (fst (over k)) (snd (over k)), k).

(** [sig1 / 2^k1 / (sig2 / 2^k2)], rounded to [p] bits (see [quotient];
    borealis_convert.py:673, 730, 735, 967).  The range of exponents plays no role: a tiny quotient becomes 0, a huge one is out of range. *)
Definition ratio (p sig1 k1 sig2 k2 : Z) : Z * Z :=
  if sig1 =? 0 then (0, 0)
  else quotient p (sig1 * 2 ^ Z.max 0 (k2 - k1)) (sig2 * 2 ^ Z.max 0 (k1 - k2)).

(** np.int16(1e6 / x) for a float64 (borealis_convert.py:673, 967). *)
Definition sample_micros (b : Z) : Z :=
  if special64 b then wrap16 (cast_i32 (negb (f64_man b =? 0)) 0)
  else if sig64 b =? 0 then wrap16 (cast_i32 true 0)
  else
    let '(n, k) := ratio 53 1000000 0 (sig64 b) (pos64 b) in
    wrap16 (cast_i32 false (signed (f64_sign b) (whole_part n k))).

(** np.int32(x / y) for float32 (borealis_convert.py:730-731). *)
Definition skip_number (x y : Z) : Z :=
  if special32 x || (special32 y && negb (f32_man y =? 0)) then cast_i32 true 0
  else if special32 y then 0
  else if sig32 y =? 0 then cast_i32 true 0
  else
    let '(n, k) := ratio 24 (sig32 x) (pos32 x) (sig32 y) (pos32 y) in
    cast_i32 false (signed ((f32_sign x + f32_sign y) mod 2) (whole_part n k)).

(** np.floor(x / 1e3) as int32, for a float64 (borealis_convert.py:735-736). *)
Definition thousand_seconds (b : Z) : Z :=
  let '(n, k) := ratio 53 (sig64 b) (pos64 b) 1000 0 in
  cast_i32 (special64 b) (floor_of (f64_sign b) n k).
(** np.fmod(x, 1000.0) * 1e3 as int32, for a float64 (borealis_convert.py:738-740). *)
Definition thousand_rest (b : Z) : Z :=
  let s := sig64 b in
  let k := pos64 b in
  let n := if k <=? 0 then (s * 2 ^ (- k)) mod 1000 else s mod (1000 * 2 ^ k) in
  cast_i32 (special64 b) (signed (f64_sign b) (whole_part (round53 (n * 1000)) (Z.max 0 k))).

(** One part of a complex64 sample as int16: limited, then cut off
    (borealis_convert.py:603-610).  Not a number gives 0 (the low half of -2^31). *)
Definition clip16 (b : Z) : Z :=
  if special32 b && negb (f32_man b =? 0) then 0
  else
    let t := if special32 b then 32768 else whole_part (sig32 b) (pos32 b) in
    Z.max (-32768) (Z.min (signed (f32_sign b) t) 32767).

(** ** Calendar *)

(** datetime.utcfromtimestamp(...).year, month, day (borealis_convert.py:640-651,
    934-945) for a number of days since 1970-01-01. *)
Definition civil (days : Z) : Z * Z * Z :=
  let z := days + 719468 in
  let doe := z mod 146097 in
  let yoe := (doe - doe / 1460 + doe / 36524 - doe / 146096) / 365 in
  let doy := doe - (365 * yoe + yoe / 4 - yoe / 100) in
  let mp := (5 * doy + 2) / 153 in
  let m := if mp <? 10 then mp + 3 else mp - 9 in
  (yoe + 400 * (z / 146097) + (if m <=? 2 then 1 else 0), m, doy - (153 * mp + 2) / 5 + 1).

(** The fields time.yr, ..., time.us for [m] microseconds since 1970
    (borealis_convert.py:640-667, 934-961). *)
Definition time_fields (m : Z) : list (pystr * item) :=
  let days := m / 86400000000 in
  let rest := m mod 86400000000 in
  let '(yr, mo, dy) := civil days in
  [(str "time.yr", IPlain (VNpInt NI16 (wrap16 yr))); (str "time.mo", IPlain (VNpInt NI16 (wrap16 mo)));
   (str "time.dy", IPlain (VNpInt NI16 (wrap16 dy)));
   (str "time.hr", IPlain (VNpInt NI16 (wrap16 (rest / 3600000000))));
   (str "time.mt", IPlain (VNpInt NI16 (wrap16 (rest / 60000000 mod 60))));
   (str "time.sc", IPlain (VNpInt NI16 (wrap16 (rest / 1000000 mod 60))));
   (str "time.us", IPlain (VNpInt NI32 (wrap32 (rest mod 1000000))))].

(** ** Fields of a record *)

(** record[k] for a field of an integer type, of a float type (its bit pattern), a
    text, a one-dimensional array of numbers (borealis_convert.py:362-401, 565-749, 820-1017).
    Records that were read have the declared types; others are not modelled.  The
    concatenation with an h5py.Empty is a TypeError. *)
Definition get_int (r : brecord) (k : pystr) : res Z :=
  rlet v := dict_item r k in
  match v with
  | BScalar t (CZ z) => if is_int_type t || btype_eqb t BBool then Ok z else Raise OutOfModel
  | _ => Raise OutOfModel
  end.
(** As [get_int], a float of type [t] (borealis_convert.py:565-749, 820-1017). *)
Definition get_float (r : brecord) (k : pystr) (t : btype) : res Z :=
  rlet v := dict_item r k in
  match v with
  | BScalar t' (CZ z) => if btype_eqb t t' then Ok z else Raise OutOfModel
  | _ => Raise OutOfModel
  end.
(** As [get_int], a text (borealis_convert.py:565-749, 820-1017). *)
Definition get_text (r : brecord) (k : pystr) : res pystr :=
  rlet v := dict_item r k in
  match v with
  | BText s | BScalar BNpStr (CS s) => Ok s
  | BEmpty _ => Raise TypeError
  | _ => Raise OutOfModel
  end.
(** The elements of an array of numbers (see [get_int]; borealis_convert.py:362-401). *)
Definition numbers (data : list cell) : res (list Z) :=
  mapM (fun c => match c with CZ z => Ok z | _ => Raise OutOfModel end) data.
(** As [get_int], an array of one dimension (borealis_convert.py:362-401, 694-712). *)
Definition get_vector (r : brecord) (k : pystr) (t : btype) : res (list Z) :=
  rlet v := dict_item r k in
  match v with
  | BArr t' [_] data => if btype_eqb t t' then numbers data else Raise OutOfModel
  | _ => Raise OutOfModel
  end.

(** l[i] (borealis_convert.py:633, 678, 683, 972, 977). *)
Definition item_at (l : list Z) (i : nat) : res Z :=
  match nth_error l i with Some z => Ok z | None => Raise IndexError end.

(** The revision: texts of a tagged version, or the number 255
    (borealis_convert.py:367-373, 443-449, 571-577, 846-852). *)
Inductive revision : Type :=
| RText (s : pystr)
| RNumber (z : Z).

(** borealis_convert.py:367-373, 443-449, 571-577, 846-852: 118 is 'v', 46 and 45 are
    '.' and '-'. *)
Definition revisions (hash : pystr) : res (revision * revision) :=
  match hash with
  | [] => Raise IndexError
  | c :: _ =>
      if c =? 118 then
        let version := split_at 46 (hd [] (split_at 45 hash)) in
        match nth_error version 1 with
        | Some minor => Ok (RText (tl (hd [] version)), RText minor)
        | None => Raise IndexError
        end
      else Ok (RNumber 255, RNumber 255)
  end.

(** [major == 0 and minor <= 5] (borealis_convert.py:375, 451): a text is not equal to
    a number. *)
Definition old_revision (v : revision * revision) : bool :=
  match v with
  | (RNumber 0, RNumber n) => n <=? 5
  | _ => false
  end.

(** A decimal digit (see [revision_int8]; borealis_convert.py:628-629, 922-923). *)
Definition is_digit (c : Z) : bool := (48 <=? c) && (c <=? 57).
(** np.int8 of a revision (borealis_convert.py:628-629, 922-923).  Texts other than
    decimal numbers up to 127 are not modelled, except that one without any digit is
    a ValueError. *)
Definition revision_int8 (v : revision) : res Z :=
  match v with
  | RNumber z => Ok (wrap8 z)
  | RText s =>
      if forallb is_digit s && negb (Nat.eqb (length s) 0) then
        let z := fold_left (fun a c => 10 * a + (c - 48)) s 0 in
        if z <=? 127 then Ok z else Raise OutOfModel
      else if existsb is_digit s then Raise OutOfModel
      else Raise ValueError
  end.

(** ** Can a file be converted? *)

(** int(tau_spacing / tx_pulse_len) (borealis_convert.py:362-363, 438-439): the quotient of
    two uint32 as a double, cut off; rounding cannot reach the next integer. *)
Definition sample_spacing (r : brecord) : res Z :=
  rlet a := get_int r (str "tau_spacing") in
  rlet b := get_int r (str "tx_pulse_len") in
  if b =? 0 then (if a =? 0 then Raise ValueError else Raise OverflowError)
  else Ok (a / b).

(** np.sort (borealis_convert.py:388, 464), by insertion. *)
Fixpoint insert_z (x : Z) (l : list Z) : list Z :=
  match l with
  | [] => [x]
  | y :: l' => if x <=? y then x :: l else y :: insert_z x l'
  end.
(** np.sort (borealis_convert.py:388, 464). *)
Definition sort_z (l : list Z) : list Z := fold_right insert_z [] l.

(** np.array_equal on lists of numbers (borealis_convert.py:381, 390, 457, 466). *)
Fixpoint same_numbers (a b : list Z) : bool :=
  match a, b with
  | [], [] => true
  | x :: a', y :: b' => (x =? y) && same_numbers a' b'
  | _, _ => false
  end.

(** borealis_convert.py:362-390, 438-466: are the blanked samples of a record those of its
    pulses?  The arithmetic is that of uint32. *)
Definition normal_blanking (r : brecord) : res bool :=
  rlet n := sample_spacing r in
  rlet hash := get_text r s_hash in
  rlet v := revisions hash in
  rlet pulses := get_vector r (str "pulses") BU32 in
  rlet samples := get_vector r (str "blanked_samples") BU32 in
  let one := map (fun p => (p * n) mod 2 ^ 32) pulses in
  let blanked :=
    if old_revision v then one
    else if same_numbers one samples then one
    else sort_z (one ++ map (fun p => (p + 1) mod 2 ^ 32) one) in
  Ok (same_numbers samples blanked).

(** A float32 equal to 0 (borealis_convert.py:401). *)
Definition zero32 (b : Z) : bool := (b =? 0) || (b =? 2 ^ 31).

(** all([x == 0 for x in record['pulse_phase_offset']]) (borealis_convert.py:401): the
    rows of an array of two dimensions have no truth value unless they have one
    element; an empty row is false. *)
Fixpoint all_rows_zero (rs : list (list Z)) : res bool :=
  match rs with
  | [] => Ok true
  | [x] :: rs' => if zero32 x then all_rows_zero rs' else Ok false
  | [] :: _ => Ok false
  | _ :: _ => Raise ValueError
  end.
(** Are all phase offsets zero (borealis_convert.py:401)?  See [all_rows_zero]. *)
Definition no_phases (r : brecord) : res bool :=
  rlet v := dict_item r (str "pulse_phase_offset") in
  match v with
  | BArr BF32 [_] data => rlet l := numbers data in Ok (forallb zero32 l)
  | BArr BF32 [n; w] data => rlet l := numbers data in all_rows_zero (rows n w l)
  | _ => Raise OutOfModel
  end.

(** borealis_convert.py:338-408 _is_convertible_to_iqdat. *)
Fixpoint convertible_iqdat (rs : brecords) : res unit :=
  match rs with
  | [] => Ok tt
  | (_, r) :: rs' =>
      rlet b := normal_blanking r in
      if negb b then Raise BorealisConvert2IqdatError
      else
        rlet z := no_phases r in
        if negb z then Raise BorealisConvert2IqdatError else convertible_iqdat rs'
  end.

(** borealis_convert.py:410-478 _is_convertible_to_rawacf. *)
Fixpoint convertible_rawacf (rs : brecords) : res unit :=
  match rs with
  | [] => Ok tt
  | (_, r) :: rs' =>
      rlet b := normal_blanking r in
      if negb b then Raise BorealisConvert2RawacfError else convertible_rawacf rs'
  end.

(** ** Converting records *)

(** code_to_stid (borealis_convert.py:57-97). *)
Definition code_to_stid : dict Z :=
  [(str "tst", 0); (str "gbr", 1); (str "sch", 2); (str "kap", 3); (str "hal", 4); (str "sas", 5);
   (str "pgr", 6); (str "kod", 7); (str "sto", 8); (str "pyk", 9); (str "han", 10); (str "san", 11);
   (str "sys", 12); (str "sye", 13); (str "tig", 14); (str "ker", 15); (str "ksr", 16); (str "unw", 18);
   (str "zho", 19); (str "mcm", 20); (str "fir", 21); (str "sps", 22); (str "bpk", 24); (str "wal", 32);
   (str "bks", 33); (str "hok", 40); (str "hkw", 41); (str "inv", 64); (str "rkn", 65); (str "cly", 66);
   (str "dce", 96); (str "svb", 128); (str "fhw", 204); (str "fhe", 205); (str "cvw", 206); (str "cve", 207);
   (str "adw", 208); (str "ade", 209); (str "ekb", 512)].

(** Values of the new record (borealis_convert.py:627-750, 921-1018): an int8. *)
Definition v8 (z : Z) : item := IPlain (VNpInt NI8 (wrap8 z)).
(** An int16 of the new record (borealis_convert.py:627-750, 921-1018). *)
Definition v16 (z : Z) : item := IPlain (VNpInt NI16 (wrap16 z)).
(** An int32 of the new record (borealis_convert.py:627-750, 921-1018). *)
Definition v32 (z : Z) : item := IPlain (VNpInt NI32 (wrap32 z)).
(** A float32 of the new record (borealis_convert.py:627-750, 921-1018). *)
Definition vf (b : Z) : item := IPlain (VF32 b).
(** A text of the new record (borealis_convert.py:627-750, 921-1018). *)
Definition vt (s : pystr) : item := IPlain (VStr s).
(** An array of the new record (borealis_convert.py:627-750, 921-1018). *)
Definition va (d : dtype) (shape : list nat) (data : list Z) : item :=
  IPlain (VArr (mk_ndarray d false (map Z.of_nat shape) data)).

(** A word that older versions do not have (borealis_convert.py:614-624, 898-908). *)
Definition status_word (r : brecord) (k : pystr) : res Z :=
  match dict_get r k with None => Ok 0 | Some _ => get_int r k end.

(** The lengths of an array: len(a), a.shape[0] (borealis_convert.py:580, 694-696, 712, 988-990, 1005). *)
Definition first_length (r : brecord) (k : pystr) : res nat :=
  rlet v := dict_item r k in
  match v with
  | BArr _ (n :: _) _ => Ok n
  | BArr _ [] _ => Raise IndexError
  | _ => Raise OutOfModel
  end.

Section Convert.
(** The scaling of a complex64 sample by normalization factor (the bit pattern of a
    double) and scaling factor: for bfiq (borealis_convert.py:565-567) and for rawacf
    (827-842). *)
Variable scale_iq scale_acf : Z -> Z -> Z * Z -> Z * Z.
(** The power of a scaled sample as float32 (borealis_convert.py:866, 1011). *)
Variable power : Z * Z -> Z.
(** strftime("%c") for a time in microseconds since 1970 (borealis_convert.py:631-634,
    925-928). *)
Variable ctime : Z -> pystr.

(** The fields that iqdat and rawacf records have in common, in order
    (borealis_convert.py:628-705, 922-998). *)
Definition common_fields (r : brecord) (slice_id : Z) (beam_index : nat) (beam txpow nrang : Z) (xcf : bool)
    : res record :=
  rlet hash := get_text r s_hash in
  rlet v := revisions hash in
  rlet major := revision_int8 (fst v) in
  rlet minor := revision_int8 (snd v) in
  rlet times := get_vector r (str "sqn_timestamps") BF64 in
  rlet t0 := item_at times 0 in
  rlet m := micros t0 in
  rlet name := get_text r (str "experiment_name") in
  rlet cp := get_int r (str "experiment_id") in
  rlet station := get_text r (str "station") in
  rlet stid := dict_item code_to_stid station in
  rlet nave := get_int r (str "num_sequences") in
  rlet rtt := get_float r (str "first_range_rtt") BF32 in
  rlet rate := get_float r (str "rx_sample_rate") BF64 in
  rlet agc := status_word r (str "agc_status_word") in
  rlet lopwr := status_word r (str "lp_status_word") in
  rlet noises := get_vector r (str "noise_at_freq") BF64 in
  rlet noise := item_at noises 0 in
  rlet azms := get_vector r (str "beam_azms") BF64 in
  rlet azm := item_at azms beam_index in
  rlet scan := get_int r (str "scan_start_marker") in
  rlet int_time := get_float r (str "int_time") BF32 in
  rlet txpl := get_int r (str "tx_pulse_len") in
  rlet mpinc := get_int r (str "tau_spacing") in
  rlet mppul := first_length r (str "pulses") in
  rlet lags := first_length r (str "lags") in
  rlet range := get_float r (str "first_range") BF32 in
  rlet frang := round_f32 range in
  rlet sep := get_float r (str "range_sep") BF32 in
  rlet rsep := round_f32 sep in
  rlet freq := get_int r (str "freq") in
  Ok ([(str "radar.revision.major", v8 major); (str "radar.revision.minor", v8 minor);
       (str "origin.code", v8 100); (str "origin.time", vt (ctime m));
       (str "origin.command", vt (str "Borealis " ++ hash ++ str " " ++ name));
       (str "cp", v16 cp); (str "stid", v16 stid)] ++
      time_fields m ++
      [(str "txpow", v16 txpow); (str "nave", v16 nave); (str "atten", v16 0);
       (str "lagfr", v16 (int16_of_f32 rtt)); (str "smsep", v16 (sample_micros rate));
       (str "ercod", v16 0); (str "stat.agc", v16 agc); (str "stat.lopwr", v16 lopwr);
       (str "noise.search", vf (narrow noise)); (str "noise.mean", vf 0);
       (str "channel", v16 slice_id); (str "bmnum", v16 beam); (str "bmazm", vf (narrow azm));
       (str "scan", v16 scan); (str "offset", v16 0); (str "rxrise", v16 0);
       (str "intt.sc", v16 (int_seconds int_time)); (str "intt.us", v32 (int_micros int_time));
       (str "txpl", v16 txpl); (str "mpinc", v16 mpinc); (str "mppul", v16 (Z.of_nat mppul));
       (str "mplgs", v16 (Z.of_nat lags - 1)); (str "nrang", v16 nrang);
       (str "frang", v16 frang); (str "rsep", v16 rsep); (str "xcf", v16 (if xcf then 1 else 0));
       (str "tfreq", v16 freq); (str "mxpwr", v32 (-1)); (str "lvmax", v32 20000)]).

(** borealis_convert.py:708-714, 1001-1007: the comment. *)
Definition comment (r : brecord) (key origin : pystr) (scaling : Z) : res pystr :=
  rlet beams := first_length r (str "beam_nums") in
  rlet c := get_text r (str "experiment_comment") in
  rlet s := get_text r (str "slice_comment") in
  Ok (str "Converted from Borealis file: " ++ origin ++ str " record " ++ key ++
      str " with scaling factor = " ++ dec scaling ++ str " ; Number of beams in record: " ++
      dec (Z.of_nat beams) ++ str " ; " ++ c ++ str " ; " ++ s).

(** pulses.astype(np.int16) and lags.astype(np.int16) (borealis_convert.py:732-733,
    1009-1010). *)
Definition tables (r : brecord) : res (item * item) :=
  rlet pulses := get_vector r (str "pulses") BU32 in
  rlet lags := dict_item r (str "lags") in
  match lags with
  | BArr BU32 shape data =>
      rlet l := numbers data in
      Ok (va DI16 [length pulses] (map wrap16 pulses), va DI16 shape (map wrap16 l))
  | _ => Raise OutOfModel
  end.

(** A field of complex64 values reshaped by the dimensions (borealis_convert.py:565,
    827-842): shape and elements. *)
Definition shaped (r : brecord) (dims : bval) (k : pystr) : res (list nat * list (Z * Z)) :=
  rlet v := dict_item r k in
  rlet v' := reshape_field dims v in
  match v' with
  | BArr BC64 shape data =>
      rlet l := mapM (fun c => match c with CC re im => Ok (re, im) | _ => Raise OutOfModel end) data in
      Ok (shape, l)
  | _ => Raise OutOfModel
  end.

(** Real and imaginary part, interleaved (borealis_convert.py:603-605, 881-883). *)
Definition parts (l : list (Z * Z)) : list Z := flat_map (fun c => [fst c; snd c]) l.

(** *** bfiq to iqdat *)

(** this_data[x, i, :] (borealis_convert.py:588-595) of data of [na] arrays, [ns]
    sequences, [nb] beams and [n] samples. *)
Definition samples_of (ns nb n : nat) (data : list (Z * Z)) (x i b : nat) : list (Z * Z) :=
  firstn n (skipn (((x * ns + i) * nb + b) * n) data).

(** borealis_convert.py:588-601: the samples of one beam, by sequence, then array.  Data
    of more than four dimensions are not modelled. *)
Definition beam_samples (shape : list nat) (data : list (Z * Z)) (nseq : nat) (b : nat) : res (list (Z * Z)) :=
  match shape with
  | [na; ns; nb; n] =>
      if negb (Nat.ltb b nb) then Raise IndexError
      else if Nat.ltb ns nseq && negb (Nat.eqb na 0) then Raise IndexError
      else Ok (flat_map (fun i => flat_map (fun x => samples_of ns nb n data x i b) (seq 0 na)) (seq 0 nseq))
  | _ :: _ :: _ :: _ :: _ => Raise OutOfModel
  | _ => Raise IndexError
  end.

(** 'intf' in antenna_arrays_order (borealis_convert.py:700): byte strings are never
    equal to a text. *)
Definition has_intf (r : brecord) : res bool :=
  rlet v := dict_item r (str "antenna_arrays_order") in
  match v with
  | BArr BNpStr _ data => Ok (existsb (fun c => match c with CS s => str_eqb s (str "intf") | _ => false end) data)
  | BArr BBytes _ _ => Ok false
  | _ => Raise OutOfModel
  end.

(** borealis_convert.py:580-581, 588-751: the record of one beam. *)
Definition iqdat_record (slice_id : Z) (key origin : pystr) (scaling : Z) (r : brecord)
    (shape : list nat) (data : list (Z * Z)) (b : nat) (beam : Z) : res record :=
  rlet nseq := get_int r (str "num_sequences") in
  let n := Z.to_nat nseq in
  rlet arrays := first_length r (str "antenna_arrays_order") in
  rlet samps := get_int r (str "num_samps") in
  let offset := 2 * Z.of_nat arrays * samps in
  rlet samples := beam_samples shape data n b in
  rlet nrang := get_int r (str "num_ranges") in
  rlet xcf := has_intf r in
  rlet common := common_fields r slice_id b beam (-1) nrang xcf in
  rlet text := comment r key origin scaling in
  rlet range := get_float r (str "first_range") BF32 in
  rlet sep := get_float r (str "range_sep") BF32 in
  rlet tabs := tables r in
  rlet times := get_vector r (str "sqn_timestamps") BF64 in
  rlet noises := get_vector r (str "noise_at_freq") BF64 in
  let iq := map clip16 (parts samples) in
  Ok (common ++
      [(str "iqdata.revision.major", v32 1); (str "iqdata.revision.minor", v32 0);
       (str "combf", vt text); (str "seqnum", v32 nseq); (str "chnnum", v32 (Z.of_nat arrays));
       (str "smpnum", v32 samps); (str "skpnum", v32 (skip_number range sep));
       (str "ptab", fst tabs); (str "ltab", snd tabs);
       (str "tsc", va DI32 [length times] (map thousand_seconds times));
       (str "tus", va DI32 [length times] (map thousand_rest times));
       (str "tatten", va DI16 [n] (repeat 0 n));
       (str "tnoise", va DF32 [length noises] (map narrow noises));
       (str "toff", va DI32 [n] (map (fun i => wrap32 (Z.of_nat i * offset)) (seq 0 n)));
       (str "tsze", va DI32 [n] (repeat (wrap32 offset) n));
       (str "data", va DI16 [length iq] iq)]).

(** The beams of a record with their numbers (borealis_convert.py:584, 855). *)
Definition beams_of (r : brecord) : res (list (nat * Z)) :=
  rlet l := get_vector r (str "beam_nums") BU32 in Ok (combine (seq 0 (length l)) l).

(** borealis_convert.py:526-752 __convert_bfiq_record. *)
Definition convert_bfiq_record (slice_id : Z) (p : pystr * brecord) (origin : pystr) (scaling : Z)
    : res (list record) :=
  let '(key, r) := p in
  rlet dims := dict_item r (str "data_dimensions") in
  rlet sd := shaped r dims (str "data") in
  rlet norm := get_float r (str "data_normalization_factor") BF64 in
  let data := map (scale_iq norm scaling) (snd sd) in
  rlet hash := get_text r s_hash in
  rlet _ := revisions hash in
  rlet _ := first_length r (str "antenna_arrays_order") in
  rlet _ := get_int r (str "num_samps") in
  rlet beams := beams_of r in
  mapM (fun q => iqdat_record slice_id key origin scaling r (fst sd) data (fst q) (snd q)) beams.

(** *** rawacf to rawacf *)

(** The correlations [b, :, :-1] of one beam of [nr] ranges and [nl] lags
    (borealis_convert.py:871-879). *)
Definition beam_lags (nr nl : nat) (data : list (Z * Z)) (b : nat) : list (Z * Z) :=
  flat_map (fun i => firstn (nl - 1) (skipn ((b * nr + i) * nl) data)) (seq 0 nr).
(** The lag-zero samples [b, :, 0] (borealis_convert.py:857). *)
Definition beam_lag0 (nr nl : nat) (data : list (Z * Z)) (b : nat) : list (Z * Z) :=
  flat_map (fun i => firstn 1 (skipn ((b * nr + i) * nl) data)) (seq 0 nr).

(** A non-zero complex64 (borealis_convert.py:918): np.abs(x) > 0. *)
Definition transmits (c : cell) : bool :=
  match c with
  | CC re im =>
      let inf x := special32 x && (f32_man x =? 0) in
      let nan x := special32 x && negb (f32_man x =? 0) in
      inf re || inf im || (negb (nan re) && negb (nan im) && negb (zero32 re && zero32 im))
  | _ => false
  end.

(** borealis_convert.py:917-919: the bits of the transmitting antennas. *)
Fixpoint antenna_bits (i : Z) (l : list cell) : Z :=
  match l with
  | [] => 0
  | c :: l' => (if transmits c then Z.shiftl 1 i else 0) + antenna_bits (i + 1) l'
  end.
(** borealis_convert.py:913-919.  The sum is an int64; more than 62 antennas are not
    modelled. *)
Definition tx_power (r : brecord) : res Z :=
  match dict_get r (str "tx_antenna_phases") with
  | None => Ok (-1)
  | Some (BArr BC64 [_] data) =>
      if Nat.leb (length data) 62 then Ok (antenna_bits 0 data) else Raise OutOfModel
  | Some _ => Raise OutOfModel
  end.

(** borealis_convert.py:857-1019: the record of one beam.  Data of more than three
    dimensions are not modelled.  The field xcfs is always
    there in a record that was read; without it xcfd is a KeyError. *)
Definition rawacf_record (slice_id : Z) (key origin : pystr) (scaling : Z) (r : brecord)
    (shape : list nat) (main : list (Z * Z)) (xcfs : option (list (Z * Z))) (b : nat) (beam : Z) : res record :=
  match shape with
  | [nb; nr; nl] =>
      if negb (Nat.ltb b nb) || Nat.eqb nl 0 then Raise IndexError
      else
        rlet txpow := tx_power r in
        rlet common := common_fields r slice_id b beam txpow (Z.of_nat nr)
                         (match xcfs with Some _ => true | None => false end) in
        rlet text := comment r key origin scaling in
        rlet tabs := tables r in
        rlet x := match xcfs with Some x => Ok x | None => Raise KeyError end in
        let floats l := va DF32 [nr; (nl - 1)%nat; 2%nat] (parts (beam_lags nr nl l b)) in
        Ok (common ++
            [(str "rawacf.revision.major", v32 1); (str "rawacf.revision.minor", v32 0);
             (str "combf", vt text); (str "thr", vf 0);
             (str "ptab", fst tabs); (str "ltab", snd tabs);
             (str "pwr0", va DF32 [nr] (map power (beam_lag0 nr nl main b)));
             (str "slist", va DI16 [nr] (map (fun i => wrap16 (Z.of_nat i)) (seq 0 nr)));
             (str "acfd", floats main); (str "xcfd", floats x)])
  | _ :: _ :: _ :: _ => Raise OutOfModel
  | _ => Raise IndexError
  end.

(** An optional correlation (borealis_convert.py:833-842). *)
Definition shaped_if (r : brecord) (dims : bval) (k : pystr) : res (option (list nat * list (Z * Z))) :=
  match dict_get r k with
  | None => Ok None
  | Some _ => rlet x := shaped r dims k in Ok (Some x)
  end.

(** borealis_convert.py:789-1021 __convert_rawacf_record.  A record without dimensions is
    not modelled.  The dimensions of a record that was read are unsigned, so the shape that
    the reshapes give is the dimensions; negative ones (lines 887-890, 991, 1014) are not
    modelled. *)
Definition convert_rawacf_record (slice_id : Z) (p : pystr * brecord) (origin : pystr) (scaling : Z)
    : res (list record) :=
  let '(key, r) := p in
  rlet dims := match dict_get r (str "correlation_dimensions") with
               | Some d => Ok d
               | None => match dict_get r (str "data_dimensions") with
                         | Some d => Ok d
                         | None => Raise OutOfModel
                         end
               end in
  rlet norm := get_float r (str "data_normalization_factor") BF64 in
  let scaled l := map (scale_acf norm scaling) l in
  rlet main := shaped r dims (str "main_acfs") in
  rlet _ := shaped_if r dims (str "intf_acfs") in
  rlet xcfs := shaped_if r dims (str "xcfs") in
  rlet hash := get_text r s_hash in
  rlet _ := revisions hash in
  rlet beams := beams_of r in
  mapM (fun q => rawacf_record slice_id key origin scaling r (fst main) (scaled (snd main))
                   (match xcfs with Some x => Some (scaled (snd x)) | None => None end) (fst q) (snd q)) beams.

(** *** Files *)

(** borealis_convert.py:512-521, 775-784: all records, as DMAP records. *)
Definition convert_all (f : pystr * brecord -> res (list record)) (rs : brecords) : res (list record) :=
  rlet ls := mapM f rs in Conversions.dict2dmap (concat ls).

(** Any exception becomes a BorealisConvert2IqdatError / BorealisConvert2RawacfError
    (borealis_convert.py:522-523, 785-786). *)
Definition wrap_convert {A} (e : exn) (r : res A) : res A :=
  match r with
  | Ok a => Ok a
  | Raise OutOfModel => Raise OutOfModel
  | Raise _ => Raise e
  end.

(** borealis_convert.py:318-336 _convert_records_to_dmap. *)
Definition converted_records (t : filetype) (slice_id : Z) (rs : brecords) (origin : pystr) (scaling : Z)
    : res (list record) :=
  match t with
  | Bfiq =>
      rlet _ := convertible_iqdat rs in
      wrap_convert BorealisConvert2IqdatError
        (convert_all (fun p => convert_bfiq_record slice_id p origin scaling) rs)
  | BRawacf =>
      rlet _ := convertible_rawacf rs in
      wrap_convert BorealisConvert2RawacfError
        (convert_all (fun p => convert_rawacf_record slice_id p origin scaling) rs)
  | _ => Raise BorealisConversionTypesError
  end.

(** borealis_convert.py:215-225: the slice id, of the first record or as given. *)
Definition find_slice_id (rs : brecords) (given : option Z) : res Z :=
  match rs with
  | [] => Raise IndexError
  | (_, r) :: _ =>
      match dict_get r (str "slice_id"), given with
      | Some _, _ => get_int r (str "slice_id")
      | None, Some z => Ok z
      | None, None => Raise BorealisStructureError
      end
  end.

(** borealis_convert.py:158, 230-236: the type of the file written. *)
Definition sdarn_type (t : filetype) : option sd_type :=
  match t with Bfiq => Some Iqdat | BRawacf => Some Rawacf | _ => None end.

(** borealis_convert.py:299-316 _write_to_sdarn. *)
Definition write_to_sdarn (st : sd_type) (fs : fsys) (rs : list record) (name : pystr) : fsys * res unit :=
  match sd_writer_new rs name with
  | Raise e => (fs, Raise e)
  | Ok w =>
      match sd_write st fs w name with
      | (r, _, fs') => (fs', r)
      end
  end.

(** borealis_convert.py:160-241 BorealisConvert.__init__: reads from the HDF5 files
    [hf], writes to [fs]. *)
Definition borealis_convert (hf : hfs) (fs : fsys) (filename ft sdarn_filename : pystr) (slice_id : option Z)
    (structure : option pystr) (scaling : Z) : fsys * res unit :=
  match (rlet rd := borealis_read hf filename ft structure in
         rlet rs := reader_records rd in
         rlet sid := find_slice_id rs slice_id in
         match filetype_of ft with
         | None => Raise BorealisConversionTypesError
         | Some t =>
             match sdarn_type t with
             | None => Raise BorealisConversionTypesError
             | Some st =>
                 if str_eqb filename sdarn_filename then Raise ConvertFileOverWriteError
                 else rlet recs := converted_records t sid rs filename scaling in Ok (st, recs)
             end
         end) with
  | Raise e => (fs, Raise e)
  | Ok (st, recs) => write_to_sdarn st fs recs sdarn_filename
  end.
End Convert.
