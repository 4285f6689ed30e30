(** Timestamps: from the bit pattern of a double to microseconds, to the name of a
    record and to a calendar date (base_format.py:1188-1190,
    borealis_restructure.py:240-242, borealis_convert.py:632-668, 926-962). *)
From Coq Require Import String ZArith List Bool DecimalString.
From Verif Require Import Base FloatBits SDarnFormats.
Import ListNotations.
Open Scope Z_scope.

(** [a / b] rounded to the nearest integer, ties to even (the rounding of every
    float operation in base_format.py:1188-1190). *)
Definition round_div (a b : Z) : Z :=
  let q := a / b in
  let r := a mod b in
  if 2 * r <? b then q
  else if b <? 2 * r then q + 1
  else q + q mod 2.

(** A non-negative integer rounded to 53 significant bits: the numerator of a
    product of doubles (base_format.py:1188, 1190). *)
Definition round53 (n : Z) : Z :=
  let sh := Z.log2 n - 52 in
  if sh <=? 0 then n else round_div n (2 ^ sh) * 2 ^ sh.

(** [datetime.utcfromtimestamp(x)] (base_format.py:1188), as microseconds since
    1970.  CPython splits [x] into integer and fractional part, multiplies the
    latter by 1e6 (a double) and rounds half to even.  The fraction is
    [fr / 2^k]; a product below the normal range rounds to 0 either way, so the
    range of exponents plays no role.  Years outside 1 to 9999 are a ValueError;
    from 2^55 seconds on OverflowError and OSError also occur. *)
Definition micros (b : Z) : res Z :=
  let e := f64_exp b in
  if e =? 2047 then (if f64_man b =? 0 then Raise OverflowError else Raise ValueError)
  else
    let sig := if e =? 0 then f64_man b else f64_man b + 2 ^ 52 in
    let k := 1075 - Z.max e 1 in
    let whole := if k <=? 0 then sig * 2 ^ (- k) else sig / 2 ^ k in
    let fr := if k <=? 0 then 0 else sig mod 2 ^ k in
    let us := if k <=? 0 then 0 else round_div (round53 (fr * 1000000)) (2 ^ k) in
    let m := (if f64_sign b =? 0 then 1 else -1) * (whole * 1000000 + us) in
    if 2 ^ 55 <=? whole then Raise OutOfModel
    else if (m <? -62135596800000000) || (253402300800000000 <=? m) then Raise ValueError
    else Ok m.

(** [td.total_seconds()] for [m] >= 0 microseconds (base_format.py:1190): [m / 10^6]
    rounded to a double, as a fraction [fst / 2^snd]. *)
Definition seconds (m : Z) : Z * Z :=
  let k0 := 53 - (Z.log2 m - Z.log2 1000000) in
  let k := if m * 2 ^ k0 <? 2 ^ 53 * 1000000 then k0 else k0 - 1 in
  (round_div (m * 2 ^ k) 1000000, k).

(** [int(td.total_seconds() * 1000)] (base_format.py:1190). *)
Definition millis (m : Z) : Z :=
  if m =? 0 then 0
  else
    let '(n, k) := seconds (Z.abs m) in
    Z.sgn m * (round53 (n * 1000) / 2 ^ k).

(** [str(i)] for an int (base_format.py:1190). *)
Definition dec (i : Z) : pystr := str (NilZero.string_of_int (Z.to_int i)).

(** The name of a record (base_format.py:1188-1190, borealis_restructure.py:240-242). *)
Definition record_name (b : Z) : res pystr :=
  rlet m := micros b in Ok (dec (millis m)).
