(** Conversions between IEEE binary32 and binary64, on bit patterns.
    These model the C casts [(double)float] and [(float)double] that
    [struct.unpack('f')], [numpy.float32(x)] and [struct.pack('f')] perform
    (pydarnio/dmap/dmap.py:718-722, 1103-1105).  Round to nearest even;
    signalling NaNs are quieted, the payload is kept as far as it fits, which
    is what x86-64 and arm64 do. *)
From Coq Require Import ZArith Bool.
Open Scope Z_scope.

(** Sign field of a binary32 pattern (the 'f' of dmap.py:718-722, 1103-1105). *)
Definition f32_sign (b : Z) : Z := b / 2 ^ 31.
(** Exponent field of a binary32 pattern (dmap.py:718-722, 1103-1105). *)
Definition f32_exp (b : Z) : Z := (b / 2 ^ 23) mod 2 ^ 8.
(** Mantissa field of a binary32 pattern (dmap.py:718-722, 1103-1105). *)
Definition f32_man (b : Z) : Z := b mod 2 ^ 23.

(** Sign field of a binary64 pattern (a Python float, dmap.py:718-722, 1103). *)
Definition f64_sign (b : Z) : Z := b / 2 ^ 63.
(** Exponent field of a binary64 pattern (dmap.py:718-722, 1103). *)
Definition f64_exp (b : Z) : Z := (b / 2 ^ 52) mod 2 ^ 11.
(** Mantissa field of a binary64 pattern (dmap.py:718-722, 1103). *)
Definition f64_man (b : Z) : Z := b mod 2 ^ 52.

(** Float to double (exact).  dmap.py:718-722 ([struct.unpack_from('f')]
    returns a Python float). *)
Definition widen (b : Z) : Z :=
  let s := f32_sign b in
  let e := f32_exp b in
  let m := f32_man b in
  if e =? 255 then
    if m =? 0 then s * 2 ^ 63 + 2047 * 2 ^ 52
    else s * 2 ^ 63 + 2047 * 2 ^ 52 + (m mod 2 ^ 22 + 2 ^ 22) * 2 ^ 29
  else if e =? 0 then
    if m =? 0 then s * 2 ^ 63
    else
      let k := Z.log2 m in
      s * 2 ^ 63 + (k + 874) * 2 ^ 52 + (m - 2 ^ k) * 2 ^ (52 - k)
  else s * 2 ^ 63 + (e + 896) * 2 ^ 52 + m * 2 ^ 29.

(** [n / 2^sh] rounded to the nearest integer, ties to even (the rounding of
    [np.float32(x)], dmap.py:1103). *)
Definition round_shift (n sh : Z) : Z :=
  let q := n / 2 ^ sh in
  let r := n mod 2 ^ sh in
  if 2 * r <? 2 ^ sh then q
  else if 2 ^ sh <? 2 * r then q + 1
  else q + q mod 2.

(** Double to float, round to nearest even, overflow to infinity.
    dmap.py:1103 ([np.float32(scalar.value)]). *)
Definition narrow (b : Z) : Z :=
  let s := f64_sign b in
  let e := f64_exp b in
  let m := f64_man b in
  if e =? 2047 then
    if m =? 0 then s * 2 ^ 31 + 255 * 2 ^ 23
    else s * 2 ^ 31 + 255 * 2 ^ 23 + ((m / 2 ^ 29) mod 2 ^ 22 + 2 ^ 22)
  else
    let sig := if e =? 0 then m else m + 2 ^ 52 in
    let e' := Z.max e 1 in
    let r := round_shift sig (Z.max 29 (926 - e')) in
    let body := Z.max (e' - 897) 0 * 2 ^ 23 + r in
    s * 2 ^ 31 + Z.min body (255 * 2 ^ 23).

(** Signalling NaN: exponent all ones, non-zero mantissa, quiet bit clear; the
    patterns that reading with 'f' changes (dmap.py:718-722). *)
Definition f32_snan (b : Z) : bool :=
  (f32_exp b =? 255) && negb (f32_man b =? 0) && (f32_man b <? 2 ^ 22).
