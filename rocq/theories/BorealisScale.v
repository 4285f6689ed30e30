(** Model of the arithmetic on complex samples in pydarnio/borealis/borealis_convert.py:565-567,
    827-842, 866: numpy 1.x on arrays of complex64.

    A scalar operand is converted to complex64 first (value-based casting), so a
    normalization factor from 3.4e38 on, and a scaling factor from 65536 on or below -32768,
    are not modelled: they give complex128.  A NaN that results is written as one NaN
    whatever its bits; products are not fused with sums, which matters for the sign of zero only. *)
From Coq Require Import ZArith List Bool.
From Verif Require Import Base FloatBits BorealisTime BorealisConvert.
Import ListNotations.
Open Scope Z_scope.

(** ** Single precision *)

(** Sign bit [s] and magnitude [n / d] in units of 2^-149, rounded to the nearest float32,
    ties to even, too large is infinite (the rounding of each operation in
    borealis_convert.py:565-567, 827-842, 866). *)
Definition make32 (s n d : Z) : Z :=
  let e := Z.max 0 (Z.log2 (n / d) - 23) in
  s * 2 ^ 31 + Z.min (e * 2 ^ 23 + round_div n (d * 2 ^ e)) (255 * 2 ^ 23).

(** Some NaN (borealis_convert.py:565-567, 827-842, 866). *)
Definition a_nan : Z := 255 * 2 ^ 23 + 2 ^ 22.
(** An infinity with sign bit [s] (borealis_convert.py:565-567, 827-842, 866). *)
Definition infinity (s : Z) : Z := s * 2 ^ 31 + 255 * 2 ^ 23.
(** Not a number? (borealis_convert.py:565-567, 827-842, 866) *)
Definition is_nan (b : Z) : bool := special32 b && negb (f32_man b =? 0).
(** Infinite? (borealis_convert.py:565-567, 827-842, 866) *)
Definition is_inf (b : Z) : bool := special32 b && (f32_man b =? 0).
(** Zero? (borealis_convert.py:565-567, 827-842, 866) *)
Definition is_zero (b : Z) : bool := (f32_exp b =? 0) && (f32_man b =? 0).
(** The magnitude of a finite float32 in units of 2^-149 (the operands of
    borealis_convert.py:565-567, 827-842, 866). *)
Definition units (b : Z) : Z := sig32 b * 2 ^ (149 - pos32 b).
(** The sign bit of a product or quotient (borealis_convert.py:565-567, 827-842, 866). *)
Definition sign_xor (x y : Z) : Z := (f32_sign x + f32_sign y) mod 2.

(** [x * y] (borealis_convert.py:565-567, 827-842, 866). *)
Definition mul32 (x y : Z) : Z :=
  if is_nan x || is_nan y then a_nan
  else if is_inf x || is_inf y then
    if is_zero x || is_zero y then a_nan else infinity (sign_xor x y)
  else make32 (sign_xor x y) (units x * units y) (2 ^ 149).

(** [x / y] (borealis_convert.py:566). *)
Definition div32 (x y : Z) : Z :=
  if is_nan x || is_nan y then a_nan
  else if is_inf x then if is_inf y then a_nan else infinity (sign_xor x y)
  else if is_inf y then sign_xor x y * 2 ^ 31
  else if is_zero y then if is_zero x then a_nan else infinity (sign_xor x y)
  else make32 (sign_xor x y) (units x * 2 ^ 149) (units y).

(** [-x] (borealis_convert.py:565-567, 827-842). *)
Definition neg32 (x : Z) : Z := if f32_sign x =? 0 then x + 2 ^ 31 else x - 2 ^ 31.

(** [x + y] (borealis_convert.py:565-567, 827-842, 866). *)
Definition add32 (x y : Z) : Z :=
  if is_nan x || is_nan y then a_nan
  else if is_inf x then if is_inf y && negb (f32_sign x =? f32_sign y) then a_nan else x
  else if is_inf y then y
  else
    let t := signed (f32_sign x) (units x) + signed (f32_sign y) (units y) in
    if t =? 0 then (if (f32_sign x =? 1) && (f32_sign y =? 1) then 2 ^ 31 else 0)
    else make32 (if t <? 0 then 1 else 0) (Z.abs t) 1.

(** [x - y] (borealis_convert.py:565-567, 827-842). *)
Definition sub32 (x y : Z) : Z := add32 x (neg32 y).

(** np.sqrt(x) (the power 0.5 of borealis_convert.py:866). *)
Definition sqrt32 (x : Z) : Z :=
  if is_nan x then a_nan
  else if is_zero x then x
  else if f32_sign x =? 1 then a_nan
  else if is_inf x then x
  else
    let n := units x * 2 ^ 149 in
    let e := Z.max 0 (Z.log2 (Z.sqrt n) - 23) in
    let r := Z.sqrt n / 2 ^ e in
    let h := (2 * r + 1) * 2 ^ e in
    e * 2 ^ 23 + (if 4 * n <? h * h then r else if h * h <? 4 * n then r + 1 else r + r mod 2).

(** An int as float32 (32767 and the scaling factor, borealis_convert.py:567). *)
Definition int32_f (z : Z) : Z := make32 (if z <? 0 then 1 else 0) (Z.abs z * 2 ^ 149) 1.

(** ** Complex numbers *)

(** A complex64 times the scalar [c], which is taken as [c + 0i]
    (borealis_convert.py:567, 827-842). *)
Definition complex_times (z : Z * Z) (c : Z) : Z * Z :=
  let '(a, b) := z in
  (sub32 (mul32 a c) (mul32 b 0), add32 (mul32 a 0) (mul32 b c)).

(** A complex64 divided by the scalar [c], which is taken as [c + 0i]: numpy multiplies
    with the reciprocal (borealis_convert.py:566). *)
Definition complex_over (z : Z * Z) (c : Z) : Z * Z :=
  let '(a, b) := z in
  if is_nan c then (a_nan, a_nan)
  else if is_zero c then (div32 a 0, div32 b 0)
  else
    let rat := div32 0 c in
    let scl := div32 (int32_f 1) (add32 c (mul32 0 rat)) in
    (mul32 (add32 a (mul32 b rat)) scl, mul32 (sub32 b (mul32 a rat)) scl).

(** borealis_convert.py:565-567: a sample divided by the normalization factor, a float64,
    times 32767, times the scaling factor. *)
Definition scaled_sample (norm scaling : Z) (z : Z * Z) : Z * Z :=
  complex_times (complex_times (complex_over z (narrow norm)) (int32_f 32767)) (int32_f scaling).

(** ** Double precision *)

(** As [make32] for float64, in units of 2^-1074 (borealis_convert.py:829-830). *)
Definition make64 (s n d : Z) : Z :=
  let e := Z.max 0 (Z.log2 (n / d) - 52) in
  s * 2 ^ 63 + Z.min (e * 2 ^ 52 + round_div n (d * 2 ^ e)) (2047 * 2 ^ 52).

(** An int divided by a float64 (borealis_convert.py:829-830); the int is exact as float64.
    Division by zero gives an infinity, or a NaN for 0. *)
Definition int_over (z y : Z) : Z :=
  let s := ((if z <? 0 then 1 else 0) + f64_sign y) mod 2 in
  if special64 y then if f64_man y =? 0 then s * 2 ^ 63 else 2047 * 2 ^ 52 + 2 ^ 51
  else if sig64 y =? 0 then if z =? 0 then 2047 * 2 ^ 52 + 2 ^ 51 else s * 2 ^ 63 + 2047 * 2 ^ 52
  else make64 s (Z.abs z * 2 ^ 1074 * 2 ^ 1074) (sig64 y * 2 ^ (1074 - pos64 y)).

Section Acf.
(** [x ** 2] for a float64 (borealis_convert.py:830): the C library's pow, which need not
    round correctly. *)
Variable square : Z -> Z.

(** borealis_convert.py:827-842: a correlation times 32767^2 * scaling / norm^2. *)
Definition scaled_acf (norm scaling : Z) (z : Z * Z) : Z * Z :=
  complex_times z (narrow (int_over (32767 ^ 2 * scaling) (square norm))).
End Acf.

(** borealis_convert.py:866: (re ** 2 + im ** 2) ** 0.5. *)
Definition magnitude (z : Z * Z) : Z :=
  sqrt32 (add32 (mul32 (fst z) (fst z)) (mul32 (snd z) (snd z))).
