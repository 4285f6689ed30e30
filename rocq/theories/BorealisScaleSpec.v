(** Specification of the scaling of samples: what floats mean as rational numbers, and how
    far a result may be from the exact value. *)
From Coq Require Import ZArith QArith Qabs.
From Verif Require Import FloatBits FloatSpec.
Open Scope Q_scope.

(** The value of a finite float32 and of a finite float64. *)
Definition real32 (b : Z) : Q := inject_Z (f32_val b) / inject_Z (2 ^ 149).
Definition real64 (b : Z) : Q := inject_Z (f64_val b) / inject_Z (2 ^ 1074).

(** A bit pattern of a finite float32 or float64. *)
Definition finite32 (b : Z) : Prop := (0 <= b < 2 ^ 32 /\ f32_exp b <> 255)%Z.
Definition finite64 (b : Z) : Prop := (0 <= b < 2 ^ 64 /\ f64_exp b <> 2047)%Z.

(** [2^k] for any [k]. *)
Definition pow2 (k : Z) : Q := Qpower 2 k.

(** [y] is [v] up to a relative error of [2^-k], and an error of [2^-100]. *)
Definition close_to (k : Z) (y v : Q) : Prop := Qabs (y - v) <= pow2 (- k) * Qabs v + pow2 (-100).

(** [w] is [y] without its fraction, limited to int16. *)
Definition cut_limited (y : Q) (w : Z) : Prop :=
  w = Z.max (-32768) (Z.min 32767 (Z.quot (Qnum y) (QDen y))).

(** What the parts of a sample and of a correlation are scaled to: the normalization factor is
    a float64, the scaling factor an int. *)
Definition sample_value (norm scaling x : Z) : Q := real32 x / real64 norm * 32767 * inject_Z scaling.
Definition lag_value (norm scaling x : Z) : Q :=
  real32 x / (real64 norm * real64 norm) * (32767 * 32767) * inject_Z scaling.

(** The ranges the theorems speak of: a normalization factor from 2^-30 to 2^30 in
    magnitude, samples up to 2^40 times as large, correlations that are scaled to at most 2^50. *)
Definition usual_norm (b : Z) : Prop := finite64 b /\ pow2 (-30) <= Qabs (real64 b) <= pow2 30.
Definition usual_sample (norm b : Z) : Prop := finite32 b /\ Qabs (real32 b / real64 norm) <= pow2 40.
Definition usual_lag (norm scaling b : Z) : Prop := finite32 b /\ Qabs (lag_value norm scaling b) <= pow2 50.

(** [w] is [v] as int16, up to the error of [close_to]. *)
Definition near_int16 (v : Q) (w : Z) : Prop := exists y, close_to 21 y v /\ cut_limited y w.

(** [x ** 2] is right up to a relative error of 2^-52. *)
Definition squares (square : Z -> Z) : Prop := forall b, usual_norm b ->
  finite64 (square b) /\
  Qabs (real64 (square b) - real64 b * real64 b) <= pow2 (-52) * (real64 b * real64 b).

(** [p] is the magnitude of the complex number [x + iy], up to a relative error of the square of
    2^-20. *)
Definition magnitude_near (p x y : Q) : Prop :=
  0 <= p /\ Qabs (p * p - (x * x + y * y)) <= pow2 (-20) * (x * x + y * y) + pow2 (-90).
