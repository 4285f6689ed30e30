(** Integers made floats, on bit patterns: [float(z)] of [struct.pack('d', z)] and
    [np.float32(z)] (pydarnio/dmap/dmap.py:1103-1107). *)
From Coq Require Import ZArith Bool.
From Verif Require Import FloatBits.
Open Scope Z_scope.

(** The double made of an integer: round to nearest even; no double if that is
    beyond the largest one (CPython's [PyLong_AsDouble], called for dmap.py:1103-1107). *)
Definition double_of_int (z : Z) : option Z :=
  if z =? 0 then Some 0
  else
    let n := Z.abs z in
    let k := Z.log2 n in
    let q := if k <=? 52 then n * 2 ^ (52 - k) else round_shift n (k - 52) in
    let body := (k + 1022) * 2 ^ 52 + q in
    if body <? 2047 * 2 ^ 52 then Some ((if z <? 0 then 2 ^ 63 else 0) + body) else None.
