(** C23, continued: integers in float scalars in dmap2dict. *)
From Coq Require Import ZArith List Bool Lia.
From Verif Require Import Base Bytes DmapTypes DmapSpec Conversions FloatBits FloatSpec FloatInt FloatIntProofs DmapWriteFaultSpec DmapNumberSpec DmapNumberProofs.
Import ListNotations.
Open Scope Z_scope.

(** An int given for a float or a double becomes the double nearest to it, which is a
    Python float for the one and a numpy number for the other; an int beyond the
    largest double is an OverflowError. *)
Theorem C23_float : forall k name z code f,
  let there v := dmap2dict [[(k, IScalar (mk_dscalar name v code f))]] in
  (f = Ff \/ f = Fd -> no_double z -> there (VInt z) = Raise OverflowError) /\
  (f = Ff -> forall b, nearest_double z b -> there (VInt z) = Ok [[(k, IPlain (VFloat b))]]) /\
  (f = Fd -> forall b, nearest_double z b -> there (VInt z) = Ok [[(k, IPlain (VF64 b))]]).
Proof.
  intros k name z code f. cbv zeta. split; [|split].
  - intros HF HN. apply double_huge in HN.
    assert (E : np_double (VInt z) = Raise OverflowError) by (unfold np_double; now rewrite HN).
    destruct HF as [-> | ->]; cbn [dmap2dict record2dict field2dict sc_value sc_fmt cast_value]; rewrite E; reflexivity.
  - intros -> b HB. apply nearest_made in HB.
    assert (E : np_double (VInt z) = Ok b) by (unfold np_double; now rewrite HB).
    cbn [dmap2dict record2dict field2dict sc_value sc_fmt cast_value]; rewrite E; reflexivity.
  - intros -> b HB. apply nearest_made in HB.
    assert (E : np_double (VInt z) = Ok b) by (unfold np_double; now rewrite HB).
    cbn [dmap2dict record2dict field2dict sc_value sc_fmt cast_value]; rewrite E; reflexivity.
Qed.
Print Assumptions C23_float.

(** 3 as a float, 2^53 + 1 as a double (2^53 and 2^53 + 2 are as near; the first is
    even), and an int beyond the doubles. *)
Example C23_float_case :
  nearest_double 3 4613937818241073152 /\ nearest_double (2 ^ 53 + 1) 4845873199050653696 /\ no_double (2 ^ 1024) /\
  dmap2dict [[([97], IScalar (mk_dscalar [97] (VInt 3) 4 Ff)); ([98], IScalar (mk_dscalar [98] (VInt (2 ^ 53 + 1)) 8 Fd))]] =
    Ok [[([97], IPlain (VFloat 4613937818241073152)); ([98], IPlain (VF64 4845873199050653696))]] /\
  dmap2dict [[([97], IScalar (mk_dscalar [97] (VInt (2 ^ 1024)) 4 Ff))]] = Raise OverflowError.
Proof.
  split; [apply made_nearest; vm_compute; reflexivity|]. split; [apply made_nearest; vm_compute; reflexivity|].
  split; [vm_compute; discriminate|]. split; vm_compute; reflexivity.
Qed.
