(** C23, continued: numbers out of range in dmap2dict. *)
From Coq Require Import ZArith List Bool Lia ZifyBool.
From Verif Require Import Base Bytes DmapTypes DmapSpec Conversions DmapFileProofs.
Import ListNotations.
Open Scope Z_scope.
Ltac Zify.zify_post_hook ::= Z.div_mod_to_equations.

(** The numpy types of the integer formats; 'i' has none, it becomes an int. *)
Definition numpy_of (f : fmt) : option npint :=
  match f with
  | Fc => Some NI8 | Fh => Some NI16 | Fq => Some NI64
  | FB => Some NU8 | FH => Some NU16 | FI => Some NU32 | FQ => Some NU64
  | _ => None
  end.

(** How large an int may be: a C long, or an unsigned long for the unsigned types of
    32 and 64 bits. *)
Definition takes (f : fmt) (z : Z) : Prop :=
  - 2 ^ 63 <= z < match f with FI | FQ => 2 ^ 64 | _ => 2 ^ 63 end.

(** An integer is given the numpy type of its format, and the number of that type that
    differs from it by a multiple of the range; an int that numpy does not take is an
    OverflowError; an 'i' is kept, whatever its size. *)
Theorem C23_wrapped : forall k name z code f,
  let there v := dmap2dict [[(k, IScalar (mk_dscalar name v code f))]] in
  (f = Fi -> there (VInt z) = Ok [[(k, IPlain (VInt z))]] /\
     forall u, there (VNpInt u z) = Ok [[(k, IPlain (VInt z))]]) /\
  (forall t, numpy_of f = Some t ->
     exists z' m, fits (wire_signed f) (wire_size f) z' /\ z = z' + m * 2 ^ (8 * Z.of_nat (wire_size f)) /\
       (takes f z -> there (VInt z) = Ok [[(k, IPlain (VNpInt t z'))]]) /\
       (~ takes f z -> there (VInt z) = Raise OverflowError) /\
       forall u, there (VNpInt u z) = Ok [[(k, IPlain (VNpInt t z'))]]).
Proof.
  intros k name z code f. cbv zeta. split; [intros ->; split; [|intros u]; reflexivity|]. intros t HT.
  assert (S : forall n, (n = 1 \/ n = 2 \/ n = 8)%nat -> let u := z mod 2 ^ (8 * Z.of_nat n) in
    fits true n (to_signed n u) /\ exists m, z = to_signed n u + m * 2 ^ (8 * Z.of_nat n)).
  { intros n Hn. cbv zeta. unfold fits, to_signed, wrap_mod.
    set (M := 2 ^ (8 * Z.of_nat n)). assert (HM : 0 < M) by (apply Z.pow_pos_nonneg; lia).
    pose proof (Z.mod_pos_bound z M HM) as HB. pose proof (Z.div_mod z M ltac:(lia)) as HD.
    assert (H2 : 2 ^ (8 * Z.of_nat n - 1) = M / 2 /\ M / 2 * 2 = M)
      by (unfold M; destruct Hn as [->|[->| ->]]; split; reflexivity).
    destruct H2 as [-> H2]. destruct (z mod M <? M / 2) eqn:E; split.
    - lia.
    - exists (z / M). lia.
    - lia.
    - exists (z / M + 1). lia. }
  assert (U : forall n, let u := z mod 2 ^ (8 * Z.of_nat n) in
    fits false n u /\ exists m, z = u + m * 2 ^ (8 * Z.of_nat n)).
  { intros n. cbv zeta. unfold fits.
    set (M := 2 ^ (8 * Z.of_nat n)). assert (HM : 0 < M) by (apply Z.pow_pos_nonneg; lia).
    pose proof (Z.mod_pos_bound z M HM) as HB. pose proof (Z.div_mod z M ltac:(lia)) as HD.
    split; [exact HB|]. exists (z / M). lia. }
  destruct f; try discriminate HT; injection HT as <-.
  1: destruct (S 1%nat ltac:(auto)) as (S1 & m & S2).
  2: destruct (S 2%nat ltac:(auto)) as (S1 & m & S2).
  3: destruct (S 8%nat ltac:(auto)) as (S1 & m & S2).
  4: destruct (U 1%nat) as (S1 & m & S2).
  5: destruct (U 2%nat) as (S1 & m & S2).
  6: destruct (U 4%nat) as (S1 & m & S2).
  7: destruct (U 8%nat) as (S1 & m & S2).
  all: eexists; exists m; split; [exact S1|split; [exact S2|split; [|split]]].
  all: unfold takes; try (intros; reflexivity).
  all: intros HZ; cbn [dmap2dict record2dict field2dict sc_value sc_fmt cast_value np_int np_limit].
  all: try (replace ((z <? - 2 ^ 63) || (_ <=? z)) with false by lia; reflexivity).
  all: replace ((z <? - 2 ^ 63) || (_ <=? z)) with true by lia; reflexivity.
Qed.
Print Assumptions C23_wrapped.

Example C23_wrapped_case :
  dmap2dict [[([97], IScalar (mk_dscalar [97] (VInt 70000) 2 Fh));
              ([98], IScalar (mk_dscalar [98] (VInt (-1)) 18 FI));
              ([99], IScalar (mk_dscalar [99] (VInt (2 ^ 40)) 3 Fi))]] =
  Ok [[([97], IPlain (VNpInt NI16 4464)); ([98], IPlain (VNpInt NU32 4294967295));
       ([99], IPlain (VInt (2 ^ 40)))]] /\ numpy_of Fh = Some NI16 /\ takes Fh 70000 /\ takes FI (-1) /\
  dmap2dict [[([97], IScalar (mk_dscalar [97] (VInt (2 ^ 63)) 10 Fq))]] = Raise OverflowError /\ ~ takes Fq (2 ^ 63) /\
  dmap2dict [[([97], IScalar (mk_dscalar [97] (VNpInt NU64 (2 ^ 63)) 10 Fq))]] =
    Ok [[([97], IPlain (VNpInt NI64 (- 2 ^ 63)))]].
Proof. unfold takes. do 5 (split; [first [reflexivity | lia]|]). split; [lia|reflexivity]. Qed.
