(** * SpecTop.v -- the sums of pairs that come out as NaN *)
From Coq Require Import ZArith Reals.
From Flocq Require Import Core.
From Verif Require Import Machine Ieee Ppc Spec.
Local Open Scope Z_scope.

(** The high half of the second operand is the largest number or its negative,
    that of the first has the other sign, and rounding the sum of the two moves
    it away from zero by half the distance of the largest numbers: it was a tie. *)
Definition lost_tie (F : Semantics) (m : Round) (x y : DFloat) : Prop :=
  (value F (d0 x) * value F (d0 y) < 0 /\ Rabs (value F (d0 y)) = max_finite F /\
   Rabs (rounded F m (value F (d0 x) + value F (d0 y))) =
   Rabs (value F (d0 x) + value F (d0 y)) + / 2 * bpow r2 (MAX_EXP F + 1 - PRECISION F))%R.
