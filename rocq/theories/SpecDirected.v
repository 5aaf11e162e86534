(** * SpecDirected.v -- pairs whose second half is small beside the first *)
From Coq Require Import ZArith Reals.
From Flocq Require Import Core.
From Verif Require Import Machine Ieee Ppc Spec SpecPair.
Local Open Scope Z_scope.

(** the second half is at most one unit in the last place of the first; every
    canonical pair is narrow, but the halves of a narrow pair may overlap in a
    bit *)
Definition narrow_pair (F : Semantics) (x : DFloat) : Prop :=
  pair_wf F x /\ pair_finite x /\
  (Rabs (value F (d1 x)) <= bpow r2 (1 - PRECISION F) * Rabs (value F (d0 x)))%R.
