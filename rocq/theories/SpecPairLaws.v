(** * SpecPairLaws.v -- what the laws of DoubleDouble arithmetic (C68) are about *)
From Coq Require Import ZArith Reals.
From Verif Require Import Machine Ieee Ppc Spec SpecPair.

(** two halves holding opposite numbers: finite numbers (zeros of any sign),
    infinities of opposite signs, or NaNs *)
Definition opposite_half (F : Semantics) (f f' : Float) : Prop :=
  finite f /\ finite f' /\ value F f' = (- value F f)%R \/
  category f = Infinity /\ category f' = Infinity /\ sign f' = negb (sign f) \/
  category f = NaN /\ category f' = NaN.
(** both return, with the same status and opposite pairs *)
Definition opposite_result (F : Semantics) (o o' : outcome (Z * DFloat)) : Prop :=
  exists st r r', o = Ret (st, r) /\ o' = Ret (st, r') /\
    opposite_half F (d0 r) (d0 r') /\ opposite_half F (d1 r) (d1 r').
(** both return, with the same status and the same pair, bit for bit *)
Definition same_pair (o o' : outcome (Z * DFloat)) : Prop :=
  exists st r r', o = Ret (st, r) /\ o' = Ret (st, r') /\
    bitwise_eq (d0 r) (d0 r') = true /\ bitwise_eq (d1 r) (d1 r') = true.
