(** * PropsPairNext.v -- C85: the neighbours of DoubleDouble numbers *)
From Coq Require Import ZArith Reals List Bool.
From Flocq Require Import Core.
From Verif Require Import Machine Ieee Ppc Spec Formats Samples SpecPair PairSamples PairNext.
Local Open Scope Z_scope.

(** ** C85

    [FallbackS F] is the format of the double width, [operand F x] the number of
    the pair rounded to it.  [next_up] delivers the least number of the double
    width above [operand F x], which is above the number of [x], as a canonical
    pair; [next_down] the greatest below. *)
Theorem C85_next_up : forall F, pair_ok F -> forall x, canonical_pair F x -> (- max_finite F <= operand F x < max_finite F)%R ->
  exists r, dd_next_up F x = Ret (OK, r) /\ canonical_pair F r /\ operand F r = pair_value F r /\ representable (FallbackS F) (pair_value F r) /\
    (operand F x < pair_value F r)%R /\ (pair_value F x < pair_value F r)%R /\
    (forall y, representable (FallbackS F) y -> (operand F x < y)%R -> (pair_value F r <= y)%R) /\
    (pair_value F r = 0%R -> sign (d0 r) = true).
Proof. exact dd_next_up_neighbour. Qed.
Print Assumptions C85_next_up.
Theorem C85_next_down : forall F, pair_ok F -> forall x, canonical_pair F x -> (- max_finite F < operand F x <= max_finite F)%R ->
  exists r, dd_next_down F x = Ret (OK, r) /\ canonical_pair F r /\ operand F r = pair_value F r /\ representable (FallbackS F) (pair_value F r) /\
    (pair_value F r < operand F x)%R /\ (pair_value F r < pair_value F x)%R /\
    (forall y, representable (FallbackS F) y -> (y < operand F x)%R -> (y <= pair_value F r)%R) /\
    (pair_value F r = 0%R -> sign (d0 r) = false).
Proof. exact dd_next_down_neighbour. Qed.
Print Assumptions C85_next_down.
(** up and down again, or down and up: the number rounded to the double width, so
    the number itself if it is one of the double width *)
Theorem C85_up_down : forall F, pair_ok F -> forall x, canonical_pair F x -> (- max_finite F <= operand F x < max_finite F)%R ->
  exists r r', dd_next_up F x = Ret (OK, r) /\ dd_next_down F r = Ret (OK, r') /\ canonical_pair F r' /\ pair_value F r' = operand F x.
Proof. exact dd_down_up. Qed.
Print Assumptions C85_up_down.
Theorem C85_down_up : forall F, pair_ok F -> forall x, canonical_pair F x -> (- max_finite F < operand F x <= max_finite F)%R ->
  exists r r', dd_next_down F x = Ret (OK, r) /\ dd_next_up F r = Ret (OK, r') /\ canonical_pair F r' /\ pair_value F r' = operand F x.
Proof. exact dd_up_down. Qed.
Print Assumptions C85_down_up.
(** [climb F n x]: [n] times [next_up]; every number of the double width above a
    given one is reached *)
Theorem C85_climb : forall F, pair_ok F -> forall x y, canonical_pair F x -> operand F x = pair_value F x -> (- max_finite F <= pair_value F x <= y)%R ->
  representable (FallbackS F) y -> (y <= max_finite F)%R ->
  exists n r, climb F n x = Ret r /\ canonical_pair F r /\ pair_value F r = y.
Proof. exact climb_reaches. Qed.
Print Assumptions C85_climb.
(** 1/3 to 106 bits, and 1 *)
Example C85_example : canonical_pair DoubleS p_third /\ operand DoubleS p_third = pair_value DoubleS p_third /\ (- max_finite DoubleS <= pair_value DoubleS p_third < max_finite DoubleS)%R /\
  (pair_value DoubleS p_third < 1)%R /\ representable (FallbackS DoubleS) 1.
Proof. exact next_sample. Qed.
Example C85_runs : climb DoubleS 3 p_one = Ret (mkDF (d0 p_one) (mkFloat 6755399441055744 (-104) Normal false)) /\
  dd_next_down DoubleS p_one = Ret (OK, mkDF (d0 p_one) (mkFloat 4503599627370496 (-106) Normal true)).
Proof. split; vm_compute; reflexivity. Qed.
(** a canonical pair of more bits does not come back *)
Theorem C85_back_refuted : exists x r r', canonical_pair DoubleS x /\ (Rabs (operand DoubleS x) < max_finite DoubleS)%R /\
  dd_next_up DoubleS x = Ret (OK, r) /\ dd_next_down DoubleS r = Ret (OK, r') /\ pair_value DoubleS r' <> pair_value DoubleS x.
Proof. exact next_back_refuted. Qed.
Print Assumptions C85_back_refuted.
