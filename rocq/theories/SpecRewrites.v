(** * SpecRewrites.v -- when two operations may replace each other *)
From Coq Require Import ZArith Reals.
From Verif Require Import Machine Ieee Spec.

(** both return, with the same status and the same float (bit for bit: [bitwise_eq] is C25's) *)
Definition same_result (o o' : outcome (Z * Float)) : Prop :=
  exists st f f', o = Ret (st, f) /\ o' = Ret (st, f') /\ bitwise_eq f f' = true.
