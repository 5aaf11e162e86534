(** * PropsBitOrder.v -- the encodings are ordered like the numbers (C56) *)
From Coq Require Import ZArith Reals List Bool.
From Flocq Require Import Core.
From Verif Require Import Machine Ieee Spec Formats Samples BitOrder.
Import ListNotations.
Local Open Scope Z_scope.

(** [rank bits b] is the encoding read as a sign bit and a magnitude. *)
Theorem C56_order : forall bits eb nf, In (bits, eb, nf) interchange_formats ->
  let S := ieee_semantics bits eb nf in
  forall x y b c, wf S x -> wf S y -> category x <> NaN -> category y <> NaN ->
  to_bits S x = Ret b -> to_bits S y = Ret c -> partial_cmp x y = Ret (Some (rank bits b ?= rank bits c)).
Proof. exact encoding_order_crate. Qed.
Print Assumptions C56_order.
Theorem C56_order_x87 : forall x y b c, wf X87DoubleExtendedS x -> wf X87DoubleExtendedS y ->
  category x <> NaN -> category y <> NaN ->
  to_bits X87DoubleExtendedS x = Ret b -> to_bits X87DoubleExtendedS y = Ret c ->
  partial_cmp x y = Ret (Some (rank 80 b ?= rank 80 c)).
Proof. exact encoding_order_x87. Qed.
Print Assumptions C56_order_x87.
Theorem C56_next_up : forall bits eb nf, In (bits, eb, nf) interchange_formats ->
  let S := ieee_semantics bits eb nf in
  forall x b, wf S x -> category x <> NaN -> ~ (category x = Infinity /\ sign x = false) -> to_bits S x = Ret b ->
  exists r c, next_up S x = Ret (OK, r) /\ to_bits S r = Ret c /\ rank bits c = rank bits b + 1.
Proof. exact next_up_encoding_crate. Qed.
Print Assumptions C56_next_up.
Theorem C56_next_down : forall bits eb nf, In (bits, eb, nf) interchange_formats ->
  let S := ieee_semantics bits eb nf in
  forall x b, wf S x -> category x <> NaN -> ~ (category x = Infinity /\ sign x = true) -> to_bits S x = Ret b ->
  exists r c, next_down S x = Ret (OK, r) /\ to_bits S r = Ret c /\ rank bits c = rank bits b - 1.
Proof. exact next_down_encoding_crate. Qed.
Print Assumptions C56_next_down.
(** the x87 format, with its explicit integer bit, skips encodings *)
Theorem C56_next_up_x87_refuted : exists x b r c, wf X87DoubleExtendedS x /\ category x = Normal /\
  to_bits X87DoubleExtendedS x = Ret b /\ next_up X87DoubleExtendedS x = Ret (OK, r) /\
  to_bits X87DoubleExtendedS r = Ret c /\ rank 80 c <> rank 80 b + 1.
Proof. exact next_up_x87_refuted. Qed.
Print Assumptions C56_next_up_x87_refuted.
(** one; minus the least subnormal, whose neighbour is minus zero; the largest half *)
Example C56_example : In (16, 5, IEEE754) interchange_formats /\ wf HalfS h_one /\ wf HalfS (neg h_min) /\
  to_bits HalfS h_one = Ret 15360 /\ next_up HalfS h_one = Ret (OK, h_one_ulp) /\ to_bits HalfS h_one_ulp = Ret 15361 /\
  to_bits HalfS (neg h_min) = Ret 32769 /\ rank 16 32769 = -1 /\ next_up HalfS (neg h_min) = Ret (OK, h_nzero) /\
  to_bits HalfS h_nzero = Ret 32768 /\ rank 16 32768 = 0 /\
  to_bits HalfS h_max = Ret 31743 /\ next_up HalfS h_max = Ret (OK, h_inf) /\ to_bits HalfS h_inf = Ret 31744 /\
  partial_cmp (neg h_min) h_one = Ret (Some Lt) /\ (rank 16 32769 ?= rank 16 15360) = Lt.
Proof. split; [left; reflexivity|]. split; [exact h_one_wf|]. split; [exact h_min_wf|]. vm_compute. repeat split. Qed.
