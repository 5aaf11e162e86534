(** * PropsBitTricks.v -- what clients do with the bits of a number (C90) *)
From Coq Require Import ZArith Reals List Bool Lra Lia.
From Flocq Require Import Core.
From Verif Require Import Machine Ieee Spec Formats Samples BitTricks.
Import ListNotations.
Local Open Scope Z_scope.

(** ** C90: bits put into a number, exponents changed in the bits, rounding by a magic number *)
(** the integer k in the fraction of 2^e, and 2^e subtracted: k * 2^(e - t) exactly, in every rounding mode.
    With e = 0 these are evenly spaced numbers in [0, 1), with e = t the integer k itself *)
Theorem C90_fraction : forall bits eb nf, In (bits, eb, nf) interchange_formats ->
  let S := ieee_semantics bits eb nf in let t := bits - 1 - eb in
  forall e k m, MIN_EXP S <= e < MAX_EXP S -> 0 <= k < 2 ^ t ->
  exists r, c_fraction S bits eb e k m = Ret (OK, r) /\ wf S r /\ finite r /\ value S r = (IZR k * bpow r2 (e - t))%R.
Proof. exact fraction_exact. Qed.
Print Assumptions C90_fraction.
Theorem C90_pattern : forall bits eb nf, In (bits, eb, nf) interchange_formats ->
  let S := ieee_semantics bits eb nf in let t := bits - 1 - eb in
  forall e k, MIN_EXP S <= e < MAX_EXP S -> 0 <= k < 2 ^ t ->
  exists y, from_bits S (pattern bits eb e k) = Ret y /\ wf S y /\ finite y /\ sign y = false /\ value S y = (bpow r2 e + IZR k * bpow r2 (e - t))%R.
Proof. exact pattern_number. Qed.
Print Assumptions C90_pattern.
(** scaling by a power of two adds to the exponent field, as long as both numbers are normal *)
Theorem C90_scale_bits : forall bits eb nf, In (bits, eb, nf) interchange_formats ->
  let S := ieee_semantics bits eb nf in let t := bits - 1 - eb in
  forall x k m, wf S x -> finite x -> (min_normal S <= Rabs (value S x))%R ->
  (min_normal S <= Rabs (value S x) * bpow r2 k <= max_finite S)%R ->
  exists b r, to_bits S x = Ret b /\ scalbn_r S x k m = Ret r /\ to_bits S r = Ret (b + k * 2 ^ t).
Proof. exact scale_bits. Qed.
Print Assumptions C90_scale_bits.
Theorem C90_ilogb_bits : forall bits eb nf, In (bits, eb, nf) interchange_formats ->
  let S := ieee_semantics bits eb nf in
  forall x b, wf S x -> finite x -> (min_normal S <= Rabs (value S x))%R -> to_bits S x = Ret b ->
  ilogb S x = Ret (field_exp bits eb b - (2 ^ (eb - 1) - 1)).
Proof. exact ilogb_bits. Qed.
Print Assumptions C90_ilogb_bits.
(** adding 1.5 * 2^(p-1) and taking it off again rounds to an integer *)
Theorem C90_magic : forall S, sem_ok S -> forall M x m, wf S M -> finite M -> value S M = (3 * bpow r2 (PRECISION S - 2))%R ->
  wf S x -> finite x -> (Rabs (value S x) <= bpow r2 (PRECISION S - 2))%R ->
  exists z, c_magic S M x m = Ret z /\ wf S z /\ finite z /\ value S z = IZR (magic_rnd m (value S x)).
Proof. exact magic_round. Qed.
Print Assumptions C90_magic.
Theorem C90_magic_integral : forall S, sem_ok S -> forall M x m, wf S M -> finite M -> value S M = (3 * bpow r2 (PRECISION S - 2))%R ->
  wf S x -> finite x -> (Rabs (value S x) <= bpow r2 (PRECISION S - 2))%R -> m <> TowardZero -> m <> NearestTiesToAway ->
  exists z st r, c_magic S M x m = Ret z /\ round_to_integral S x m = Ret (st, r) /\ finite z /\ value S z = value S r.
Proof. exact magic_integral. Qed.
Print Assumptions C90_magic_integral.
(** in the other two modes it is not the crate's rounding, nor does it keep the sign of zero, nor work for larger numbers *)
Theorem C90_magic_toward_zero_refuted : exists x z st r, wf HalfS x /\ finite x /\ (Rabs (value HalfS x) <= bpow r2 9)%R /\
  c_magic HalfS h_magic x TowardZero = Ret z /\ round_to_integral HalfS x TowardZero = Ret (st, r) /\ value HalfS z <> value HalfS r.
Proof. exact magic_toward_zero_refuted. Qed.
Print Assumptions C90_magic_toward_zero_refuted.
Theorem C90_magic_away_refuted : exists x z st r, wf HalfS x /\ finite x /\ (Rabs (value HalfS x) <= bpow r2 9)%R /\
  c_magic HalfS h_magic x NearestTiesToAway = Ret z /\ round_to_integral HalfS x NearestTiesToAway = Ret (st, r) /\ value HalfS z <> value HalfS r.
Proof. exact magic_away_refuted. Qed.
Print Assumptions C90_magic_away_refuted.
Theorem C90_magic_zero_sign_refuted : exists x z st r, wf HalfS x /\ finite x /\ (Rabs (value HalfS x) <= bpow r2 9)%R /\
  c_magic HalfS h_magic x NearestTiesToEven = Ret z /\ round_to_integral HalfS x NearestTiesToEven = Ret (st, r) /\
  category z = Zero /\ category r = Zero /\ sign z = false /\ sign r = true.
Proof. exact magic_zero_sign_refuted. Qed.
Print Assumptions C90_magic_zero_sign_refuted.
Theorem C90_magic_range_refuted : exists x z, wf HalfS x /\ finite x /\ value HalfS x = 515%R /\
  c_magic HalfS h_magic x NearestTiesToEven = Ret z /\ value HalfS z = 516%R.
Proof. exact magic_range_refuted. Qed.
Print Assumptions C90_magic_range_refuted.

(** the bits 0x3f9 in the fraction of one give 1017/1024 in half precision; 3 scaled by 2^4 has 4 more in the exponent field,
    its binary logarithm is in the exponent field; 3/2 is rounded to 2 by the magic number *)
Example C90_example : In (16, 5, IEEE754) interchange_formats /\ pattern 16 5 0 1017 = 16377 /\
  c_fraction HalfS 16 5 0 1017 TowardNegative = Ret (OK, mkFloat 2034 (-1) Normal false) /\
  c_fraction HalfS 16 5 10 1017 TowardNegative = Ret (OK, mkFloat 2034 9 Normal false) /\
  to_bits HalfS h_three = Ret 16896 /\ scalbn_r HalfS h_three 4 TowardZero = Ret (mkFloat 1536 5 Normal false) /\
  to_bits HalfS (mkFloat 1536 5 Normal false) = Ret (16896 + 4 * 2 ^ 10) /\ ilogb HalfS h_three = Ret 1 /\ field_exp 16 5 16896 - 15 = 1 /\
  wf HalfS h_magic /\ value HalfS h_magic = (3 * bpow r2 9)%R /\ (Rabs (value HalfS (neg h_neg)) <= bpow r2 9)%R /\
  c_magic HalfS h_magic (neg h_neg) NearestTiesToEven = Ret (mkFloat 1024 1 Normal false).
Proof.
  split; [cbn; tauto|]. split; [reflexivity|]. split; [vm_compute; reflexivity|]. split; [vm_compute; reflexivity|]. split; [vm_compute; reflexivity|].
  split; [vm_compute; reflexivity|]. split; [vm_compute; reflexivity|]. split; [vm_compute; reflexivity|]. split; [vm_compute; reflexivity|].
  split; [unfold h_magic; sample_wf|]. split; [unfold value; cbn; lra|]. split; [unfold value; cbn; rewrite Rabs_pos_eq; lra|]. vm_compute. reflexivity.
Qed.
