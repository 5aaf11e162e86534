(** * PropsSig.v -- the multi-limb layer (C36) *)
From Coq Require Import ZArith List Bool.
From Verif Require Import Machine Sig SpecSig SigProofs SigProofs2 SigProofs3 SigProofs4 SigProofs5.
Import ListNotations.
Local Open Scope Z_scope.

(** [lval l] is the number a little-endian list of 128-bit limbs denotes. *)
Theorem C36_through_truncation : forall l bits, limbs l -> 0 <= bits ->
  through_truncation l bits = Ret (loss_of (lval l mod 2 ^ bits) (2 ^ bits)).
Proof. exact through_truncation_spec. Qed.
Print Assumptions C36_through_truncation.
Theorem C36_omsb : forall l, limbs l -> omsb l = bitlen (lval l).
Proof. exact omsb_spec. Qed.
Print Assumptions C36_omsb.
Theorem C36_olsb : forall l, limbs l ->
  (lval l = 0 /\ olsb l = 0) \/
  (1 <= olsb l <= nbits l /\ exists m, 0 <= m /\ lval l = (2 * m + 1) * 2 ^ (olsb l - 1)).
Proof. exact olsb_spec. Qed.
Print Assumptions C36_olsb.
Theorem C36_cmp : forall a b, limbs a -> limbs b -> length a = length b ->
  cmp a b = Ret (lval a ?= lval b).
Proof. exact cmp_spec. Qed.
Print Assumptions C36_cmp.
Theorem C36_get_bit : forall l i, limbs l -> 0 <= i < nbits l ->
  get_bit l i = Ret (Z.testbit (lval l) i).
Proof. exact get_bit_spec. Qed.
Print Assumptions C36_get_bit.
Theorem C36_set_bit : forall l i, limbs l -> 0 <= i < nbits l ->
  exists d, set_bit l i = Ret d /\ limbs d /\ length d = length l /\ lval d = Z.lor (lval l) (2 ^ i).
Proof. exact set_bit_spec. Qed.
Print Assumptions C36_set_bit.
Theorem C36_shift_left : forall l e bits, limbs l -> 0 <= bits <= 2 ^ 31 - 1 ->
  - 2 ^ 31 <= e - bits <= 2 ^ 31 - 1 ->
  exists d, shift_left l e bits = Ret (d, e - bits) /\ limbs d /\ length d = length l /\
            lval d = (lval l * 2 ^ bits) mod 2 ^ nbits l.
Proof. exact shift_left_spec. Qed.
Print Assumptions C36_shift_left.
Theorem C36_shift_right : forall l e bits, limbs l -> 0 <= bits <= 2 ^ 31 - 1 ->
  - 2 ^ 31 <= e + bits <= 2 ^ 31 - 1 ->
  exists d, shift_right l e bits = Ret (d, e + bits, loss_of (lval l mod 2 ^ bits) (2 ^ bits)) /\
            limbs d /\ length d = length l /\ lval d = lval l / 2 ^ bits.
Proof. exact shift_right_spec. Qed.
Print Assumptions C36_shift_right.
Theorem C36_extract : forall dst src bits lsb, limbs dst -> limbs src ->
  0 <= bits -> 0 <= lsb -> limbs_for_bits bits <= nlimbs dst -> lsb + bits <= nbits src ->
  (bits = 0 -> lval dst = 0) ->
  exists d, extract dst src bits lsb = Ret d /\ limbs d /\ length d = length dst /\
            lval d = (lval src / 2 ^ lsb) mod 2 ^ bits.
Proof. exact extract_spec. Qed.
Print Assumptions C36_extract.
Theorem C36_from_limbs : forall dst src precision, limbs dst -> limbs src ->
  1 <= precision <= 2 ^ 31 - 1 -> limbs_for_bits precision <= nlimbs dst -> nbits src <= 2 ^ 31 - 1 ->
  (lval src = 0 -> lval dst = 0) ->
  let o := bitlen (lval src) in
  let sh := Z.max 0 (o - precision) in
  exists d, from_limbs dst src precision =
              Ret (d, loss_of (lval src mod 2 ^ sh) (2 ^ sh), precision - 1 + sh) /\
    limbs d /\ length d = length dst /\ lval d = lval src / 2 ^ sh.
Proof. exact from_limbs_spec. Qed.
Print Assumptions C36_from_limbs.
Theorem C36_each_chunk_div : forall D bits f l r, 0 < D -> 0 < bits < 128 -> 128 mod bits = 0 ->
  divides_by D bits f -> limbs l -> 0 <= r < D ->
  exists q, each_chunk l bits f r = Ret (q, (r * 2 ^ nbits l + lval l) mod D) /\
    limbs q /\ length q = length l /\ lval q = (r * 2 ^ nbits l + lval l) / D.
Proof. exact each_chunk_div. Qed.
Print Assumptions C36_each_chunk_div.
Theorem C36_increment : forall l, limbs l ->
  let '(d, c) := increment l in
  limbs d /\ length d = length l /\ 0 <= c <= 1 /\ lval d + c * 2 ^ nbits l = lval l + 1.
Proof. exact increment_spec. Qed.
Print Assumptions C36_increment.
Theorem C36_decrement : forall l, limbs l ->
  let '(d, c) := decrement l in
  limbs d /\ length d = length l /\ 0 <= c <= 1 /\ lval d - c * 2 ^ nbits l = lval l - 1.
Proof. exact decrement_spec. Qed.
Print Assumptions C36_decrement.
Theorem C36_add : forall a b c, limbs a -> limbs b -> length a = length b -> 0 <= c <= 1 ->
  exists d c', add a b c = Ret (d, c') /\
  limbs d /\ length d = length a /\ 0 <= c' <= 1 /\ lval d + c' * 2 ^ nbits a = lval a + lval b + c.
Proof. exact add_spec. Qed.
Print Assumptions C36_add.
Theorem C36_sub : forall a b c, limbs a -> limbs b -> length a = length b -> 0 <= c <= 1 ->
  exists d c', sub a b c = Ret (d, c') /\
  limbs d /\ length d = length a /\ 0 <= c' <= 1 /\ lval d - c' * 2 ^ nbits a = lval a - lval b - c.
Proof. exact sub_spec. Qed.
Print Assumptions C36_sub.
Theorem C36_widening_mul : forall a b, limb a -> limb b ->
  exists lo hi, widening_mul a b = Ret (lo, hi) /\ limb lo /\ limb hi /\ lo + 2 ^ 128 * hi = a * b.
Proof. exact widening_mul_spec. Qed.
Print Assumptions C36_widening_mul.
Theorem C36_mul : forall dst e a b precision, limbs dst -> limbs a -> limbs b ->
  length dst = (length a + length b)%nat -> 0 <= precision <= 2 ^ 31 - 2 -> nbits dst <= 2 ^ 31 - 1 ->
  let v := lval a * lval b in
  let sh := Z.max 0 (bitlen v - precision) in
  - 2 ^ 31 <= e + 2 <= 2 ^ 31 - 1 -> - 2 ^ 31 <= e + 1 - precision -> e + 1 - precision + sh <= 2 ^ 31 - 1 ->
  exists d, mul dst e a b precision = Ret (d, e + 1 - precision + sh, loss_of (v mod 2 ^ sh) (2 ^ sh)) /\
    limbs d /\ length d = length dst /\ lval d = v / 2 ^ sh.
Proof. exact mul_spec. Qed.
Print Assumptions C36_mul.
Theorem C36_div : forall q e a b p, limbs q -> limbs a -> limbs b ->
  length a = length b -> length q = length a ->
  nbits a - 128 < p < nbits a -> p <= 2 ^ 31 - 1 ->
  0 < lval a < 2 ^ p -> 0 < lval b < 2 ^ p ->
  - 2 ^ 31 <= e - p -> e + p <= 2 ^ 31 - 1 ->
  exists r s, 0 <= s /\
    div q e a b p = Ret (r, e + (p - 1) - s, loss_of ((lval a * 2 ^ s) mod lval b) (lval b)) /\
    limbs r /\ length r = length a /\ lval r = (lval a * 2 ^ s) / lval b /\
    2 ^ (p - 1) <= lval r < 2 ^ p.
Proof. exact div_spec. Qed.
Print Assumptions C36_div.
Theorem C36_add_or_sub : forall a ea sa b eb sb, limbs a -> limbs b -> length a = length b ->
  2 * lval a < 2 ^ nbits a -> 2 * lval b < 2 ^ nbits a ->
  - 2 ^ 30 <= ea <= 2 ^ 30 - 1 -> - 2 ^ 30 <= eb <= 2 ^ 30 - 1 ->
  (sa <> sb -> eb < ea -> lval b mod 2 ^ (ea - eb - 1) = 0 \/ lval b / 2 ^ (ea - eb - 1) < 2 * lval a) ->
  (sa <> sb -> ea < eb -> lval a mod 2 ^ (eb - ea - 1) = 0 \/ lval a / 2 ^ (eb - ea - 1) < 2 * lval b) ->
  let m := Z.min ea eb in
  let t := sgn sa * lval a * 2 ^ (ea - m) + sgn sb * lval b * 2 ^ (eb - m) in
  let re := if xorb sa sb && negb (ea =? eb) then Z.max ea eb - 1 else Z.max ea eb in
  let d := 2 ^ (re - m) in
  exists r, add_or_sub a ea sa b eb sb =
      Ret (r, re, (if t =? 0 then sa else t <? 0), loss_of (Z.abs t mod d) d) /\
    limbs r /\ length r = length a /\ lval r = Z.abs t / d.
Proof. exact add_or_sub_spec. Qed.
Print Assumptions C36_add_or_sub.

(** two-limb operands *)
Ltac limbs_tac := repeat constructor; vm_compute; congruence.
Definition s_a : list Z := [2 ^ 128 - 1; 3].
Definition s_b : list Z := [1; 5].
Example C36_example : limbs s_a /\ limbs s_b /\ length s_a = length s_b /\ nbits s_a = 256 /\
  lval s_a = 2 ^ 130 - 1 /\ lval s_b = 5 * 2 ^ 128 + 1 /\
  through_truncation s_b 129 = Ret MoreThanHalf /\ omsb s_a = 130 /\ olsb s_a = 1 /\
  cmp s_a s_b = Ret Lt /\ get_bit s_b 128 = Ret true /\ set_bit s_b 127 = Ret [2 ^ 127 + 1; 5] /\
  shift_left s_a 0 2 = Ret ([2 ^ 128 - 4; 15], -2) /\ shift_right s_a 0 2 = Ret ([2 ^ 128 - 1; 0], 2, MoreThanHalf) /\
  extract [0] s_b 100 60 = Ret [5 * 2 ^ 68] /\
  increment [2 ^ 128 - 1; 3] = ([0; 4], 0) /\ decrement [0; 4] = ([2 ^ 128 - 1; 3], 0) /\
  add s_a s_b 0 = Ret ([0; 9], 0) /\ sub s_b s_a 0 = Ret ([2; 1], 0) /\
  widening_mul (2 ^ 128 - 1) (2 ^ 128 - 1) = Ret (1, 2 ^ 128 - 2) /\
  (exists r, mul [0; 0; 0; 0] 0 s_a s_b 200 = Ret (r, - 138, MoreThanHalf)) /\
  (exists r, div [0; 0] 0 s_a s_b 200 = Ret (r, -1, LessThanHalf)) /\
  add_or_sub s_a 1 false s_b 0 true = Ret ([2 ^ 128 - 3; 2], 0, false, ExactlyZero).
Proof.
  split; [limbs_tac|]. split; [limbs_tac|]. vm_compute. repeat split; eexists; reflexivity.
Qed.
(** [from_limbs] of 130 bits to 100 and to 200 bits; a division by 10 in half-limbs *)
Definition by_ten : Z -> Z -> outcome (Z * Z) := fun c r => Ret ((r * 2 ^ 64 + c) / 10, (r * 2 ^ 64 + c) mod 10).
Example C36_more : divides_by 10 64 by_ten /\ from_limbs [0] s_a 100 = Ret ([2 ^ 100 - 1], MoreThanHalf, 129) /\
  from_limbs [0; 0] s_a 200 = Ret (s_a, ExactlyZero, 199) /\
  each_chunk s_b 64 by_ten 3 =
    Ret ([(5 * 2 ^ 128 + 1 + 3 * 2 ^ 256) / 10 mod 2 ^ 128; (5 * 2 ^ 128 + 1 + 3 * 2 ^ 256) / 10 / 2 ^ 128], (5 * 2 ^ 128 + 1 + 3 * 2 ^ 256) mod 10).
Proof. split; [intros c r _ _; reflexivity|]. vm_compute. repeat split. Qed.
