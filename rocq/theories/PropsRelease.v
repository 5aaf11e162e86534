(** * PropsRelease.v -- a build without overflow checks computes the same (C82) *)
From Coq Require Import ZArith Reals String List Bool.
From Verif Require Import Machine Ieee Parse Fmt Ppc Ops OpsPair Spec Formats SpecStr SpecFmt SpecPair Reach PairTotal Samples PairSamples Refute Release ReleaseTop ReleaseProofs ReleaseEq ReleaseMore.
From Coq Require Import List.
Import ListNotations.
Local Open Scope Z_scope.

(** ** C82: builds without overflow checks
    The model is that of a build that checks arithmetic for overflow: an [i32],
    [usize] or [u128] result out of range, or a shift by the width of the type
    or more, panics.  A release build checks neither: results wrap and shift
    amounts are masked.  Release.v and ReleaseTop.v model that build; asserts,
    [unwrap]s and index checks stay.  [refines a b] is
    [forall v, a = Ret v -> b = Ret v]: whatever the checked build returns, the
    release build returns.  The first four statements are about arguments of
    any shape. *)
Theorem C82_floats : forall (S T : Semantics) (x y z : Float) (m : Round) (b w n : Z) (s : list Z) (fw fp : option Z) (alternate : bool),
  refines (add_r S x y m) (add_r_rel S x y m) /\
  refines (sub_r S x y m) (sub_r_rel S x y m) /\
  refines (mul_r S x y m) (mul_r_rel S x y m) /\
  refines (div_r S x y m) (div_r_rel S x y m) /\
  refines (mul_add_r S x y z m) (mul_add_r_rel S x y z m) /\
  refines (ieee_rem S x y) (ieee_rem_rel S x y) /\
  refines (c_fmod S x y) (c_fmod_rel S x y) /\
  refines (round_to_integral S x m) (round_to_integral_rel S x m) /\
  refines (next_up S x) (next_up_rel S x) /\
  refines (next_down S x) (next_down_rel S x) /\
  refines (from_bits S b) (from_bits_rel S b) /\
  refines (to_bits S x) (to_bits_rel S x) /\
  refines (from_u128_r S b m) (from_u128_r_rel S b m) /\
  refines (from_i128_r S b m) (from_i128_r_rel S b m) /\
  refines (to_u128_r S x w m) (to_u128_r_rel S x w m) /\
  refines (to_i128_r S x w m) (to_i128_r_rel S x w m) /\
  refines (from_str_r S s m) (from_str_r_rel S s m) /\
  refines (fmt S x fw fp alternate) (fmt_rel S x fw fp alternate) /\
  refines (get_exact_inverse S x) (get_exact_inverse_rel S x) /\
  refines (ilogb S x) (ilogb_rel S x) /\
  refines (scalbn_r S x n m) (scalbn_r_rel S x n m) /\
  refines (frexp_r S x m) (frexp_r_rel S x m) /\
  refines (convert_r S T x m) (convert_r_rel S T x m) /\
  refines (is_denormal S x) (is_denormal_rel S x) /\
  refines (is_normal S x) (is_normal_rel S x) /\
  refines (is_integer S x) (is_integer_rel S x).
Proof. exact floats_release. Qed.
Print Assumptions C82_floats.

Theorem C82_pairs : forall (F : Semantics) (x y z : DFloat) (m : Round) (b w n : Z) (s : list Z) (fw fp : option Z) (alternate : bool),
  refines (dd_add_r F x y m) (dd_add_r_rel F x y m) /\
  refines (dd_sub_r F x y m) (dd_sub_r_rel F x y m) /\
  refines (dd_mul_r F x y m) (dd_mul_r_rel F x y m) /\
  refines (dd_div_r F x y m) (dd_div_r_rel F x y m) /\
  refines (dd_mul_add_r F x y z m) (dd_mul_add_r_rel F x y z m) /\
  refines (dd_ieee_rem F x y) (dd_ieee_rem_rel F x y) /\
  refines (dd_c_fmod F x y) (dd_c_fmod_rel F x y) /\
  refines (dd_round_to_integral F x m) (dd_round_to_integral_rel F x m) /\
  refines (dd_next_up F x) (dd_next_up_rel F x) /\
  refines (dd_next_down F x) (dd_next_down_rel F x) /\
  refines (dd_from_bits F b) (dd_from_bits_rel F b) /\
  refines (dd_to_bits F x) (dd_to_bits_rel F x) /\
  refines (dd_from_u128_r F b m) (dd_from_u128_r_rel F b m) /\
  refines (dd_from_i128_r F b m) (dd_from_i128_r_rel F b m) /\
  refines (dd_to_u128_r F x w m) (dd_to_u128_r_rel F x w m) /\
  refines (dd_to_i128_r F x w m) (dd_to_i128_r_rel F x w m) /\
  refines (dd_from_str_r F s m) (dd_from_str_r_rel F s m) /\
  refines (dd_fmt F x fw fp alternate) (dd_fmt_rel F x fw fp alternate) /\
  refines (dd_get_exact_inverse F x) (dd_get_exact_inverse_rel F x) /\
  refines (dd_ilogb F x) (dd_ilogb_rel F x) /\
  refines (dd_scalbn_r F x n m) (dd_scalbn_r_rel F x n m) /\
  refines (dd_frexp_r F x m) (dd_frexp_r_rel F x m) /\
  refines (dd_is_denormal F x) (dd_is_denormal_rel F x) /\
  refines (dd_is_normal F x) (dd_is_normal_rel F x) /\
  refines (dd_is_integer F x) (dd_is_integer_rel F x) /\
  refines (dd_is_largest F x) (dd_is_largest_rel F x) /\
  refines (dd_is_smallest_normalized F x) (dd_is_smallest_normalized_rel F x) /\
  refines (dd_largest F) (dd_largest_rel F) /\
  refines (dd_smallest_normalized F) (dd_smallest_normalized_rel F).
Proof. exact pairs_release. Qed.
Print Assumptions C82_pairs.

Theorem C82_operators : forall (S T : Semantics) (x y z : Float) (b w : Z) (s : list Z),
  refines (from_str S s) (from_str_rel S s) /\
  refines (op_add S x y) (op_add_rel S x y) /\
  refines (op_sub S x y) (op_sub_rel S x y) /\
  refines (op_mul S x y) (op_mul_rel S x y) /\
  refines (op_div S x y) (op_div_rel S x y) /\
  refines (op_rem S x y) (op_rem_rel S x y) /\
  refines (add_assign S x y) (add_assign_rel S x y) /\
  refines (sub_assign S x y) (sub_assign_rel S x y) /\
  refines (mul_assign S x y) (mul_assign_rel S x y) /\
  refines (div_assign S x y) (div_assign_rel S x y) /\
  refines (rem_assign S x y) (rem_assign_rel S x y) /\
  refines (mul_add S x y z) (mul_add_rel S x y z) /\
  refines (from_i128 S b) (from_i128_rel S b) /\
  refines (to_i128 S x w) (to_i128_rel S x w) /\
  refines (to_u128 S x w) (to_u128_rel S x w) /\
  refines (frexp S x) (frexp_rel S x) /\
  refines (convert S T x) (convert_rel S T x) /\
  refines (debug S x) (debug_rel S x).
Proof. exact operators_release. Qed.
Print Assumptions C82_operators.

Theorem C82_pair_operators : forall (F : Semantics) (x y z : DFloat) (b w n : Z) (s : list Z),
  refines (dd_from_str F s) (dd_from_str_rel F s) /\
  refines (dd_op_add F x y) (dd_op_add_rel F x y) /\
  refines (dd_op_sub F x y) (dd_op_sub_rel F x y) /\
  refines (dd_op_mul F x y) (dd_op_mul_rel F x y) /\
  refines (dd_op_div F x y) (dd_op_div_rel F x y) /\
  refines (dd_op_rem F x y) (dd_op_rem_rel F x y) /\
  refines (dd_mul_add F x y z) (dd_mul_add_rel F x y z) /\
  refines (dd_from_i128 F b) (dd_from_i128_rel F b) /\
  refines (dd_from_u128 F b) (dd_from_u128_rel F b) /\
  refines (dd_to_i128 F x w) (dd_to_i128_rel F x w) /\
  refines (dd_to_u128 F x w) (dd_to_u128_rel F x w) /\
  refines (dd_scalbn F x n) (dd_scalbn_rel F x n) /\
  refines (dd_frexp F x) (dd_frexp_rel F x) /\
  refines (dd_add_assign F x y) (dd_add_assign_rel F x y) /\
  refines (dd_sub_assign F x y) (dd_sub_assign_rel F x y) /\
  refines (dd_mul_assign F x y) (dd_mul_assign_rel F x y) /\
  refines (dd_div_assign F x y) (dd_div_assign_rel F x y) /\
  refines (dd_rem_assign F x y) (dd_rem_assign_rel F x y) /\
  refines (dd_debug F x) (dd_debug_rel F x).
Proof. exact pair_operators_release. Qed.
Print Assumptions C82_pair_operators.

(** *** Values obtained from the interface: the two builds are equal, panics included *)
Theorem C82_arithmetic : forall S x y, reachable S x -> reachable S y -> forall m,
  add_r_rel S x y m = add_r S x y m /\ sub_r_rel S x y m = sub_r S x y m /\ mul_r_rel S x y m = mul_r S x y m /\
  div_r_rel S x y m = div_r S x y m /\ c_fmod_rel S x y = c_fmod S x y /\ ieee_rem_rel S x y = ieee_rem S x y /\
  next_up_rel S x = next_up S x /\ next_down_rel S x = next_down S x /\
  round_to_integral_rel S x m = round_to_integral S x m /\ (forall n, scalbn_r_rel S x n m = scalbn_r S x n m) /\
  frexp_r_rel S x m = frexp_r S x m /\ ilogb_rel S x = ilogb S x /\ get_exact_inverse_rel S x = get_exact_inverse S x /\
  (forall T, In T crate_formats -> convert_r_rel S T x m = convert_r S T x m).
Proof. exact arithmetic_same. Qed.
Print Assumptions C82_arithmetic.

Theorem C82_mul_add : forall S, sem_ok S -> forall x y z m, wf S x -> wf S y -> wf S z -> mul_add_r_rel S x y z m = mul_add_r S x y z m.
Proof. exact mul_add_r_rel_eq. Qed.
Print Assumptions C82_mul_add.
(** the sample operands panic in both *)
Example C82_mul_add_panics : wf HalfS h_0c11 /\ wf HalfS h_0bdf /\ wf HalfS h_8001 /\
  mul_add_r HalfS h_0c11 h_0bdf h_8001 NearestTiesToEven = Panic /\ mul_add_r_rel HalfS h_0c11 h_0bdf h_8001 NearestTiesToEven = Panic /\
  mul_add_r_rel HalfS h_ten h_ten h_one NearestTiesToEven = Ret (0, mkFloat 1616 6 Normal false).
Proof. split; [sample_wf|]. split; [sample_wf|]. split; [sample_wf|]. vm_compute. repeat split. Qed.

Theorem C82_queries : forall S x y, reachable S x -> reachable S y -> is_denormal_rel S x = is_denormal S x /\ is_normal_rel S x = is_normal S x /\ is_integer_rel S x = is_integer S x.
Proof. exact queries_same. Qed.
Print Assumptions C82_queries.

Theorem C82_to_int : forall S x, reachable S x -> forall w m, (1 <= w <= 128 -> to_u128_r_rel S x w m = to_u128_r S x w m) /\
  ((if sign x then 1 else 2) <= w <= 128 -> to_i128_r_rel S x w m = to_i128_r S x w m).
Proof. exact to_int_same. Qed.
Print Assumptions C82_to_int.

Theorem C82_to_bits : forall S x, reachable S x -> In S public_formats -> to_bits_rel S x = to_bits S x.
Proof. exact to_bits_same. Qed.
Print Assumptions C82_to_bits.

Theorem C82_from_bits : forall S b, In S public_formats -> 0 <= b < 2 ^ 128 -> from_bits_rel S b = from_bits S b.
Proof. exact from_bits_same. Qed.
Print Assumptions C82_from_bits.

Theorem C82_from_int : forall S m, In S crate_formats ->
  (forall n, 0 <= n < 2 ^ 128 -> from_u128_r_rel S n m = from_u128_r S n m) /\
  (forall n, - 2 ^ 127 <= n < 2 ^ 127 -> from_i128_r_rel S n m = from_i128_r S n m).
Proof. exact from_int_same. Qed.
Print Assumptions C82_from_int.

Theorem C82_from_str : forall S s m, sem_ok S -> dec_ok S -> len s < 2 ^ 25 -> from_str_r_rel S s m = from_str_r S s m.
Proof. exact from_str_same. Qed.
Print Assumptions C82_from_str.

Theorem C82_fmt : forall S x w p alternate, sem_ok S -> wf S x -> 0 <= chosen_width w -> 0 <= chosen_precision S p <= largest_precision ->
  fmt_rel S x w p alternate = fmt S x w p alternate.
Proof. exact fmt_same. Qed.
Print Assumptions C82_fmt.

Example C82_runs : reachable HalfS h_ten /\
  add_r_rel HalfS h_ten h_one NearestTiesToEven = Ret (0, mkFloat 1408 3 Normal false) /\
  div_r_rel HalfS h_one h_ten NearestTiesToEven = Ret (16, mkFloat 1638 (-4) Normal false) /\
  to_i128_r_rel HalfS h_ten 5 TowardZero = Ret (0, 10, true) /\ to_i128_r_rel HalfS h_ten 4 TowardZero = Ret (1, 7, false) /\
  from_str_r_rel HalfS (bytes "1e1") NearestTiesToEven = Ret (Ok (0, h_ten)) /\
  fmt_rel HalfS h_ten None None false = Ret (bytes "10") /\
  fmt HalfS (mkFloat 1024 3 Normal false) None (Some 0) false = Panic /\ fmt_rel HalfS (mkFloat 1024 3 Normal false) None (Some 0) false = Panic.
Proof. split; [apply (r_from_bits HalfS 0x4900); [vm_compute; tauto|split; [discriminate|reflexivity]|vm_compute; reflexivity]|]. vm_compute. repeat split. Qed.

(** *** Pairs *)
Theorem C82_pair_arithmetic : forall F, pair_ok F -> forall x y z m, pair_wf F x -> pair_wf F y -> pair_wf F z ->
  dd_add_r_rel F x y m = dd_add_r F x y m /\ dd_sub_r_rel F x y m = dd_sub_r F x y m /\ dd_mul_r_rel F x y m = dd_mul_r F x y m /\
  dd_div_r_rel F x y m = dd_div_r F x y m /\ dd_mul_add_r_rel F x y z m = dd_mul_add_r F x y z m /\
  dd_ieee_rem_rel F x y = dd_ieee_rem F x y /\ dd_c_fmod_rel F x y = dd_c_fmod F x y /\
  dd_round_to_integral_rel F x m = dd_round_to_integral F x m /\ dd_next_up_rel F x = dd_next_up F x /\ dd_next_down_rel F x = dd_next_down F x /\
  dd_get_exact_inverse_rel F x = dd_get_exact_inverse F x /\
  (forall n, dd_scalbn_r_rel F x n m = dd_scalbn_r F x n m) /\ dd_frexp_r_rel F x m = dd_frexp_r F x m /\ dd_ilogb_rel F x = dd_ilogb F x /\
  dd_is_denormal_rel F x = dd_is_denormal F x /\ dd_is_integer_rel F x = dd_is_integer F x.
Proof. exact dd_arithmetic_same. Qed.
Print Assumptions C82_pair_arithmetic.

Theorem C82_pair_from_int : forall F, pair_ok F -> forall m,
  (forall n, 0 <= n < 2 ^ 128 -> dd_from_u128_r_rel F n m = dd_from_u128_r F n m) /\
  (forall n, - 2 ^ 127 <= n < 2 ^ 127 -> dd_from_i128_r_rel F n m = dd_from_i128_r F n m).
Proof. exact dd_from_int_same. Qed.
Print Assumptions C82_pair_from_int.

Theorem C82_pair_to_int : forall F, pair_ok F -> forall x w m, pair_wf F x ->
  (1 <= w <= 128 -> dd_to_u128_r_rel F x w m = dd_to_u128_r F x w m) /\
  ((if sign (d0 x) then 1 else 2) <= w <= 128 -> dd_to_i128_r_rel F x w m = dd_to_i128_r F x w m).
Proof. exact dd_to_int_same. Qed.
Print Assumptions C82_pair_to_int.

Theorem C82_pair_bits : forall b x, (0 <= b < 2 ^ 128 -> dd_from_bits_rel DoubleS b = dd_from_bits DoubleS b) /\
  (pair_wf DoubleS x -> dd_to_bits_rel DoubleS x = dd_to_bits DoubleS x).
Proof. exact dd_bits_same. Qed.
Print Assumptions C82_pair_bits.

Theorem C82_pair_from_str : forall F, pair_ok F -> dec_ok (FallbackS F) -> forall s m, len s < 2 ^ 25 -> dd_from_str_r_rel F s m = dd_from_str_r F s m.
Proof. exact dd_from_str_same. Qed.
Print Assumptions C82_pair_from_str.

Theorem C82_pair_fmt : forall F, pair_ok F -> forall x w p alternate, pair_wf F x -> 0 <= chosen_width w ->
  0 <= chosen_precision (FallbackS F) p <= largest_precision -> dd_fmt_rel F x w p alternate = dd_fmt F x w p alternate.
Proof. exact dd_fmt_same. Qed.
Print Assumptions C82_pair_fmt.

Example C82_pair_runs : pair_ok DoubleS /\ canonical_pair DoubleS p_third /\
  (let! r := dd_mul_r_rel DoubleS p_third p_five NearestTiesToEven in dd_to_bits_rel DoubleS (snd r)) =
  (let! r := dd_mul_r DoubleS p_third p_five NearestTiesToEven in dd_to_bits DoubleS (snd r)) /\
  defined (dd_mul_r_rel DoubleS p_third p_five NearestTiesToEven) /\
  dd_mul_r_rel DoubleS p_tiny1 p_tiny2 NearestTiesToEven = Panic.
Proof.
  split; [exact double_pair|]. split; [exact p_third_canonical|]. split; [vm_compute; reflexivity|]. split; [eexists; vm_compute; reflexivity|vm_compute; reflexivity].
Qed.

(** *** Where the checked build panics for overflow, the release build returns a wrong result
    [to_i128_r(1)] of a number from 1 up: the checked build panics (C16), the
    release build returns -1 with the invalid flag; the nearest integer of one
    bit is 0. *)
Theorem C82_to_i128_width_1 : forall S x m, sem_ok S -> wf S x -> sign x = false ->
  category x = Infinity \/ (category x = Normal /\ (1 <= value S x)%R) ->
  to_i128_r S x 1 m = Panic /\ to_i128_r_rel S x 1 m = Ret (INVALID_OP, -1, false) /\ ~ converted_to_int S x m (-1) 0 INVALID_OP (-1).
Proof. exact to_i128_release. Qed.
Print Assumptions C82_to_i128_width_1.
Example C82_to_i128_width_1_sample : wf HalfS h_ten /\ sign h_ten = false /\ category h_ten = Normal /\
  to_i128_r_rel HalfS h_ten 1 TowardZero = Ret (INVALID_OP, -1, false).
Proof. split; [sample_wf|]. repeat split. Qed.

(** widths above 128: the checked build panics, the release build saturates at a
    bound of [w mod 128] bits (128 bits for multiples of 128) *)
Theorem C82_to_u128_too_wide : forall S x w m, sign x = false -> category x = Infinity -> 128 < w < 2 ^ 64 ->
  to_u128_r S x w m = Panic /\ to_u128_r_rel S x w m = Ret (INVALID_OP, 2 ^ (128 - (- w) mod 128) - 1, false).
Proof. exact to_u128_too_wide. Qed.
Print Assumptions C82_to_u128_too_wide.
Example C82_to_u128_too_wide_runs :
  map (fun w => to_u128_r_rel HalfS (INFINITY HalfS) w TowardZero) [129; 256] = [Ret (INVALID_OP, 1, false); Ret (INVALID_OP, 2 ^ 128 - 1, false)] /\
  map (fun w => to_u128_r_rel HalfS h_ten w TowardZero) [0; 129; 131; 132] =
    [Ret (INVALID_OP, 2 ^ 128 - 1, false); Ret (INVALID_OP, 1, false); Ret (INVALID_OP, 7, false); Ret (OK, 10, true)].
Proof. vm_compute. split; reflexivity. Qed.

(** a precision above the largest one: the checked build panics (C35), the
    release build prints too few digits *)
Theorem C82_precision_refuted : exists S x p s t, sem_ok S /\ wf S x /\ category x = Normal /\ p = largest_precision + 1 /\
  fmt S x None (Some p) false = Panic /\ fmt_rel S x None (Some p) false = Ret s /\ s = bytes "2.0E+9" /\
  fmt S x None (Some largest_precision) false = Ret t /\ t = bytes "2147483647.9999997615814208984375".
Proof. exact fmt_release. Qed.
Print Assumptions C82_precision_refuted.

