(** * PropsOrder.v -- comparison, sign operations, min/max, classification (C13, C25, C26, C27) *)
From Coq Require Import ZArith Reals List Bool.
From Flocq Require Import Core.
From Verif Require Import Machine Ieee Spec Order Bits Formats Classes Samples Orderx More.
Import ListNotations.
Local Open Scope Z_scope.

(** ** C13: comparison

    [ext_of] is the extended real number a value denotes, [None] for NaNs;
    [ext_compare] is the order of the extended reals. *)
Theorem C13_partial_cmp : forall S x y, sem_ok S -> wf S x -> wf S y ->
  exists r, partial_cmp x y = Ret r /\
    match ext_of S x, ext_of S y, r with
    | Some a, Some b, Some c => ext_compare a b c
    | Some _, Some _, None => False
    | _, _, Some _ => False
    | _, _, None => True
    end.
Proof. exact partial_cmp_spec. Qed.
Print Assumptions C13_partial_cmp.
Theorem C13_lt : forall S x y, sem_ok S -> wf S x -> wf S y ->
  exists b, lt_f x y = Ret b /\
    (b = true <-> exists a c, ext_of S x = Some a /\ ext_of S y = Some c /\ ext_lt a c).
Proof. exact lt_f_spec. Qed.
Print Assumptions C13_lt.
Theorem C13_eq : forall S x y, sem_ok S -> wf S x -> wf S y ->
  exists b, eq_f x y = Ret b /\
    (b = true <-> exists a, ext_of S x = Some a /\ ext_of S y = Some a).
Proof. exact eq_f_spec. Qed.
Print Assumptions C13_eq.
(** the relation is a total preorder on the values that are not NaN *)
Theorem C13_reflexive : forall S x, sem_ok S -> wf S x -> category x <> NaN -> partial_cmp x x = Ret (Some Eq).
Proof. exact partial_cmp_refl. Qed.
Print Assumptions C13_reflexive.
Theorem C13_transitive : forall S x y z c d, sem_ok S -> wf S x -> wf S y -> wf S z ->
  partial_cmp x y = Ret (Some c) -> partial_cmp y z = Ret (Some d) -> c <> Gt -> d <> Gt ->
  exists e, partial_cmp x z = Ret (Some e) /\ e <> Gt /\ (e = Eq <-> c = Eq /\ d = Eq).
Proof. exact partial_cmp_trans. Qed.
Print Assumptions C13_transitive.
Theorem C13_antisymmetric : forall S x y c, sem_ok S -> wf S x -> wf S y ->
  partial_cmp x y = Ret (Some c) -> partial_cmp y x = Ret (Some (CompOpp c)).
Proof. exact partial_cmp_antisym. Qed.
Print Assumptions C13_antisymmetric.
Example C13_example : wf HalfS h_zero /\ wf HalfS h_nzero /\ wf HalfS h_ninf /\
  partial_cmp h_zero h_nzero = Ret (Some Eq) /\ partial_cmp h_ninf h_neg = Ret (Some Lt) /\
  partial_cmp h_max h_min = Ret (Some Gt) /\ partial_cmp h_one h_qnan = Ret None.
Proof. split; [exact h_zero_wf|]. split; [exact h_nzero_wf|]. split; [exact h_ninf_wf|]. vm_compute. repeat split. Qed.

(** ** C25: sign operations *)
Theorem C25_neg : forall x, neg x = mkFloat (sig x) (exp x) (category x) (negb (sign x)).
Proof. exact neg_spec. Qed.
Print Assumptions C25_neg.
Theorem C25_neg_involutive : forall x, neg (neg x) = x.
Proof. exact neg_involutive. Qed.
Print Assumptions C25_neg_involutive.
Theorem C25_abs : forall x, abs x = mkFloat (sig x) (exp x) (category x) false.
Proof. exact abs_spec. Qed.
Print Assumptions C25_abs.
Theorem C25_copy_sign : forall x y, copy_sign x y = mkFloat (sig x) (exp x) (category x) (sign y).
Proof. exact copy_sign_spec. Qed.
Print Assumptions C25_copy_sign.
Theorem C25_abs_value : forall S x, wf S x -> value S (abs x) = Rabs (value S x).
Proof. exact abs_value. Qed.
Print Assumptions C25_abs_value.
(** on encodings: only the sign bit changes *)
Theorem C25_neg_bits : forall bits eb nf, In (bits, eb, nf) interchange_formats ->
  forall x, wf (ieee_semantics bits eb nf) x ->
  exists b, to_bits (ieee_semantics bits eb nf) x = Ret b /\ 0 <= b < 2 ^ bits /\
    to_bits (ieee_semantics bits eb nf) (neg x) =
      Ret (if field_sign bits b then b - 2 ^ (bits - 1) else b + 2 ^ (bits - 1)).
Proof. exact neg_bits. Qed.
Print Assumptions C25_neg_bits.
Example C25_example : to_bits HalfS h_snan = Ret 64517 /\ to_bits HalfS (neg h_snan) = Ret 31749 /\
  abs h_neg = mkFloat 1536 0 Normal false /\ copy_sign h_one h_neg = mkFloat 1024 0 Normal true.
Proof. vm_compute. repeat split. Qed.

(** ** C26: minimum and maximum *)
Theorem C26_min : forall S x y, sem_ok S -> wf S x -> wf S y ->
  exists r, min x y = Ret r /\ (r = x \/ r = y) /\
  match ext_of S x, ext_of S y with
  | None, _ => r = y
  | _, None => r = x
  | Some a, Some b => exists c, ext_of S r = Some c /\ ext_le c a /\ ext_le c b
  end.
Proof. exact min_spec. Qed.
Print Assumptions C26_min.
Theorem C26_max : forall S x y, sem_ok S -> wf S x -> wf S y ->
  exists r, max x y = Ret r /\ (r = x \/ r = y) /\
  match ext_of S x, ext_of S y with
  | None, _ => r = y
  | _, None => r = x
  | Some a, Some b => exists c, ext_of S r = Some c /\ ext_le a c /\ ext_le b c
  end.
Proof. exact max_spec. Qed.
Print Assumptions C26_max.
Theorem C26_minimum : forall S x y, sem_ok S -> wf S x -> wf S y ->
  exists r, minimum x y = Ret r /\ (r = x \/ r = y) /\
  match ext_of S x, ext_of S y with
  | None, _ => r = x
  | _, None => r = y
  | Some a, Some b =>
    (exists c, ext_of S r = Some c /\ ext_le c a /\ ext_le c b) /\
    (category x = Zero -> category y = Zero -> sign r = sign x || sign y)
  end.
Proof. exact minimum_spec. Qed.
Print Assumptions C26_minimum.
Theorem C26_maximum : forall S x y, sem_ok S -> wf S x -> wf S y ->
  exists r, maximum x y = Ret r /\ (r = x \/ r = y) /\
  match ext_of S x, ext_of S y with
  | None, _ => r = x
  | _, None => r = y
  | Some a, Some b =>
    (exists c, ext_of S r = Some c /\ ext_le a c /\ ext_le b c) /\
    (category x = Zero -> category y = Zero -> sign r = sign x && sign y)
  end.
Proof. exact maximum_spec. Qed.
Print Assumptions C26_maximum.
Example C26_example : wf HalfS h_zero /\ wf HalfS h_nzero /\
  min h_qnan h_one = Ret h_one /\ minimum h_qnan h_one = Ret h_qnan /\ minimum h_zero h_nzero = Ret h_nzero /\
  maximum h_nzero h_zero = Ret h_zero /\ max h_neg h_inf = Ret h_inf.
Proof. split; [exact h_zero_wf|]. split; [exact h_nzero_wf|]. vm_compute. repeat split. Qed.

(** ** C27: classification *)
Theorem C27_is_denormal : forall S x, sem_ok S -> wf S x ->
  exists b, is_denormal S x = Ret b /\
    (b = true <-> category x = Normal /\ (Rabs (value S x) < min_normal S)%R).
Proof. exact is_denormal_spec. Qed.
Print Assumptions C27_is_denormal.
Theorem C27_is_normal : forall S x, sem_ok S -> wf S x ->
  exists b, is_normal S x = Ret b /\
    (b = true <-> category x = Normal /\ (min_normal S <= Rabs (value S x))%R).
Proof. exact is_normal_spec. Qed.
Print Assumptions C27_is_normal.
Theorem C27_is_smallest : forall S x, sem_ok S -> wf S x ->
  is_smallest S x = true <-> category x = Normal /\ Rabs (value S x) = min_positive S.
Proof. exact is_smallest_spec. Qed.
Print Assumptions C27_is_smallest.
Theorem C27_is_smallest_normalized : forall S x, sem_ok S -> wf S x ->
  is_smallest_normalized S x = true <-> category x = Normal /\ Rabs (value S x) = min_normal S.
Proof. exact is_smallest_normalized_spec. Qed.
Print Assumptions C27_is_smallest_normalized.
Theorem C27_is_largest : forall S x, sem_ok S -> wf S x ->
  is_largest S x = true <-> category x = Normal /\ Rabs (value S x) = max_finite S.
Proof. exact is_largest_spec. Qed.
Print Assumptions C27_is_largest.
Theorem C27_finite_magnitudes : forall S x, sem_ok S -> wf S x -> category x = Normal ->
  (min_positive S <= Rabs (value S x) <= max_finite S)%R.
Proof. exact finite_magnitudes. Qed.
Print Assumptions C27_finite_magnitudes.
(** exactly one class *)
Theorem C27_partition : forall S x, sem_ok S -> wf S x ->
  exists d n, is_denormal S x = Ret d /\ is_normal S x = Ret n /\
    count [is_zero x; d; n; is_infinite x; is_nan x] = 1%nat /\
    is_finite x = is_zero x || d || n /\ is_finite_non_zero x = d || n.
Proof. exact classification. Qed.
Print Assumptions C27_partition.
(** the constants *)
Theorem C27_constants : forall S, sem_ok S ->
  wf S (largest S) /\ value S (largest S) = max_finite S /\
  wf S (SMALLEST S) /\ value S (SMALLEST S) = min_positive S /\
  wf S (smallest_normalized S) /\ value S (smallest_normalized S) = min_normal S /\
  wf S (ZERO S) /\ category (ZERO S) = Zero /\ sign (ZERO S) = false /\
  is_special S (infinity_of S) false (INFINITY S) /\ default_nan S (NAN S).
Proof. exact constants_spec. Qed.
Print Assumptions C27_constants.
(** the predicates on the encoding *)
Theorem C27_predicates_bits : forall bits eb nf, In (bits, eb, nf) interchange_formats ->
  forall x, wf (ieee_semantics bits eb nf) x ->
  exists b, to_bits (ieee_semantics bits eb nf) x = Ret b /\ 0 <= b < 2 ^ bits /\
    is_negative x = field_sign bits b /\
    (is_pos_zero x = true <-> b = 0) /\
    (is_neg_zero x = true <-> b = 2 ^ (bits - 1)) /\
    (is_non_zero x = false <-> b mod 2 ^ (bits - 1) = 0) /\
    (is_pos_infinity x = true <-> nf = IEEE754 /\ b = (2 ^ eb - 1) * 2 ^ (bits - 1 - eb)) /\
    (is_neg_infinity x = true <-> nf = IEEE754 /\ b = 2 ^ (bits - 1) + (2 ^ eb - 1) * 2 ^ (bits - 1 - eb)) /\
    (is_infinite x = true <-> nf = IEEE754 /\ field_exp bits eb b = 2 ^ eb - 1 /\ field_frac bits eb b = 0) /\
    (is_nan x = true <-> field_exp bits eb b = 2 ^ eb - 1 /\
       match nf with IEEE754 => field_frac bits eb b <> 0 | NanOnly => field_frac bits eb b = 2 ^ (bits - 1 - eb) - 1 end) /\
    (is_signaling (ieee_semantics bits eb nf) x = true <-> nf = IEEE754 /\ field_exp bits eb b = 2 ^ eb - 1 /\
       0 < field_frac bits eb b < 2 ^ (bits - 1 - eb - 1)).
Proof. exact predicates_bits_crate. Qed.
Print Assumptions C27_predicates_bits.
Example C27_predicates_sample : wf HalfS h_snan /\ is_signaling HalfS h_snan = true /\ to_bits HalfS h_snan = Ret 0xfc05 /\
  is_neg_zero h_nzero = true /\ is_pos_zero h_nzero = false /\ is_pos_infinity h_inf = true.
Proof. split; [exact h_snan_wf|]. vm_compute. repeat split. Qed.
Example C27_example : is_denormal HalfS h_min = Ret true /\ is_smallest HalfS h_min = true /\
  is_normal HalfS h_one = Ret true /\ is_largest HalfS h_max = true /\ largest HalfS = h_max /\ SMALLEST HalfS = h_min.
Proof. vm_compute. repeat split. Qed.

(** C13: the remaining comparison operators *)
Theorem C13_gt : forall S x y, sem_ok S -> wf S x -> wf S y ->
  exists b, gt_f x y = Ret b /\
    (b = true <-> exists a c, ext_of S x = Some a /\ ext_of S y = Some c /\ ext_lt c a).
Proof. exact gt_f_spec. Qed.
Print Assumptions C13_gt.

Theorem C13_ge : forall S x y, sem_ok S -> wf S x -> wf S y ->
  exists b, ge_f x y = Ret b /\
    (b = true <-> exists a c, ext_of S x = Some a /\ ext_of S y = Some c /\ ext_le c a).
Proof. exact ge_f_spec. Qed.
Print Assumptions C13_ge.
Example C13_ge_example : gt_f h_inf h_one = Ret true /\ gt_f h_one h_one = Ret false /\ ge_f h_one h_one = Ret true /\
  ge_f h_nzero h_zero = Ret true /\ ge_f h_qnan h_one = Ret false /\ gt_f h_one h_qnan = Ret false.
Proof. vm_compute. repeat split. Qed.

(** C25: the sign operations on patterns touch the top bit only, whatever the value *)
Theorem C25_sign_bits : forall bits eb nf, In (bits, eb, nf) interchange_formats ->
  forall x y, wf (ieee_semantics bits eb nf) x ->
  exists b, to_bits (ieee_semantics bits eb nf) x = Ret b /\ 0 <= b < 2 ^ bits /\ field_sign bits b = sign x /\
    let rest := b mod 2 ^ (bits - 1) in
    to_bits (ieee_semantics bits eb nf) (neg x) = Ret ((if sign x then 0 else 2 ^ (bits - 1)) + rest) /\
    to_bits (ieee_semantics bits eb nf) (abs x) = Ret rest /\
    to_bits (ieee_semantics bits eb nf) (copy_sign x y) = Ret ((if sign y then 2 ^ (bits - 1) else 0) + rest).
Proof. exact sign_bits_crate. Qed.
Print Assumptions C25_sign_bits.

Theorem C25_sign_bits_x87 : forall x y, wf X87DoubleExtendedS x ->
  exists b, to_bits X87DoubleExtendedS x = Ret b /\ 0 <= b < 2 ^ 80 /\ field_sign 80 b = sign x /\
    let rest := b mod 2 ^ 79 in
    to_bits X87DoubleExtendedS (neg x) = Ret ((if sign x then 0 else 2 ^ 79) + rest) /\
    to_bits X87DoubleExtendedS (abs x) = Ret rest /\
    to_bits X87DoubleExtendedS (copy_sign x y) = Ret ((if sign y then 2 ^ 79 else 0) + rest).
Proof. exact sign_bits_x87. Qed.
Print Assumptions C25_sign_bits_x87.
Example C25_sign_bits_example : to_bits HalfS (abs h_snan) = Ret 0x7c05 /\ to_bits HalfS (copy_sign h_one h_snan) = Ret 0xbc00 /\
  to_bits X87DoubleExtendedS (neg (mkFloat (2 ^ 63) 0 Normal false)) = Ret 0xbfff8000000000000000.
Proof. vm_compute. repeat split. Qed.

(** C27: the predicates on patterns of the extended format.  [from_bits] reads the
    pseudo-formats as NaNs, hence [<> 2 ^ 63] *)
Theorem C27_predicates_bits_x87 : forall x, wf X87DoubleExtendedS x ->
  exists b, to_bits X87DoubleExtendedS x = Ret b /\ 0 <= b < 2 ^ 80 /\
    is_negative x = field_sign 80 b /\
    (is_pos_zero x = true <-> b = 0) /\
    (is_neg_zero x = true <-> b = 2 ^ 79) /\
    (is_infinite x = true <-> field_exp 80 15 b = 32767 /\ field_frac 80 15 b = 2 ^ 63) /\
    (is_nan x = true <-> field_exp 80 15 b = 32767 /\ field_frac 80 15 b <> 2 ^ 63) /\
    (is_signaling X87DoubleExtendedS x = true <->
       field_exp 80 15 b = 32767 /\ field_frac 80 15 b <> 2 ^ 63 /\ field_frac 80 15 b < 2 ^ 63 + 2 ^ 62).
Proof. exact predicates_bits_x87. Qed.
Print Assumptions C27_predicates_bits_x87.
Example C27_predicates_bits_x87_example : wf X87DoubleExtendedS (mkFloat (2 ^ 63 + 1) 16384 NaN true) /\
  is_signaling X87DoubleExtendedS (mkFloat (2 ^ 63 + 1) 16384 NaN true) = true /\
  to_bits X87DoubleExtendedS (mkFloat (2 ^ 63 + 1) 16384 NaN true) = Ret 0xffff8000000000000001.
Proof. split; [sample_wf|]. vm_compute. repeat split. Qed.
