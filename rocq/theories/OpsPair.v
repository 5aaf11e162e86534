(** * OpsPair.v -- model of the rest of DoubleFloat's interface: comparison
    operators, default methods of the trait, compound assignment and the derived
    [Debug] (src/ppc.rs:12, src/lib.rs:307-605, 702-752). *)
From Coq Require Import ZArith List Bool String.
From Verif Require Import Machine Ieee Parse Fmt Ppc Ops.
Import ListNotations.
Local Open Scope Z_scope.

(** src/ppc.rs:12 [<=], [>], [>=]: provided by [PartialOrd] from [partial_cmp] *)
Definition dd_le (x y : DFloat) : outcome bool :=
  let! c := dd_partial_cmp x y in
  Ret (match c with Some Lt | Some Eq => true | _ => false end).
Definition dd_gt (x y : DFloat) : outcome bool :=
  let! c := dd_partial_cmp x y in
  Ret (match c with Some Gt => true | _ => false end).
Definition dd_ge (x y : DFloat) : outcome bool :=
  let! c := dd_partial_cmp x y in
  Ret (match c with Some Gt | Some Eq => true | _ => false end).

(** src/lib.rs:515-517 [is_infinite] *)
Definition dd_is_infinite (x : DFloat) : bool := category_eqb (dd_category x) Infinity.
(** src/lib.rs:501-503 [is_finite] *)
Definition dd_is_finite (x : DFloat) : bool := negb (dd_is_nan x) && negb (dd_is_infinite x).
(** src/lib.rs:530-532, 533-535 [is_non_zero], [is_finite_non_zero] *)
Definition dd_is_non_zero (x : DFloat) : bool := negb (dd_is_zero x).
Definition dd_is_finite_non_zero (x : DFloat) : bool := dd_is_finite x && negb (dd_is_zero x).
(** src/lib.rs:493-495 [is_normal] *)
Definition dd_is_normal (F : Semantics) (x : DFloat) : outcome bool :=
  let! d := dd_is_denormal F x in Ret (negb d && dd_is_finite_non_zero x).
(** src/lib.rs:536-538, 539-541, 542-544, 545-547 [is_pos_zero], [is_neg_zero], [is_pos_infinity], [is_neg_infinity] *)
Definition dd_is_pos_zero (x : DFloat) : bool := dd_is_zero x && negb (dd_is_negative x).
Definition dd_is_neg_zero (x : DFloat) : bool := dd_is_zero x && dd_is_negative x.
Definition dd_is_pos_infinity (x : DFloat) : bool := dd_is_infinite x && negb (dd_is_negative x).
Definition dd_is_neg_infinity (x : DFloat) : bool := dd_is_infinite x && dd_is_negative x.

(** src/lib.rs:307-309 [mul_add] *)
Definition dd_mul_add (F : Semantics) (x multiplicand addend : DFloat) : outcome (Z * DFloat) :=
  dd_mul_add_r F x multiplicand addend NearestTiesToEven.
(** src/lib.rs:352-354, 356-358 [from_i128], [from_u128] *)
Definition dd_from_i128 (F : Semantics) (input : Z) : outcome (Z * DFloat) := dd_from_i128_r F input NearestTiesToEven.
Definition dd_from_u128 (F : Semantics) (input : Z) : outcome (Z * DFloat) := dd_from_u128_r F input NearestTiesToEven.
(** src/lib.rs:400-402, 404-406 [to_i128], [to_u128] *)
Definition dd_to_i128 (F : Semantics) (x : DFloat) (width : Z) : outcome (Z * Z) :=
  let! '(st, n, _) := dd_to_i128_r F x width TowardZero in Ret (st, n).
Definition dd_to_u128 (F : Semantics) (x : DFloat) (width : Z) : outcome (Z * Z) :=
  let! '(st, n, _) := dd_to_u128_r F x width TowardZero in Ret (st, n).
(** src/lib.rs:592-594, 601-603 [scalbn], [frexp] *)
Definition dd_scalbn (F : Semantics) (x : DFloat) (n : Z) : outcome DFloat := dd_scalbn_r F x n NearestTiesToEven.
Definition dd_frexp (F : Semantics) (x : DFloat) : outcome (DFloat * Z) := dd_frexp_r F x NearestTiesToEven.
(** src/lib.rs:707-709, 717-719, 727-729, 737-739, 747-749 [+=], [-=], [*=], [/=], [%=] *)
Definition dd_add_assign (F : Semantics) (x y : DFloat) : outcome DFloat := let! r := dd_op_add F x y in Ret (snd r).
Definition dd_sub_assign (F : Semantics) (x y : DFloat) : outcome DFloat := let! r := dd_op_sub F x y in Ret (snd r).
Definition dd_mul_assign (F : Semantics) (x y : DFloat) : outcome DFloat := let! r := dd_op_mul F x y in Ret (snd r).
Definition dd_div_assign (F : Semantics) (x y : DFloat) : outcome DFloat := let! r := dd_op_div F x y in Ret (snd r).
Definition dd_rem_assign (F : Semantics) (x y : DFloat) : outcome DFloat := let! r := dd_op_rem F x y in Ret (snd r).

(** src/ppc.rs:12 derived [Debug], without the alternate flag *)
Definition dd_debug (F : Semantics) (x : DFloat) : outcome (list Z) :=
  let! a := debug F (d0 x) in
  let! b := debug F (d1 x) in
  Ret (bytes "DoubleFloat(" ++ a ++ bytes ", " ++ b ++ bytes ")").
