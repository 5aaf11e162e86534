(** * Ops.v -- model of the operators, the methods that fix the rounding mode,
    [StatusAnd] and [Debug] (src/lib.rs:76-99, 302-405, 592-605, 617-752;
    src/ieee.rs:809-821).

    Compound assignment [*self = e] is a function that returns the new value
    of [*self]. *)
From Coq Require Import ZArith List Bool String.
From Verif Require Import Machine Sig Ieee Parse Fmt Ppc.
Import ListNotations.
Local Open Scope Z_scope.

(** src/lib.rs:85-90 [StatusAnd::map] *)
Definition status_map {A B : Type} (f : A -> B) (x : Z * A) : Z * B := (fst x, f (snd x)).
(** src/lib.rs:95-98 [StatusAnd::unwrap] *)
Definition status_unwrap {A : Type} (x : Z * A) : outcome A := assertb (fst x =? OK) (Ret (snd x)).

(** ** IeeeFloat *)

(** src/lib.rs:629-631 [default] *)
Definition default (S : Semantics) : Float := ZERO S.
(** src/lib.rs:640-642 [from_str] *)
Definition from_str (S : Semantics) (s : list Z) : outcome (result Float) :=
  let? '(_, r) := from_str_r S s NearestTiesToEven in Ret (Ok r).
(** src/lib.rs:653-655, 664-666, 675-677, 686-688, 697-699 [+], [-], [*], [/], [%] *)
Definition op_add (S : Semantics) (x y : Float) : outcome (Z * Float) := add_r S x y NearestTiesToEven.
Definition op_sub (S : Semantics) (x y : Float) : outcome (Z * Float) := sub_r S x y NearestTiesToEven.
Definition op_mul (S : Semantics) (x y : Float) : outcome (Z * Float) := mul_r S x y NearestTiesToEven.
Definition op_div (S : Semantics) (x y : Float) : outcome (Z * Float) := div_r S x y NearestTiesToEven.
Definition op_rem (S : Semantics) (x y : Float) : outcome (Z * Float) := c_fmod S x y.
(** src/lib.rs:707-709, 717-719, 727-729, 737-739, 747-749 [+=], [-=], [*=], [/=], [%=] *)
Definition add_assign (S : Semantics) (x y : Float) : outcome Float := let! r := op_add S x y in Ret (snd r).
Definition sub_assign (S : Semantics) (x y : Float) : outcome Float := let! r := op_sub S x y in Ret (snd r).
Definition mul_assign (S : Semantics) (x y : Float) : outcome Float := let! r := op_mul S x y in Ret (snd r).
Definition div_assign (S : Semantics) (x y : Float) : outcome Float := let! r := op_div S x y in Ret (snd r).
Definition rem_assign (S : Semantics) (x y : Float) : outcome Float := let! r := op_rem S x y in Ret (snd r).
(** src/lib.rs:307-309 [mul_add] *)
Definition mul_add (S : Semantics) (x multiplicand addend : Float) : outcome (Z * Float) :=
  mul_add_r S x multiplicand addend NearestTiesToEven.
(** src/lib.rs:352-354 [from_i128] *)
Definition from_i128 (S : Semantics) (input : Z) : outcome (Z * Float) := from_i128_r S input NearestTiesToEven.
(** src/lib.rs:400-402, 404-406 [to_i128], [to_u128]; the [is_exact] of the
    callee is a local that is dropped *)
Definition to_i128 (S : Semantics) (x : Float) (width : Z) : outcome (Z * Z) :=
  let! '(st, n, _) := to_i128_r S x width TowardZero in Ret (st, n).
Definition to_u128 (S : Semantics) (x : Float) (width : Z) : outcome (Z * Z) :=
  let! '(st, n, _) := to_u128_r S x width TowardZero in Ret (st, n).
(** src/lib.rs:601-603 [frexp] *)
Definition frexp (S : Semantics) (x : Float) : outcome (Float * Z) := frexp_r S x NearestTiesToEven.
(** src/lib.rs:617-619 [convert] *)
Definition convert (S T : Semantics) (x : Float) : outcome (Z * Float * bool) := convert_r S T x NearestTiesToEven.

(** [{:?}] of a [Category] *)
Definition category_name (c : Category) : list Z :=
  match c with
  | Infinity => bytes "Infinity"
  | NaN => bytes "NaN"
  | Normal => bytes "Normal"
  | Zero => bytes "Zero"
  end.
(** [{}] of an [ExpInt], [{:?}] of a [[Limb; 1]]; a limb has at most 39 digits *)
Definition fmt_int (e : Z) : list Z := (if e <? 0 then [ch "-"] else []) ++ dec_digits 20 (Z.abs e) [].
Definition fmt_limbs1 (s : Z) : list Z := bytes "[" ++ dec_digits 40 s [] ++ bytes "]".
(** src/ieee.rs:809-821 [Debug]: [{}({:?} | {}{:?} * 2^{})] *)
Definition debug (S : Semantics) (x : Float) : outcome (list Z) :=
  let! text := fmt S x None None false in
  Ret (text ++ bytes "(" ++ category_name (category x) ++ bytes " | " ++
       (if is_negative x then bytes "-" else bytes "+") ++ fmt_limbs1 (sig x) ++ bytes " * 2^" ++ fmt_int (exp x) ++ bytes ")").

(** ** DoubleFloat *)

(** the same, at this type *)
Definition dd_default (F : Semantics) : DFloat := dd_ZERO F.
Definition dd_from_str (F : Semantics) (s : list Z) : outcome (result DFloat) :=
  let? '(_, r) := dd_from_str_r F s NearestTiesToEven in Ret (Ok r).
Definition dd_op_add (F : Semantics) (x y : DFloat) : outcome (Z * DFloat) := dd_add_r F x y NearestTiesToEven.
Definition dd_op_sub (F : Semantics) (x y : DFloat) : outcome (Z * DFloat) := dd_sub_r F x y NearestTiesToEven.
Definition dd_op_mul (F : Semantics) (x y : DFloat) : outcome (Z * DFloat) := dd_mul_r F x y NearestTiesToEven.
Definition dd_op_div (F : Semantics) (x y : DFloat) : outcome (Z * DFloat) := dd_div_r F x y NearestTiesToEven.
Definition dd_op_rem (F : Semantics) (x y : DFloat) : outcome (Z * DFloat) := dd_c_fmod F x y.
