(** * Ppc.v -- model of [DoubleFloat<F>] (src/ppc.rs) over an IEEE format [F];
    [DoubleDouble] is the instance [F = DoubleS] (src/ppc.rs:19). *)
From Coq Require Import ZArith List Bool.
From Verif Require Import Machine Sig Ieee Parse Fmt.
Import ListNotations.
Local Open Scope Z_scope.

(** src/ppc.rs:13 [struct DoubleFloat<F>(F, F)] *)
Record DFloat := mkDF { d0 : Float; d1 : Float }.

(** src/ppc.rs:70-103 [From<Fallback<F>> for DoubleFloat<F>] *)
Definition from_fallback (F : Semantics) (x : Float) : outcome DFloat :=
  let! '(status, extended, loses_info) :=
    convert_r (FallbackS F) (FallbackExtendedS F) x NearestTiesToEven in
  assertb ((status =? OK) && negb loses_info) (
  let! '(status, a, loses_info) := convert_r (FallbackExtendedS F) F extended NearestTiesToEven in
  assertb (Z.ldiff status INEXACT =? OK) (
  if is_finite_non_zero a && loses_info then
    let! '(status, u, loses_info) := convert_r F (FallbackExtendedS F) a NearestTiesToEven in
    assertb ((status =? OK) && negb loses_info) (
    let! '(status, v) := sub_r (FallbackExtendedS F) extended u NearestTiesToEven in
    assertb (status =? OK) (
    let! '(status, v, loses_info) := convert_r (FallbackExtendedS F) F v NearestTiesToEven in
    assertb ((status =? OK) && negb loses_info) (Ret (mkDF a v))))
  else Ret (mkDF a (ZERO F)))).

(** src/ppc.rs:105-124 [From<DoubleFloat<F>> for Fallback<F>] *)
Definition to_fallback (F : Semantics) (x : DFloat) : outcome Float :=
  let! '(status, a, loses_info) := convert_r F (FallbackS F) (d0 x) NearestTiesToEven in
  assertb ((status =? OK) && negb loses_info) (
  if is_finite_non_zero a then
    let! '(status, b, loses_info) := convert_r F (FallbackS F) (d1 x) NearestTiesToEven in
    assertb ((status =? OK) && negb loses_info) (
    let! '(_, r) := add_r (FallbackS F) a b NearestTiesToEven in
    Ret r)
  else Ret a).

(** src/ppc.rs:128-137 [Neg] *)
Definition dd_neg (x : DFloat) : DFloat :=
  if is_finite_non_zero (d1 x) then mkDF (neg (d0 x)) (neg (d1 x))
  else mkDF (neg (d0 x)) (d1 x).

(** src/ppc.rs:408-410 [is_negative] *)
Definition dd_is_negative (x : DFloat) : bool := is_negative (d0 x).
(** src/ppc.rs:419-425 [is_signaling], [category] *)
Definition dd_is_signaling (F : Semantics) (x : DFloat) : bool := is_signaling F (d0 x).
Definition dd_category (x : DFloat) : Category := category (d0 x).
(** src/lib.rs:335-341 [copy_sign] at this type *)
Definition dd_copy_sign (x y : DFloat) : DFloat :=
  if xorb (dd_is_negative x) (dd_is_negative y) then dd_neg x else x.

(** src/ppc.rs:154-167 [ZERO], [INFINITY], [NAN], [qnan], [snan] *)
Definition dd_ZERO (F : Semantics) : DFloat := mkDF (ZERO F) (ZERO F).
Definition dd_INFINITY (F : Semantics) : DFloat := mkDF (INFINITY F) (ZERO F).
Definition dd_NAN (F : Semantics) : DFloat := mkDF (NAN F) (ZERO F).
Definition dd_qnan (F : Semantics) (p : option Z) : DFloat := mkDF (qnan F p) (ZERO F).
Definition dd_snan (F : Semantics) (p : option Z) : DFloat := mkDF (snan F p) (ZERO F).

(** src/ppc.rs:169-176 [largest] *)
Definition dd_largest (F : Semantics) : outcome DFloat :=
  let! r1 := scalbn F (largest F) (- (PRECISION F + 1)) in
  let! '(status, r1) := next_down F r1 in
  assertb (status =? OK) (Ret (mkDF (largest F) r1)).
(** src/ppc.rs:178 [SMALLEST] *)
Definition dd_SMALLEST (F : Semantics) : DFloat := mkDF (SMALLEST F) (ZERO F).
(** src/ppc.rs:180-182 [smallest_normalized] *)
Definition dd_smallest_normalized (F : Semantics) : outcome DFloat :=
  let! a := scalbn F (smallest_normalized F) (PRECISION F) in
  Ret (mkDF a (ZERO F)).

(** src/ppc.rs:188-274 [add_r] *)
Definition dd_add_normal (F : Semantics) (x y : DFloat) (round : Round) : outcome (Z * DFloat) :=
  let a := d0 x in let aa := d1 x in let c := d0 y in let cc := d1 y in
  let! '(st, z) := add_r F a c round in
  let status := st in
  if negb (is_finite z) then
    if negb (is_infinite z) then Ret (status, mkDF z (ZERO F))
    else
      let status := OK in
      let! a_cmp_c := cmp_abs_normal a c in
      let! '(st, z) := add_r F cc aa round in
      let status := Z.lor status st in
      let! '(status, z) :=
        (match a_cmp_c with
         | Gt =>
           let! '(st1, z) := add_r F z c round in
           let! '(st2, z) := add_r F z a round in
           Ret (Z.lor (Z.lor status st1) st2, z)
         | _ =>
           let! '(st1, z) := add_r F z a round in
           let! '(st2, z) := add_r F z c round in
           Ret (Z.lor (Z.lor status st1) st2, z)
         end) in
      if negb (is_finite z) then Ret (status, mkDF z (ZERO F))
      else
        let! '(st, zz) := add_r F aa cc round in
        let status := Z.lor status st in
        match a_cmp_c with
        | Gt =>
          let! '(st1, r1) := sub_r F a z round in
          let! '(st2, r1) := add_r F r1 c round in
          let! '(st3, r1) := add_r F r1 zz round in
          Ret (Z.lor (Z.lor (Z.lor status st1) st2) st3, mkDF z r1)
        | _ =>
          let! '(st1, r1) := sub_r F c z round in
          let! '(st2, r1) := add_r F r1 a round in
          let! '(st3, r1) := add_r F r1 zz round in
          Ret (Z.lor (Z.lor (Z.lor status st1) st2) st3, mkDF z r1)
        end
  else
    let! '(st, q) := sub_r F a z round in
    let status := Z.lor status st in
    let! '(st, zz) := add_r F q c round in
    let status := Z.lor status st in
    let! '(st, q) := add_r F q z round in
    let status := Z.lor status st in
    let! '(st, q) := sub_r F q a round in
    let status := Z.lor status st in
    let q := neg q in
    let! '(st, zz) := add_r F zz q round in
    let status := Z.lor status st in
    let! '(st, zz) := add_r F zz aa round in
    let status := Z.lor status st in
    let! '(st, zz) := add_r F zz cc round in
    let status := Z.lor status st in
    if is_zero zz && negb (is_negative zz) then Ret (OK, mkDF z (ZERO F))
    else
      let! '(st, r0) := add_r F z zz round in
      let status := Z.lor status st in
      if negb (is_finite r0) then Ret (status, mkDF r0 (ZERO F))
      else
        let! '(st, r1) := sub_r F z r0 round in
        let status := Z.lor status st in
        let! '(st, r1) := add_r F r1 zz round in
        let status := Z.lor status st in
        Ret (status, mkDF r0 r1).
Definition dd_add_r (F : Semantics) (x y : DFloat) (round : Round) : outcome (Z * DFloat) :=
  match dd_category x, dd_category y with
  | Infinity, Infinity =>
    if xorb (dd_is_negative x) (dd_is_negative y) then Ret (INVALID_OP, dd_copy_sign (dd_NAN F) x)
    else Ret (OK, x)
  | _, Zero | NaN, _ | Infinity, Normal => Ret (OK, x)
  | Zero, _ | _, NaN | _, Infinity => Ret (OK, y)
  | Normal, Normal => dd_add_normal F x y round
  end.
(** src/lib.rs:302-304 [sub_r] (default) *)
Definition dd_sub_r (F : Semantics) (x y : DFloat) (round : Round) : outcome (Z * DFloat) :=
  dd_add_r F x (dd_neg y) round.

(** src/ppc.rs:276-340 [mul_r] *)
Definition dd_mul_normal (F : Semantics) (x y : DFloat) (round : Round) : outcome (Z * DFloat) :=
  let a := d0 x in let b := d1 x in let c := d0 y in let d := d1 y in
  let! '(st, t) := mul_r F a c round in
  let status := st in
  if negb (is_finite_non_zero t) then Ret (status, mkDF t (ZERO F))
  else
    let! '(st, tau) := mul_add_r F a c (neg t) round in
    let status := Z.lor status st in
    let! '(st, v) := mul_r F a d round in
    let status := Z.lor status st in
    let! '(st, w) := mul_r F b c round in
    let status := Z.lor status st in
    let! '(st, v) := add_r F v w round in
    let status := Z.lor status st in
    let! '(st, tau) := add_r F tau v round in
    let status := Z.lor status st in
    let! '(st, u) := add_r F t tau round in
    let status := Z.lor status st in
    if negb (is_finite u) then Ret (status, mkDF u (ZERO F))
    else
      let! '(st, t) := sub_r F t u round in
      let status := Z.lor status st in
      let! '(st, t) := add_r F t tau round in
      let status := Z.lor status st in
      Ret (status, mkDF u t).
Definition dd_mul_r (F : Semantics) (x y : DFloat) (round : Round) : outcome (Z * DFloat) :=
  match dd_category x, dd_category y with
  | NaN, _ => Ret (OK, x)
  | _, NaN => Ret (OK, y)
  | Zero, Infinity | Infinity, Zero => Ret (OK, dd_NAN F)
  | Zero, _ | Infinity, _ => Ret (OK, x)
  | _, Zero | _, Infinity => Ret (OK, y)
  | Normal, Normal => dd_mul_normal F x y round
  end.

(** [.map(Self::from)] *)
Definition map_from_fallback (F : Semantics) (m : outcome (Z * Float)) : outcome (Z * DFloat) :=
  let! '(st, r) := m in
  let! r := from_fallback F r in
  Ret (st, r).

(** src/ppc.rs:342-346 [mul_add_r] *)
Definition dd_mul_add_r (F : Semantics) (x m a : DFloat) (round : Round) : outcome (Z * DFloat) :=
  let! x := to_fallback F x in
  let! m := to_fallback F m in
  let! a := to_fallback F a in
  map_from_fallback F (mul_add_r (FallbackS F) x m a round).
(** src/ppc.rs:348-366 [div_r], [ieee_rem], [c_fmod], [round_to_integral], [next_up] *)
Definition dd_div_r (F : Semantics) (x y : DFloat) (round : Round) : outcome (Z * DFloat) :=
  let! x := to_fallback F x in
  let! y := to_fallback F y in
  map_from_fallback F (div_r (FallbackS F) x y round).
Definition dd_ieee_rem (F : Semantics) (x y : DFloat) : outcome (Z * DFloat) :=
  let! x := to_fallback F x in
  let! y := to_fallback F y in
  map_from_fallback F (ieee_rem (FallbackS F) x y).
Definition dd_c_fmod (F : Semantics) (x y : DFloat) : outcome (Z * DFloat) :=
  let! x := to_fallback F x in
  let! y := to_fallback F y in
  map_from_fallback F (c_fmod (FallbackS F) x y).
Definition dd_round_to_integral (F : Semantics) (x : DFloat) (round : Round) : outcome (Z * DFloat) :=
  let! x := to_fallback F x in
  map_from_fallback F (round_to_integral (FallbackS F) x round).
Definition dd_next_up (F : Semantics) (x : DFloat) : outcome (Z * DFloat) :=
  let! x := to_fallback F x in
  map_from_fallback F (next_up (FallbackS F) x).
(** src/lib.rs:324-326 [next_down] (default) *)
Definition dd_next_down (F : Semantics) (x : DFloat) : outcome (Z * DFloat) :=
  let! '(st, r) := dd_next_up F (dd_neg x) in
  Ret (st, dd_neg r).

(** src/ppc.rs:368-371 [from_bits] *)
Definition dd_from_bits (F : Semantics) (input : Z) : outcome DFloat :=
  let! b := shr128 input (BITS F) in
  let! a := from_bits F (Z.land input (2 ^ BITS F - 1)) in
  let! b := from_bits F (Z.land b (2 ^ BITS F - 1)) in
  Ret (mkDF a b).
(** src/ppc.rs:381-383 [to_bits] *)
Definition dd_to_bits (F : Semantics) (x : DFloat) : outcome Z :=
  let! a := to_bits F (d0 x) in
  let! b := to_bits F (d1 x) in
  let! b := shl128 b (BITS F) in
  Ret (Z.lor a b).

(** src/ppc.rs:373-379 [from_u128_r], [from_str_r] *)
Definition dd_from_u128_r (F : Semantics) (input : Z) (round : Round) : outcome (Z * DFloat) :=
  map_from_fallback F (from_u128_r (FallbackS F) input round).
Definition dd_from_str_r (F : Semantics) (s : list Z) (round : Round)
  : outcome (result (Z * DFloat)) :=
  let? '(st, r) := from_str_r (FallbackS F) s round in
  let! r := from_fallback F r in
  Ret (Ok (st, r)).
(** src/ppc.rs:385-387 [to_u128_r] *)
Definition dd_to_u128_r (F : Semantics) (x : DFloat) (width : Z) (round : Round)
  : outcome (Z * Z * bool) :=
  let! x := to_fallback F x in
  to_u128_r (FallbackS F) x width round.

(** src/ppc.rs:389-402 [cmp_abs_normal] *)
Definition dd_cmp_abs_normal (x y : DFloat) : outcome comparison :=
  let! c := cmp_abs_normal (d0 x) (d0 y) in
  match c with
  | Eq =>
    let! result := cmp_abs_normal (d1 x) (d1 y) in
    if negb (ord_eqb result Eq) then
      let against := xorb (is_negative (d0 x)) (is_negative (d1 x)) in
      let rhs_against := xorb (is_negative (d0 y)) (is_negative (d1 y)) in
      Ret (then_with (bool_cmp (negb against) (negb rhs_against))
             (if against then ord_reverse result else result))
    else Ret result
  | _ => Ret c
  end.
(** src/ppc.rs:404-406 [bitwise_eq] *)
Definition dd_bitwise_eq (x y : DFloat) : bool :=
  bitwise_eq (d0 x) (d0 y) && bitwise_eq (d1 x) (d1 y).

(** src/ppc.rs:12 derived [PartialOrd], [PartialEq]: lexicographic *)
Definition dd_partial_cmp (x y : DFloat) : outcome (option comparison) :=
  let! c := partial_cmp (d0 x) (d0 y) in
  match c with
  | Some Eq => partial_cmp (d1 x) (d1 y)
  | _ => Ret c
  end.

(** [<], [==] as derived: lexicographic, resp. component-wise *)
Definition dd_lt (x y : DFloat) : outcome bool :=
  let! c := dd_partial_cmp x y in
  Ret (match c with Some Lt => true | _ => false end).
Definition dd_eq (x y : DFloat) : outcome bool :=
  let! a := eq_f (d0 x) (d0 y) in
  if a then eq_f (d1 x) (d1 y) else Ret false.

(** src/lib.rs:417-481 [min], [max], [minimum], [maximum] at this type *)
Definition dd_is_nan (x : DFloat) : bool := category_eqb (dd_category x) NaN.
Definition dd_is_zero (x : DFloat) : bool := category_eqb (dd_category x) Zero.
Definition dd_min (x y : DFloat) : outcome DFloat :=
  if dd_is_nan x then Ret y
  else if dd_is_nan y then Ret x
  else let! b := dd_lt y x in Ret (if b then y else x).
Definition dd_max (x y : DFloat) : outcome DFloat :=
  if dd_is_nan x then Ret y
  else if dd_is_nan y then Ret x
  else let! b := dd_lt x y in Ret (if b then y else x).
Definition dd_minimum (x y : DFloat) : outcome DFloat :=
  if dd_is_nan x then Ret x
  else if dd_is_nan y then Ret y
  else if dd_is_zero x && dd_is_zero y && xorb (dd_is_negative x) (dd_is_negative y) then
    Ret (if dd_is_negative x then x else y)
  else let! b := dd_lt y x in Ret (if b then y else x).
Definition dd_maximum (x y : DFloat) : outcome DFloat :=
  if dd_is_nan x then Ret x
  else if dd_is_nan y then Ret y
  else if dd_is_zero x && dd_is_zero y && xorb (dd_is_negative x) (dd_is_negative y) then
    Ret (if dd_is_negative x then y else x)
  else let! b := dd_lt x y in Ret (if b then y else x).

(** src/lib.rs:328-334 [abs] at this type *)
Definition dd_abs (x : DFloat) : DFloat := if dd_is_negative x then dd_neg x else x.
(** src/lib.rs:551-565 [is_smallest], [is_smallest_normalized], [is_largest] at this type *)
Definition dd_is_smallest (F : Semantics) (x : DFloat) : bool :=
  dd_bitwise_eq (dd_copy_sign (dd_SMALLEST F) x) x.
Definition dd_is_smallest_normalized (F : Semantics) (x : DFloat) : outcome bool :=
  let! s := dd_smallest_normalized F in Ret (dd_bitwise_eq (dd_copy_sign s x) x).
Definition dd_is_largest (F : Semantics) (x : DFloat) : outcome bool :=
  let! l := dd_largest F in Ret (dd_bitwise_eq (dd_copy_sign l x) x).

(** src/lib.rs:345-351 [from_i128_r] at this type *)
Definition dd_from_i128_r (F : Semantics) (input : Z) (round : Round) : outcome (Z * DFloat) :=
  if input <? 0 then
    let! '(status, r) := dd_from_u128_r F (wrap128 (- input)) (round_neg round) in
    Ret (status, dd_neg r)
  else dd_from_u128_r F input round.
(** src/lib.rs:377-401 [to_i128_r] at this type *)
Definition dd_to_i128_r (F : Semantics) (x : DFloat) (width : Z) (round : Round)
  : outcome (Z * Z * bool) :=
  if dd_is_negative x then
    let! '(status, r, is_exact) := dd_to_u128_r F (dd_neg x) width (round_neg round) in
    let! w1 := usub width 1 in
    let! lim := shl128 1 w1 in
    if lim <? r then Ret (INVALID_OP, - 2 ^ w1, false)
    else Ret (status, as_i128 (wrap128 (- r)), is_exact)
  else
    let! w1 := usub width 1 in
    let! '(status, r, is_exact) := dd_to_u128_r F x w1 round in
    Ret (status, as_i128 r, is_exact).

(** src/ppc.rs:412-417 [is_denormal] *)
Definition dd_is_denormal (F : Semantics) (x : DFloat) : outcome bool :=
  if category_eqb (dd_category x) Normal then
    let! d := is_denormal F (d0 x) in
    if d then Ret true
    else
      let! '(_, s) := add_r F (d0 x) (d1 x) NearestTiesToEven in
      let! e := eq_f (d0 x) s in
      Ret (negb e)
  else Ret false.

(** src/ppc.rs:427-429 [is_integer] *)
Definition dd_is_integer (F : Semantics) (x : DFloat) : outcome bool :=
  let! a := is_integer F (d0 x) in
  if a then is_integer F (d1 x) else Ret false.
(** src/ppc.rs:431-433 [get_exact_inverse] *)
Definition dd_get_exact_inverse (F : Semantics) (x : DFloat) : outcome (option DFloat) :=
  let! x := to_fallback F x in
  let! r := get_exact_inverse (FallbackS F) x in
  match r with
  | Some r => let! r := from_fallback F r in Ret (Some r)
  | None => Ret None
  end.
(** src/ppc.rs:435-437 [ilogb] *)
Definition dd_ilogb (F : Semantics) (x : DFloat) : outcome Z := ilogb F (d0 x).
(** src/ppc.rs:439-441 [scalbn_r] *)
Definition dd_scalbn_r (F : Semantics) (x : DFloat) (n : Z) (round : Round) : outcome DFloat :=
  let! a := scalbn_r F (d0 x) n round in
  let! b := scalbn_r F (d1 x) n round in
  Ret (mkDF a b).
(** src/ppc.rs:443-450 [frexp_r] *)
Definition dd_frexp_r (F : Semantics) (x : DFloat) (round : Round) : outcome (DFloat * Z) :=
  let! '(a, e) := frexp_r F (d0 x) round in
  let! b :=
    (if category_eqb (dd_category x) Normal then
       let! n := chk32 (- e) in scalbn_r F (d1 x) n round
     else Ret (d1 x)) in
  Ret (mkDF a b, e).
(** src/ppc.rs:139-143 [Display] *)
Definition dd_fmt (F : Semantics) (x : DFloat) (w p : option Z) (alternate : bool) : outcome (list Z) :=
  let! x := to_fallback F x in
  fmt (FallbackS F) x w p alternate.
