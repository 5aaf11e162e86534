(** Tests, not theorems: the assertions of tests/ieee.rs (other than its tables of operands), evaluated on the model.  A model that disagrees
    with the crate on any of them fails to compile here.  Floats are written with
    [from_bits]: a Rust [f64] or [f32] literal is the encoding the Rust compiler gives it,
    and [==] of two such values is [eq_f].  The loops of the
    source are unrolled; [for_each_float_type!] covers the formats of [ieee], not the pair format.
    Left out for the time they take: the parsing of [e-4932] in [denormal] and the printing of
    the least and the greatest [f64] in [to_string] (all pass). *)
From Coq Require Import ZArith List Bool String.
From Verif Require Import Machine Sig Ieee Parse Fmt Ops Formats.
Import ListNotations.
Local Open Scope Z_scope.
Local Open Scope bool_scope.

(** What a test expression needs: a stand-in for a value that was never returned, the value
    of a call, whether a call returned, and the equalities that [assert_eq!] uses *)
Definition junk : Float := mkFloat 0 0 Zero false.
Definition get {A} (d : A) (o : outcome A) : A := match o with Ret a => a | _ => d end.
Definition returns {A} (o : outcome A) : bool := match o with Ret _ => true | _ => false end.
Definition all_true (l : list bool) : bool := forallb (fun b => b) l.
Definition category_eqb (a b : Category) : bool :=
  match a, b with
  | Infinity, Infinity | NaN, NaN | Normal, Normal | Zero, Zero => true
  | _, _ => false
  end.
Fixpoint str_eqb (a b : list Z) : bool :=
  match a, b with
  | [], [] => true
  | x :: a', y :: b' => (x =? y) && str_eqb a' b'
  | _, _ => false
  end.
Definition ordering_is (a b : option comparison) : bool :=
  match a, b with
  | None, None | Some Lt, Some Lt | Some Eq, Some Eq | Some Gt, Some Gt => true
  | _, _ => false
  end.
(** [s.parse::<F>().unwrap()], [s.parse::<F>().unwrap_err().0 == message], [o.unwrap()] *)
Definition unwrap_parse (o : outcome (result Float)) : outcome Float :=
  let! r := o in match r with Ok x => Ret x | Err _ => Panic end.
Definition error_index (e : ParseError) : Z :=
  match e with
  | InvalidStringLength => 0
  | StringHasNoDigits => 1
  | InvalidString => 2
  | StringContainsMultipleDots => 3
  | SignificandHasNoDigits => 4
  | InvalidCharacterInExponent => 5
  | ExponentHasNoDigits => 6
  | InvalidCharacterInSignificand => 7
  | HexStringsRequireAnExponent => 8
  end.
Definition error_is (o : outcome (result Float)) (e : ParseError) : bool :=
  match o with Ret (Err e') => error_index e' =? error_index e | _ => false end.
Definition unwrap_option (o : option Float) : outcome Float :=
  match o with Some x => Ret x | None => Panic end.
Definition is_none (o : option Float) : bool := match o with None => true | Some _ => false end.
(** [<=], provided by [PartialOrd] from [partial_cmp] *)
Definition le_f (x y : Float) : outcome bool :=
  let! c := partial_cmp x y in Ret (match c with Some Lt | Some Eq => true | _ => false end).
(** tests/ieee.rs:43-67 [to_f32], [to_f64]: through the encoding *)
Definition through_bits (S : Semantics) (x : Float) : outcome Float :=
  let! b := to_bits S x in from_bits S b.
(** tests/ieee.rs:72-97 [assert_lossless_conversion] and then [to_f32], [to_f64] *)
Definition lossless (S T : Semantics) (x : Float) : outcome Float :=
  let! '(status, r, loses_info) := convert S T x in
  if (Z.land status INEXACT =? 0) && negb loses_info then through_bits T r else Panic.
(** [0..=u8::MAX] *)
Definition octets : list Z := map Z.of_nat (seq 0 256).

(** ieee.rs:100 [is_signaling] *)
Example test_is_signaling : (
   all_true [
      negb (is_signaling SingleS (qnan SingleS None));
      negb (is_signaling SingleS (neg (qnan SingleS None)));
      negb (is_signaling SingleS (qnan SingleS (Some 4)));
      negb (is_signaling SingleS (neg (qnan SingleS (Some 4))));
      is_signaling SingleS (snan SingleS None);
      is_signaling SingleS (neg (snan SingleS None));
      is_signaling SingleS (snan SingleS (Some 4));
      is_signaling SingleS (neg (snan SingleS (Some 4)))]) = true.
Proof. vm_compute. reflexivity. Qed.

(** ieee.rs:114 [next] *)
Example test_next_1 : (
   let o0 := next_up QuadS (INFINITY QuadS) in
   let v1 := get (0, junk) o0 in
   let v2 := fst v1 in
   let v3 := snd v1 in
   let v4 := INFINITY QuadS in
   let o5 := next_down QuadS (INFINITY QuadS) in
   let v6 := get (0, junk) o5 in
   let v7 := fst v6 in
   let v8 := snd v6 in
   let v9 := largest QuadS in
   let o10 := next_up QuadS (neg (INFINITY QuadS)) in
   let v11 := get (0, junk) o10 in
   let v12 := fst v11 in
   let v13 := snd v11 in
   let v14 := neg (largest QuadS) in
   let o15 := next_down QuadS (neg (INFINITY QuadS)) in
   let v16 := get (0, junk) o15 in
   let v17 := fst v16 in
   let v18 := snd v16 in
   let v19 := neg (INFINITY QuadS) in
   let o20 := next_up QuadS (largest QuadS) in
   let v21 := get (0, junk) o20 in
   let v22 := fst v21 in
   let v23 := snd v21 in
   let v24 := INFINITY QuadS in
   let o25 := next_down QuadS (largest QuadS) in
   let v26 := get (0, junk) o25 in
   let v27 := fst v26 in
   let v28 := snd v26 in
   let o29 := unwrap_parse (from_str QuadS (bytes "0x1.fffffffffffffffffffffffffffep+16383")) in
   let v30 := get junk o29 in
   let o31 := next_up QuadS (neg (largest QuadS)) in
   let v32 := get (0, junk) o31 in
   let v33 := fst v32 in
   let v34 := snd v32 in
   let o35 := unwrap_parse (from_str QuadS (bytes "-0x1.fffffffffffffffffffffffffffep+16383")) in
   let v36 := get junk o35 in
   let o37 := next_down QuadS (neg (largest QuadS)) in
   let v38 := get (0, junk) o37 in
   let v39 := fst v38 in
   let v40 := snd v38 in
   let v41 := neg (INFINITY QuadS) in
   let o42 := unwrap_parse (from_str QuadS (bytes "0x0.0000000000000000000000000001p-16382")) in
   let v43 := get junk o42 in
   let o44 := next_up QuadS v43 in
   let v45 := get (0, junk) o44 in
   let v46 := fst v45 in
   let v47 := snd v45 in
   let o48 := unwrap_parse (from_str QuadS (bytes "0x0.0000000000000000000000000002p-16382")) in
   let v49 := get junk o48 in
   let o50 := unwrap_parse (from_str QuadS (bytes "0x0.0000000000000000000000000001p-16382")) in
   all_true [
      returns o0;
      v2 =? OK;
      is_infinite v3;
      negb (is_negative v3);
      bitwise_eq v3 v4;
      returns o5;
      v7 =? OK;
      negb (is_negative v8);
      bitwise_eq v8 v9;
      returns o10;
      v12 =? OK;
      is_negative v13;
      bitwise_eq v13 v14;
      returns o15;
      v17 =? OK;
      andb (is_infinite v18) (is_negative v18);
      bitwise_eq v18 v19;
      returns o20;
      v22 =? OK;
      andb (is_infinite v23) (negb (is_negative v23));
      bitwise_eq v23 v24;
      returns o25;
      returns o29;
      v27 =? OK;
      andb (negb (is_infinite v28)) (negb (is_negative v28));
      bitwise_eq v28 v30;
      returns o31;
      returns o35;
      v33 =? OK;
      bitwise_eq v34 v36;
      returns o37;
      v39 =? OK;
      andb (is_infinite v40) (is_negative v40);
      bitwise_eq v40 v41;
      returns o42;
      returns o44;
      returns o48;
      v46 =? OK;
      bitwise_eq v47 v49;
      returns o50]) = true.
Proof. vm_compute. reflexivity. Qed.

Example test_next_2 : (
   let o0 := unwrap_parse (from_str QuadS (bytes "0x0.0000000000000000000000000001p-16382")) in
   let v1 := get junk o0 in
   let o2 := next_down QuadS v1 in
   let v3 := get (0, junk) o2 in
   let v4 := fst v3 in
   let v5 := snd v3 in
   let v6 := ZERO QuadS in
   let o7 := unwrap_parse (from_str QuadS (bytes "-0x0.0000000000000000000000000001p-16382")) in
   let v8 := get junk o7 in
   let o9 := next_up QuadS v8 in
   let v10 := get (0, junk) o9 in
   let v11 := fst v10 in
   let v12 := snd v10 in
   let v13 := neg (ZERO QuadS) in
   let o14 := unwrap_parse (from_str QuadS (bytes "-0x0.0000000000000000000000000001p-16382")) in
   let v15 := get junk o14 in
   let o16 := next_down QuadS v15 in
   let v17 := get (0, junk) o16 in
   let v18 := fst v17 in
   let v19 := snd v17 in
   let o20 := unwrap_parse (from_str QuadS (bytes "-0x0.0000000000000000000000000002p-16382")) in
   let v21 := get junk o20 in
   let o22 := next_up QuadS (qnan QuadS None) in
   let v23 := get (0, junk) o22 in
   let v24 := fst v23 in
   let v25 := snd v23 in
   let v26 := qnan QuadS None in
   let o27 := next_down QuadS (qnan QuadS None) in
   let v28 := get (0, junk) o27 in
   let v29 := fst v28 in
   let v30 := snd v28 in
   let v31 := qnan QuadS None in
   let o32 := next_up QuadS (snan QuadS None) in
   let v33 := get (0, junk) o32 in
   let v34 := fst v33 in
   let v35 := snd v33 in
   let v36 := qnan QuadS None in
   let o37 := next_down QuadS (snan QuadS None) in
   let v38 := get (0, junk) o37 in
   let v39 := fst v38 in
   let v40 := snd v38 in
   let v41 := qnan QuadS None in
   let o42 := next_up QuadS (ZERO QuadS) in
   let v43 := get (0, junk) o42 in
   let v44 := fst v43 in
   let v45 := snd v43 in
   let v46 := SMALLEST QuadS in
   let o47 := next_down QuadS (ZERO QuadS) in
   let v48 := get (0, junk) o47 in
   let v49 := fst v48 in
   let v50 := snd v48 in
   let v51 := neg (SMALLEST QuadS) in
   let o52 := next_up QuadS (neg (ZERO QuadS)) in
   let v53 := get (0, junk) o52 in
   let v54 := fst v53 in
   let v55 := snd v53 in
   let v56 := SMALLEST QuadS in
   let o57 := next_down QuadS (neg (ZERO QuadS)) in
   let v58 := get (0, junk) o57 in
   let v59 := fst v58 in
   let v60 := snd v58 in
   let v61 := neg (SMALLEST QuadS) in
   let o62 := unwrap_parse (from_str QuadS (bytes "0x0.ffffffffffffffffffffffffffffp-16382")) in
   let v63 := get junk o62 in
   let o64 := next_up QuadS v63 in
   all_true [
      returns o2;
      v4 =? OK;
      is_pos_zero v5;
      bitwise_eq v5 v6;
      returns o7;
      returns o9;
      v11 =? OK;
      is_neg_zero v12;
      bitwise_eq v12 v13;
      returns o14;
      returns o16;
      returns o20;
      v18 =? OK;
      bitwise_eq v19 v21;
      returns o22;
      v24 =? OK;
      bitwise_eq v25 v26;
      returns o27;
      v29 =? OK;
      bitwise_eq v30 v31;
      returns o32;
      v34 =? INVALID_OP;
      bitwise_eq v35 v36;
      returns o37;
      v39 =? INVALID_OP;
      bitwise_eq v40 v41;
      returns o42;
      v44 =? OK;
      bitwise_eq v45 v46;
      returns o47;
      v49 =? OK;
      bitwise_eq v50 v51;
      returns o52;
      v54 =? OK;
      bitwise_eq v55 v56;
      returns o57;
      v59 =? OK;
      bitwise_eq v60 v61;
      returns o62;
      returns o64]) = true.
Proof. vm_compute. reflexivity. Qed.

Example test_next_3 : (
   let o0 := unwrap_parse (from_str QuadS (bytes "0x0.ffffffffffffffffffffffffffffp-16382")) in
   let v1 := get junk o0 in
   let o2 := next_up QuadS v1 in
   let v3 := get (0, junk) o2 in
   let v4 := fst v3 in
   let v5 := snd v3 in
   let o6 := unwrap_parse (from_str QuadS (bytes "0x1.0000000000000000000000000000p-16382")) in
   let v7 := get junk o6 in
   let o8 := is_denormal QuadS v5 in
   let o9 := unwrap_parse (from_str QuadS (bytes "-0x0.ffffffffffffffffffffffffffffp-16382")) in
   let v10 := get junk o9 in
   let o11 := next_down QuadS v10 in
   let v12 := get (0, junk) o11 in
   let v13 := fst v12 in
   let v14 := snd v12 in
   let o15 := unwrap_parse (from_str QuadS (bytes "-0x1.0000000000000000000000000000p-16382")) in
   let v16 := get junk o15 in
   let o17 := is_denormal QuadS v14 in
   let o18 := unwrap_parse (from_str QuadS (bytes "-0x1.0000000000000000000000000000p-16382")) in
   let v19 := get junk o18 in
   let o20 := next_up QuadS v19 in
   let v21 := get (0, junk) o20 in
   let v22 := fst v21 in
   let v23 := snd v21 in
   let o24 := unwrap_parse (from_str QuadS (bytes "-0x0.ffffffffffffffffffffffffffffp-16382")) in
   let v25 := get junk o24 in
   let o26 := is_denormal QuadS v23 in
   let o27 := unwrap_parse (from_str QuadS (bytes "+0x1.0000000000000000000000000000p-16382")) in
   let v28 := get junk o27 in
   let o29 := next_down QuadS v28 in
   let v30 := get (0, junk) o29 in
   let v31 := fst v30 in
   let v32 := snd v30 in
   let o33 := unwrap_parse (from_str QuadS (bytes "+0x0.ffffffffffffffffffffffffffffp-16382")) in
   let v34 := get junk o33 in
   let o35 := is_denormal QuadS v32 in
   let o36 := unwrap_parse (from_str QuadS (bytes "-0x1p+1")) in
   let v37 := get junk o36 in
   let o38 := next_up QuadS v37 in
   let v39 := get (0, junk) o38 in
   let v40 := fst v39 in
   let v41 := snd v39 in
   let o42 := unwrap_parse (from_str QuadS (bytes "-0x1.ffffffffffffffffffffffffffffp+0")) in
   let v43 := get junk o42 in
   let o44 := unwrap_parse (from_str QuadS (bytes "0x1p+1")) in
   let v45 := get junk o44 in
   let o46 := next_down QuadS v45 in
   let v47 := get (0, junk) o46 in
   let v48 := fst v47 in
   let v49 := snd v47 in
   let o50 := unwrap_parse (from_str QuadS (bytes "0x1.ffffffffffffffffffffffffffffp+0")) in
   let v51 := get junk o50 in
   let o52 := unwrap_parse (from_str QuadS (bytes "0x1.ffffffffffffffffffffffffffffp+0")) in
   let v53 := get junk o52 in
   let o54 := next_up QuadS v53 in
   let v55 := get (0, junk) o54 in
   let v56 := fst v55 in
   let o57 := unwrap_parse (from_str QuadS (bytes "0x1p+1")) in
   all_true [
      returns o6;
      v4 =? OK;
      returns o8;
      negb (get false o8);
      bitwise_eq v5 v7;
      returns o9;
      returns o11;
      returns o15;
      v13 =? OK;
      returns o17;
      negb (get false o17);
      bitwise_eq v14 v16;
      returns o18;
      returns o20;
      returns o24;
      v22 =? OK;
      returns o26;
      get false o26;
      bitwise_eq v23 v25;
      returns o27;
      returns o29;
      returns o33;
      v31 =? OK;
      returns o35;
      get false o35;
      bitwise_eq v32 v34;
      returns o36;
      returns o38;
      returns o42;
      v40 =? OK;
      bitwise_eq v41 v43;
      returns o44;
      returns o46;
      returns o50;
      v48 =? OK;
      bitwise_eq v49 v51;
      returns o52;
      returns o54;
      returns o57;
      v56 =? OK]) = true.
Proof. vm_compute. reflexivity. Qed.

Example test_next_4 : (
   let o0 := unwrap_parse (from_str QuadS (bytes "0x1.ffffffffffffffffffffffffffffp+0")) in
   let v1 := get junk o0 in
   let o2 := next_up QuadS v1 in
   let v3 := get (0, junk) o2 in
   let v4 := snd v3 in
   let o5 := unwrap_parse (from_str QuadS (bytes "0x1p+1")) in
   let v6 := get junk o5 in
   let o7 := unwrap_parse (from_str QuadS (bytes "-0x1.ffffffffffffffffffffffffffffp+0")) in
   let v8 := get junk o7 in
   let o9 := next_down QuadS v8 in
   let v10 := get (0, junk) o9 in
   let v11 := fst v10 in
   let v12 := snd v10 in
   let o13 := unwrap_parse (from_str QuadS (bytes "-0x1p+1")) in
   let v14 := get junk o13 in
   let o15 := unwrap_parse (from_str QuadS (bytes "-0x0.ffffffffffffffffffffffffffffp-16382")) in
   let v16 := get junk o15 in
   let o17 := next_up QuadS v16 in
   let v18 := get (0, junk) o17 in
   let v19 := fst v18 in
   let v20 := snd v18 in
   let o21 := unwrap_parse (from_str QuadS (bytes "-0x0.fffffffffffffffffffffffffffep-16382")) in
   let v22 := get junk o21 in
   let o23 := is_denormal QuadS v20 in
   let o24 := unwrap_parse (from_str QuadS (bytes "0x0.ffffffffffffffffffffffffffffp-16382")) in
   let v25 := get junk o24 in
   let o26 := next_down QuadS v25 in
   let v27 := get (0, junk) o26 in
   let v28 := fst v27 in
   let v29 := snd v27 in
   let o30 := unwrap_parse (from_str QuadS (bytes "0x0.fffffffffffffffffffffffffffep-16382")) in
   let v31 := get junk o30 in
   let o32 := is_denormal QuadS v29 in
   let o33 := unwrap_parse (from_str QuadS (bytes "0x1.0000000000000000000000000000p-16382")) in
   let v34 := get junk o33 in
   let o35 := next_up QuadS v34 in
   let v36 := get (0, junk) o35 in
   let v37 := fst v36 in
   let v38 := snd v36 in
   let o39 := unwrap_parse (from_str QuadS (bytes "0x1.0000000000000000000000000001p-16382")) in
   let v40 := get junk o39 in
   let o41 := is_denormal QuadS v38 in
   let o42 := unwrap_parse (from_str QuadS (bytes "-0x1.0000000000000000000000000000p-16382")) in
   let v43 := get junk o42 in
   let o44 := next_down QuadS v43 in
   let v45 := get (0, junk) o44 in
   let v46 := fst v45 in
   let v47 := snd v45 in
   let o48 := unwrap_parse (from_str QuadS (bytes "-0x1.0000000000000000000000000001p-16382")) in
   let v49 := get junk o48 in
   let o50 := is_denormal QuadS v47 in
   let o51 := unwrap_parse (from_str QuadS (bytes "-0x1p-16381")) in
   let v52 := get junk o51 in
   let o53 := next_up QuadS v52 in
   all_true [
      bitwise_eq v4 v6;
      returns o7;
      returns o9;
      returns o13;
      v11 =? OK;
      bitwise_eq v12 v14;
      returns o15;
      returns o17;
      returns o21;
      v19 =? OK;
      returns o23;
      get false o23;
      is_negative v20;
      bitwise_eq v20 v22;
      returns o24;
      returns o26;
      returns o30;
      v28 =? OK;
      returns o32;
      get false o32;
      negb (is_negative v29);
      bitwise_eq v29 v31;
      returns o33;
      returns o35;
      returns o39;
      v37 =? OK;
      returns o41;
      negb (get false o41);
      negb (is_negative v38);
      bitwise_eq v38 v40;
      returns o42;
      returns o44;
      returns o48;
      v46 =? OK;
      returns o50;
      negb (get false o50);
      is_negative v47;
      bitwise_eq v47 v49;
      returns o51;
      returns o53]) = true.
Proof. vm_compute. reflexivity. Qed.

Example test_next_5 : (
   let o0 := unwrap_parse (from_str QuadS (bytes "-0x1p-16381")) in
   let v1 := get junk o0 in
   let o2 := next_up QuadS v1 in
   let v3 := get (0, junk) o2 in
   let v4 := fst v3 in
   let v5 := snd v3 in
   let o6 := unwrap_parse (from_str QuadS (bytes "-0x1.ffffffffffffffffffffffffffffp-16382")) in
   let v7 := get junk o6 in
   let o8 := unwrap_parse (from_str QuadS (bytes "-0x1.ffffffffffffffffffffffffffffp-16382")) in
   let v9 := get junk o8 in
   let o10 := next_down QuadS v9 in
   let v11 := get (0, junk) o10 in
   let v12 := fst v11 in
   let v13 := snd v11 in
   let o14 := unwrap_parse (from_str QuadS (bytes "-0x1p-16381")) in
   let v15 := get junk o14 in
   let o16 := unwrap_parse (from_str QuadS (bytes "0x1.ffffffffffffffffffffffffffffp-16382")) in
   let v17 := get junk o16 in
   let o18 := next_up QuadS v17 in
   let v19 := get (0, junk) o18 in
   let v20 := fst v19 in
   let v21 := snd v19 in
   let o22 := unwrap_parse (from_str QuadS (bytes "0x1p-16381")) in
   let v23 := get junk o22 in
   let o24 := unwrap_parse (from_str QuadS (bytes "0x1p-16381")) in
   let v25 := get junk o24 in
   let o26 := next_down QuadS v25 in
   let v27 := get (0, junk) o26 in
   let v28 := fst v27 in
   let v29 := snd v27 in
   let o30 := unwrap_parse (from_str QuadS (bytes "0x1.ffffffffffffffffffffffffffffp-16382")) in
   let v31 := get junk o30 in
   let o32 := unwrap_parse (from_str QuadS (bytes "0x0.ffffffffffffffffffffffff000cp-16382")) in
   let v33 := get junk o32 in
   let o34 := next_up QuadS v33 in
   let v35 := get (0, junk) o34 in
   let v36 := fst v35 in
   let v37 := snd v35 in
   let o38 := unwrap_parse (from_str QuadS (bytes "0x0.ffffffffffffffffffffffff000dp-16382")) in
   let v39 := get junk o38 in
   let o40 := is_denormal QuadS v37 in
   let o41 := unwrap_parse (from_str QuadS (bytes "0x0.ffffffffffffffffffffffff000cp-16382")) in
   let v42 := get junk o41 in
   let o43 := next_down QuadS v42 in
   let v44 := get (0, junk) o43 in
   let v45 := fst v44 in
   let v46 := snd v44 in
   let o47 := unwrap_parse (from_str QuadS (bytes "0x0.ffffffffffffffffffffffff000bp-16382")) in
   let v48 := get junk o47 in
   let o49 := is_denormal QuadS v46 in
   let o50 := unwrap_parse (from_str QuadS (bytes "-0x0.ffffffffffffffffffffffff000cp-16382")) in
   let v51 := get junk o50 in
   let o52 := next_up QuadS v51 in
   let v53 := get (0, junk) o52 in
   let v54 := fst v53 in
   let v55 := snd v53 in
   let o56 := unwrap_parse (from_str QuadS (bytes "-0x0.ffffffffffffffffffffffff000bp-16382")) in
   let o57 := is_denormal QuadS v55 in
   all_true [
      returns o6;
      v4 =? OK;
      bitwise_eq v5 v7;
      returns o8;
      returns o10;
      returns o14;
      v12 =? OK;
      bitwise_eq v13 v15;
      returns o16;
      returns o18;
      returns o22;
      v20 =? OK;
      bitwise_eq v21 v23;
      returns o24;
      returns o26;
      returns o30;
      v28 =? OK;
      bitwise_eq v29 v31;
      returns o32;
      returns o34;
      returns o38;
      v36 =? OK;
      returns o40;
      get false o40;
      negb (is_negative v37);
      bitwise_eq v37 v39;
      returns o41;
      returns o43;
      returns o47;
      v45 =? OK;
      returns o49;
      get false o49;
      negb (is_negative v46);
      bitwise_eq v46 v48;
      returns o50;
      returns o52;
      returns o56;
      v54 =? OK;
      returns o57;
      get false o57]) = true.
Proof. vm_compute. reflexivity. Qed.

Example test_next_6 : (
   let o0 := unwrap_parse (from_str QuadS (bytes "-0x0.ffffffffffffffffffffffff000cp-16382")) in
   let v1 := get junk o0 in
   let o2 := next_up QuadS v1 in
   let v3 := get (0, junk) o2 in
   let v4 := snd v3 in
   let o5 := unwrap_parse (from_str QuadS (bytes "-0x0.ffffffffffffffffffffffff000bp-16382")) in
   let v6 := get junk o5 in
   let o7 := unwrap_parse (from_str QuadS (bytes "-0x0.ffffffffffffffffffffffff000cp-16382")) in
   let v8 := get junk o7 in
   let o9 := next_down QuadS v8 in
   let v10 := get (0, junk) o9 in
   let v11 := fst v10 in
   let v12 := snd v10 in
   let o13 := unwrap_parse (from_str QuadS (bytes "-0x0.ffffffffffffffffffffffff000dp-16382")) in
   let v14 := get junk o13 in
   let o15 := is_denormal QuadS v12 in
   let o16 := unwrap_parse (from_str QuadS (bytes "0x1.ffffffffffffffffffffffff000cp-16000")) in
   let v17 := get junk o16 in
   let o18 := next_up QuadS v17 in
   let v19 := get (0, junk) o18 in
   let v20 := fst v19 in
   let v21 := snd v19 in
   let o22 := unwrap_parse (from_str QuadS (bytes "0x1.ffffffffffffffffffffffff000dp-16000")) in
   let v23 := get junk o22 in
   let o24 := is_denormal QuadS v21 in
   let o25 := unwrap_parse (from_str QuadS (bytes "0x1.ffffffffffffffffffffffff000cp-16000")) in
   let v26 := get junk o25 in
   let o27 := next_down QuadS v26 in
   let v28 := get (0, junk) o27 in
   let v29 := fst v28 in
   let v30 := snd v28 in
   let o31 := unwrap_parse (from_str QuadS (bytes "0x1.ffffffffffffffffffffffff000bp-16000")) in
   let v32 := get junk o31 in
   let o33 := is_denormal QuadS v30 in
   let o34 := unwrap_parse (from_str QuadS (bytes "-0x1.ffffffffffffffffffffffff000cp-16000")) in
   let v35 := get junk o34 in
   let o36 := next_up QuadS v35 in
   let v37 := get (0, junk) o36 in
   let v38 := fst v37 in
   let v39 := snd v37 in
   let o40 := unwrap_parse (from_str QuadS (bytes "-0x1.ffffffffffffffffffffffff000bp-16000")) in
   let v41 := get junk o40 in
   let o42 := is_denormal QuadS v39 in
   let o43 := unwrap_parse (from_str QuadS (bytes "-0x1.ffffffffffffffffffffffff000cp-16000")) in
   let v44 := get junk o43 in
   let o45 := next_down QuadS v44 in
   let v46 := get (0, junk) o45 in
   let v47 := fst v46 in
   let v48 := snd v46 in
   let o49 := unwrap_parse (from_str QuadS (bytes "-0x1.ffffffffffffffffffffffff000dp-16000")) in
   let o50 := is_denormal QuadS v48 in
   all_true [
      is_negative v4;
      bitwise_eq v4 v6;
      returns o7;
      returns o9;
      returns o13;
      v11 =? OK;
      returns o15;
      get false o15;
      is_negative v12;
      bitwise_eq v12 v14;
      returns o16;
      returns o18;
      returns o22;
      v20 =? OK;
      returns o24;
      negb (get false o24);
      negb (is_negative v21);
      bitwise_eq v21 v23;
      returns o25;
      returns o27;
      returns o31;
      v29 =? OK;
      returns o33;
      negb (get false o33);
      negb (is_negative v30);
      bitwise_eq v30 v32;
      returns o34;
      returns o36;
      returns o40;
      v38 =? OK;
      returns o42;
      negb (get false o42);
      is_negative v39;
      bitwise_eq v39 v41;
      returns o43;
      returns o45;
      returns o49;
      v47 =? OK;
      returns o50;
      negb (get false o50)]) = true.
Proof. vm_compute. reflexivity. Qed.

Example test_next_7 : (
   let o0 := unwrap_parse (from_str QuadS (bytes "-0x1.ffffffffffffffffffffffff000cp-16000")) in
   let v1 := get junk o0 in
   let o2 := next_down QuadS v1 in
   let v3 := get (0, junk) o2 in
   let v4 := snd v3 in
   let o5 := unwrap_parse (from_str QuadS (bytes "-0x1.ffffffffffffffffffffffff000dp-16000")) in
   let v6 := get junk o5 in
   all_true [
      is_negative v4;
      bitwise_eq v4 v6]) = true.
Proof. vm_compute. reflexivity. Qed.

(** ieee.rs:556 [fma] *)
Example test_fma_1 : (
   let o0 := from_bits SingleS 1097334784 in
   let v1 := get junk o0 in
   let o2 := from_bits SingleS 3244818432 in
   let v3 := get junk o2 in
   let o4 := from_bits SingleS 1130430464 in
   let v5 := get junk o4 in
   let o6 := mul_add SingleS v1 v3 v5 in
   let v7 := snd (get (0, junk) o6) in
   let o8 := through_bits SingleS v7 in
   let o9 := from_bits SingleS 1097596928 in
   let o10 := eq_f (get junk o8) (get junk o9) in
   let o11 := from_bits SingleS 1073741824 in
   let v12 := get junk o11 in
   let o13 := from_bits SingleS 8388608 in
   let v14 := get junk o13 in
   let o15 := from_bits SingleS 8388608 in
   let v16 := get junk o15 in
   let o17 := div_assign SingleS v14 v12 in
   let v18 := get junk o17 in
   let o19 := div_assign SingleS v16 v12 in
   let v20 := get junk o19 in
   let o21 := from_bits SingleS 1094713344 in
   let v22 := get junk o21 in
   let o23 := mul_add SingleS v18 v20 v22 in
   let v24 := snd (get (0, junk) o23) in
   let o25 := through_bits SingleS v24 in
   let o26 := from_bits SingleS 1094713344 in
   let o27 := eq_f (get junk o25) (get junk o26) in
   let o28 := from_bits DoubleS 4607182418800017408 in
   let v29 := get junk o28 in
   let o30 := from_bits DoubleS 13830554455654793216 in
   let v31 := get junk o30 in
   let o32 := from_bits DoubleS 4607182418800017408 in
   let v33 := get junk o32 in
   let o34 := mul_add DoubleS v29 v31 v33 in
   let v35 := snd (get (0, junk) o34) in
   let o36 := from_bits DoubleS 4607182418800017408 in
   let v37 := get junk o36 in
   let o38 := from_bits DoubleS 13830554455654793216 in
   let v39 := get junk o38 in
   let o40 := from_bits DoubleS 4607182418800017408 in
   let v41 := get junk o40 in
   let o42 := mul_add_r DoubleS v37 v39 v41 TowardNegative in
   let v43 := snd (get (0, junk) o42) in
   let o44 := from_bits DoubleS 0 in
   let v45 := get junk o44 in
   let o46 := from_bits DoubleS 9223372036854775808 in
   let v47 := get junk o46 in
   let o48 := from_bits DoubleS 9223372036854775808 in
   let v49 := get junk o48 in
   let o50 := mul_add DoubleS v45 v47 v49 in
   let v51 := snd (get (0, junk) o50) in
   let o52 := unwrap_parse (from_str DoubleS (bytes "-0x1p-1074")) in
   let v53 := get junk o52 in
   let o54 := unwrap_parse (from_str DoubleS (bytes "+0x1p-1074")) in
   let v55 := get junk o54 in
   let o56 := from_bits DoubleS 0 in
   let v57 := get junk o56 in
   let o58 := mul_add DoubleS v53 v55 v57 in
   let v59 := snd (get (0, junk) o58) in
   let o60 := from_u128 X87DoubleExtendedS 1 in
   all_true [
      returns o0;
      returns o2;
      returns o4;
      returns o6;
      returns o8;
      returns o9;
      returns o10;
      get false o10;
      returns o11;
      returns o13;
      returns o15;
      returns o17;
      returns o19;
      returns o21;
      returns o23;
      returns o25;
      returns o26;
      returns o27;
      get false o27;
      returns o28;
      returns o30;
      returns o32;
      returns o34;
      andb (negb (is_negative v35)) (is_zero v35);
      returns o36;
      returns o38;
      returns o40;
      returns o42;
      andb (is_negative v43) (is_zero v43);
      returns o44;
      returns o46;
      returns o48;
      returns o50;
      andb (is_negative v51) (is_zero v51);
      returns o52;
      returns o54;
      returns o56;
      returns o58;
      andb (is_negative v59) (is_zero v59);
      returns o60]) = true.
Proof. vm_compute. reflexivity. Qed.

Example test_fma_2 : (
   let o0 := from_u128 X87DoubleExtendedS 1 in
   let v1 := snd (get (0, junk) o0) in
   let o2 := from_u128 X87DoubleExtendedS 1 in
   let v3 := snd (get (0, junk) o2) in
   let o4 := from_u128 X87DoubleExtendedS 3 in
   let v5 := snd (get (0, junk) o4) in
   let o6 := mul_add X87DoubleExtendedS v1 v3 v5 in
   let v7 := snd (get (0, junk) o6) in
   let o8 := convert X87DoubleExtendedS SingleS v7 in
   let v9 := get (0, junk, false) o8 in
   let v10 := snd v9 in
   let v11 := snd (fst v9) in
   let o12 := through_bits SingleS v11 in
   let o13 := from_bits SingleS 1082130432 in
   let o14 := eq_f (get junk o12) (get junk o13) in
   let o15 := from_bits SingleS 2147546821 in
   let v16 := get junk o15 in
   let o17 := from_bits SingleS 1073741824 in
   let v18 := get junk o17 in
   let o19 := from_bits SingleS 63173 in
   let v20 := get junk o19 in
   let o21 := mul_add SingleS v16 v18 v20 in
   let v22 := snd (get (0, junk) o21) in
   let o23 := through_bits SingleS v22 in
   let o24 := from_bits SingleS 2147546821 in
   let o25 := eq_f (get junk o23) (get junk o24) in
   let o26 := from_bits DoubleS 4609434218613702656 in
   let v27 := get junk o26 in
   let o28 := mul_add DoubleS v27 v27 v27 in
   let v29 := snd (get (0, junk) o28) in
   let o30 := through_bits DoubleS v29 in
   let o31 := from_bits DoubleS 4615626668101337088 in
   let o32 := eq_f (get junk o30) (get junk o31) in
   all_true [
      returns o2;
      returns o4;
      returns o6;
      returns o8;
      negb v10;
      returns o12;
      returns o13;
      returns o14;
      get false o14;
      returns o15;
      returns o17;
      returns o19;
      returns o21;
      returns o23;
      returns o24;
      returns o25;
      get false o25;
      returns o26;
      returns o28;
      returns o30;
      returns o31;
      returns o32;
      get false o32]) = true.
Proof. vm_compute. reflexivity. Qed.

(** ieee.rs:648 [min_num] *)
Example test_min_num : (
   let o0 := from_bits DoubleS 4607182418800017408 in
   let v1 := get junk o0 in
   let o2 := from_bits DoubleS 4611686018427387904 in
   let v3 := get junk o2 in
   let v4 := NAN DoubleS in
   let o5 := min v1 v3 in
   let o6 := through_bits DoubleS (get junk o5) in
   let o7 := from_bits DoubleS 4607182418800017408 in
   let o8 := eq_f (get junk o6) (get junk o7) in
   let o9 := min v3 v1 in
   let o10 := through_bits DoubleS (get junk o9) in
   let o11 := from_bits DoubleS 4607182418800017408 in
   let o12 := eq_f (get junk o10) (get junk o11) in
   let o13 := min v1 v4 in
   let o14 := through_bits DoubleS (get junk o13) in
   let o15 := from_bits DoubleS 4607182418800017408 in
   let o16 := eq_f (get junk o14) (get junk o15) in
   let o17 := min v4 v1 in
   let o18 := through_bits DoubleS (get junk o17) in
   let o19 := from_bits DoubleS 4607182418800017408 in
   let o20 := eq_f (get junk o18) (get junk o19) in
   all_true [
      returns o0;
      returns o2;
      returns o5;
      returns o6;
      returns o7;
      returns o8;
      get false o8;
      returns o9;
      returns o10;
      returns o11;
      returns o12;
      get false o12;
      returns o13;
      returns o14;
      returns o15;
      returns o16;
      get false o16;
      returns o17;
      returns o18;
      returns o19;
      returns o20;
      get false o20]) = true.
Proof. vm_compute. reflexivity. Qed.

(** ieee.rs:660 [max_num] *)
Example test_max_num : (
   let o0 := from_bits DoubleS 4607182418800017408 in
   let v1 := get junk o0 in
   let o2 := from_bits DoubleS 4611686018427387904 in
   let v3 := get junk o2 in
   let v4 := NAN DoubleS in
   let o5 := max v1 v3 in
   let o6 := through_bits DoubleS (get junk o5) in
   let o7 := from_bits DoubleS 4611686018427387904 in
   let o8 := eq_f (get junk o6) (get junk o7) in
   let o9 := max v3 v1 in
   let o10 := through_bits DoubleS (get junk o9) in
   let o11 := from_bits DoubleS 4611686018427387904 in
   let o12 := eq_f (get junk o10) (get junk o11) in
   let o13 := max v1 v4 in
   let o14 := through_bits DoubleS (get junk o13) in
   let o15 := from_bits DoubleS 4607182418800017408 in
   let o16 := eq_f (get junk o14) (get junk o15) in
   let o17 := max v4 v1 in
   let o18 := through_bits DoubleS (get junk o17) in
   let o19 := from_bits DoubleS 4607182418800017408 in
   let o20 := eq_f (get junk o18) (get junk o19) in
   all_true [
      returns o0;
      returns o2;
      returns o5;
      returns o6;
      returns o7;
      returns o8;
      get false o8;
      returns o9;
      returns o10;
      returns o11;
      returns o12;
      get false o12;
      returns o13;
      returns o14;
      returns o15;
      returns o16;
      get false o16;
      returns o17;
      returns o18;
      returns o19;
      returns o20;
      get false o20]) = true.
Proof. vm_compute. reflexivity. Qed.

(** ieee.rs:672 [minimum] *)
Example test_minimum : (
   let o0 := from_bits DoubleS 4607182418800017408 in
   let v1 := get junk o0 in
   let o2 := from_bits DoubleS 4611686018427387904 in
   let v3 := get junk o2 in
   let o4 := from_bits DoubleS 0 in
   let v5 := get junk o4 in
   let o6 := from_bits DoubleS 9223372036854775808 in
   let v7 := get junk o6 in
   let v8 := NAN DoubleS in
   let o9 := minimum v1 v3 in
   let o10 := through_bits DoubleS (get junk o9) in
   let o11 := from_bits DoubleS 4607182418800017408 in
   let o12 := eq_f (get junk o10) (get junk o11) in
   let o13 := minimum v3 v1 in
   let o14 := through_bits DoubleS (get junk o13) in
   let o15 := from_bits DoubleS 4607182418800017408 in
   let o16 := eq_f (get junk o14) (get junk o15) in
   let o17 := minimum v5 v7 in
   let o18 := through_bits DoubleS (get junk o17) in
   let o19 := from_bits DoubleS 9223372036854775808 in
   let o20 := eq_f (get junk o18) (get junk o19) in
   let o21 := minimum v7 v5 in
   let o22 := through_bits DoubleS (get junk o21) in
   let o23 := from_bits DoubleS 9223372036854775808 in
   let o24 := eq_f (get junk o22) (get junk o23) in
   let o25 := minimum v1 v8 in
   let o26 := through_bits DoubleS (get junk o25) in
   let o27 := minimum v8 v1 in
   let o28 := through_bits DoubleS (get junk o27) in
   all_true [
      returns o0;
      returns o2;
      returns o4;
      returns o6;
      returns o9;
      returns o10;
      returns o11;
      returns o12;
      get false o12;
      returns o13;
      returns o14;
      returns o15;
      returns o16;
      get false o16;
      returns o17;
      returns o18;
      returns o19;
      returns o20;
      get false o20;
      returns o21;
      returns o22;
      returns o23;
      returns o24;
      get false o24;
      returns o25;
      returns o26;
      is_nan (get junk o26);
      returns o27;
      returns o28;
      is_nan (get junk o28)]) = true.
Proof. vm_compute. reflexivity. Qed.

(** ieee.rs:688 [maximum] *)
Example test_maximum : (
   let o0 := from_bits DoubleS 4607182418800017408 in
   let v1 := get junk o0 in
   let o2 := from_bits DoubleS 4611686018427387904 in
   let v3 := get junk o2 in
   let o4 := from_bits DoubleS 0 in
   let v5 := get junk o4 in
   let o6 := from_bits DoubleS 9223372036854775808 in
   let v7 := get junk o6 in
   let v8 := NAN DoubleS in
   let o9 := maximum v1 v3 in
   let o10 := through_bits DoubleS (get junk o9) in
   let o11 := from_bits DoubleS 4611686018427387904 in
   let o12 := eq_f (get junk o10) (get junk o11) in
   let o13 := maximum v3 v1 in
   let o14 := through_bits DoubleS (get junk o13) in
   let o15 := from_bits DoubleS 4611686018427387904 in
   let o16 := eq_f (get junk o14) (get junk o15) in
   let o17 := maximum v5 v7 in
   let o18 := through_bits DoubleS (get junk o17) in
   let o19 := from_bits DoubleS 0 in
   let o20 := eq_f (get junk o18) (get junk o19) in
   let o21 := maximum v7 v5 in
   let o22 := through_bits DoubleS (get junk o21) in
   let o23 := from_bits DoubleS 0 in
   let o24 := eq_f (get junk o22) (get junk o23) in
   let o25 := maximum v1 v8 in
   let o26 := through_bits DoubleS (get junk o25) in
   let o27 := maximum v8 v1 in
   let o28 := through_bits DoubleS (get junk o27) in
   all_true [
      returns o0;
      returns o2;
      returns o4;
      returns o6;
      returns o9;
      returns o10;
      returns o11;
      returns o12;
      get false o12;
      returns o13;
      returns o14;
      returns o15;
      returns o16;
      get false o16;
      returns o17;
      returns o18;
      returns o19;
      returns o20;
      get false o20;
      returns o21;
      returns o22;
      returns o23;
      returns o24;
      get false o24;
      returns o25;
      returns o26;
      is_nan (get junk o26);
      returns o27;
      returns o28;
      is_nan (get junk o28)]) = true.
Proof. vm_compute. reflexivity. Qed.

(** ieee.rs:704 [denormal] *)
Example test_denormal : (
   let o0 := from_u128 SingleS 0 in
   let v1 := snd (get (0, junk) o0) in
   let o2 := is_denormal SingleS v1 in
   let o3 := unwrap_parse (from_str SingleS (bytes "1.17549435082228750797e-38")) in
   let v4 := get junk o3 in
   let o5 := is_denormal SingleS v4 in
   let o6 := from_u128 SingleS 2 in
   let v7 := snd (get (0, junk) o6) in
   let o8 := div_assign SingleS v4 v7 in
   let v9 := get junk o8 in
   let o10 := is_denormal SingleS v9 in
   let o11 := from_u128 DoubleS 0 in
   let v12 := snd (get (0, junk) o11) in
   let o13 := is_denormal DoubleS v12 in
   let o14 := unwrap_parse (from_str DoubleS (bytes "2.22507385850720138309e-308")) in
   let v15 := get junk o14 in
   let o16 := is_denormal DoubleS v15 in
   let o17 := from_u128 DoubleS 2 in
   let v18 := snd (get (0, junk) o17) in
   let o19 := div_assign DoubleS v15 v18 in
   let v20 := get junk o19 in
   let o21 := is_denormal DoubleS v20 in
   let o22 := from_u128 X87DoubleExtendedS 0 in
   let v23 := snd (get (0, junk) o22) in
   let o24 := is_denormal X87DoubleExtendedS v23 in
   let o25 := from_u128 X87DoubleExtendedS 2 in
   let o26 := from_u128 QuadS 0 in
   let v27 := snd (get (0, junk) o26) in
   let o28 := is_denormal QuadS v27 in
   let o29 := from_u128 QuadS 2 in
   all_true [
      returns o0;
      returns o2;
      negb (get false o2);
      returns o3;
      returns o5;
      negb (get false o5);
      returns o6;
      returns o8;
      returns o10;
      get false o10;
      returns o11;
      returns o13;
      negb (get false o13);
      returns o14;
      returns o16;
      negb (get false o16);
      returns o17;
      returns o19;
      returns o21;
      get false o21;
      returns o22;
      returns o24;
      negb (get false o24);
      returns o25;
      returns o26;
      returns o28;
      negb (get false o28);
      returns o29]) = true.
Proof. vm_compute. reflexivity. Qed.

(** ieee.rs:751 [is_smallest_normalized] *)
Example test_is_smallest_normalized_1 : (
   let o0 := from_bits HalfS 65535 in
   let v1 := smallest_normalized HalfS in
   let v2 := neg (smallest_normalized HalfS) in
   let v3 := is_negative v1 in
   let o4 := next_down HalfS v1 in
   let v5 := get (0, junk) o4 in
   let v6 := fst v5 in
   let v7 := snd v5 in
   let o8 := next_up HalfS v7 in
   let v9 := get (0, junk) o8 in
   let v10 := fst v9 in
   let v11 := snd v9 in
   let o12 := next_up HalfS v11 in
   let v13 := get (0, junk) o12 in
   let v14 := fst v13 in
   let v15 := snd v13 in
   let v16 := is_negative v2 in
   let o17 := next_down HalfS v2 in
   let v18 := get (0, junk) o17 in
   let v19 := fst v18 in
   let v20 := snd v18 in
   let o21 := next_up HalfS v20 in
   let v22 := get (0, junk) o21 in
   let v23 := fst v22 in
   let v24 := snd v22 in
   let o25 := next_up HalfS v24 in
   let v26 := get (0, junk) o25 in
   let v27 := fst v26 in
   let v28 := snd v26 in
   all_true [
      negb (is_smallest_normalized HalfS (ZERO HalfS));
      negb (is_smallest_normalized HalfS (neg (ZERO HalfS)));
      negb (is_smallest_normalized HalfS (INFINITY HalfS));
      negb (is_smallest_normalized HalfS (neg (INFINITY HalfS)));
      negb (is_smallest_normalized HalfS (qnan HalfS None));
      negb (is_smallest_normalized HalfS (snan HalfS None));
      negb (is_smallest_normalized HalfS (largest HalfS));
      negb (is_smallest_normalized HalfS (neg (largest HalfS)));
      negb (is_smallest_normalized HalfS (SMALLEST HalfS));
      negb (is_smallest_normalized HalfS (neg (SMALLEST HalfS)));
      returns o0;
      negb (is_smallest_normalized HalfS (get junk o0));
      is_smallest_normalized HalfS v1;
      is_smallest_normalized HalfS v2;
      returns o4;
      OK =? v6;
      Bool.eqb v3 (is_negative v7);
      negb (is_smallest_normalized HalfS v7);
      returns o8;
      OK =? v10;
      is_smallest_normalized HalfS v11;
      Bool.eqb v3 (is_negative v11);
      returns o12;
      OK =? v14;
      negb (is_smallest_normalized HalfS v15);
      Bool.eqb v3 (is_negative v15);
      returns o17;
      OK =? v19;
      Bool.eqb v16 (is_negative v20);
      negb (is_smallest_normalized HalfS v20);
      returns o21;
      OK =? v23;
      is_smallest_normalized HalfS v24;
      Bool.eqb v16 (is_negative v24);
      returns o25;
      OK =? v27;
      negb (is_smallest_normalized HalfS v28);
      Bool.eqb v16 (is_negative v28);
      negb (is_smallest_normalized SingleS (ZERO SingleS));
      negb (is_smallest_normalized SingleS (neg (ZERO SingleS)))]) = true.
Proof. vm_compute. reflexivity. Qed.

Example test_is_smallest_normalized_2 : (
   let o0 := from_bits SingleS 4294967295 in
   let v1 := smallest_normalized SingleS in
   let v2 := neg (smallest_normalized SingleS) in
   let v3 := is_negative v1 in
   let o4 := next_down SingleS v1 in
   let v5 := get (0, junk) o4 in
   let v6 := fst v5 in
   let v7 := snd v5 in
   let o8 := next_up SingleS v7 in
   let v9 := get (0, junk) o8 in
   let v10 := fst v9 in
   let v11 := snd v9 in
   let o12 := next_up SingleS v11 in
   let v13 := get (0, junk) o12 in
   let v14 := fst v13 in
   let v15 := snd v13 in
   let v16 := is_negative v2 in
   let o17 := next_down SingleS v2 in
   let v18 := get (0, junk) o17 in
   let v19 := fst v18 in
   let v20 := snd v18 in
   let o21 := next_up SingleS v20 in
   let v22 := get (0, junk) o21 in
   let v23 := fst v22 in
   let v24 := snd v22 in
   let o25 := next_up SingleS v24 in
   let v26 := get (0, junk) o25 in
   let v27 := fst v26 in
   let v28 := snd v26 in
   all_true [
      negb (is_smallest_normalized SingleS (INFINITY SingleS));
      negb (is_smallest_normalized SingleS (neg (INFINITY SingleS)));
      negb (is_smallest_normalized SingleS (qnan SingleS None));
      negb (is_smallest_normalized SingleS (snan SingleS None));
      negb (is_smallest_normalized SingleS (largest SingleS));
      negb (is_smallest_normalized SingleS (neg (largest SingleS)));
      negb (is_smallest_normalized SingleS (SMALLEST SingleS));
      negb (is_smallest_normalized SingleS (neg (SMALLEST SingleS)));
      returns o0;
      negb (is_smallest_normalized SingleS (get junk o0));
      is_smallest_normalized SingleS v1;
      is_smallest_normalized SingleS v2;
      returns o4;
      OK =? v6;
      Bool.eqb v3 (is_negative v7);
      negb (is_smallest_normalized SingleS v7);
      returns o8;
      OK =? v10;
      is_smallest_normalized SingleS v11;
      Bool.eqb v3 (is_negative v11);
      returns o12;
      OK =? v14;
      negb (is_smallest_normalized SingleS v15);
      Bool.eqb v3 (is_negative v15);
      returns o17;
      OK =? v19;
      Bool.eqb v16 (is_negative v20);
      negb (is_smallest_normalized SingleS v20);
      returns o21;
      OK =? v23;
      is_smallest_normalized SingleS v24;
      Bool.eqb v16 (is_negative v24);
      returns o25;
      OK =? v27;
      negb (is_smallest_normalized SingleS v28);
      Bool.eqb v16 (is_negative v28);
      negb (is_smallest_normalized DoubleS (ZERO DoubleS));
      negb (is_smallest_normalized DoubleS (neg (ZERO DoubleS)));
      negb (is_smallest_normalized DoubleS (INFINITY DoubleS));
      negb (is_smallest_normalized DoubleS (neg (INFINITY DoubleS)))]) = true.
Proof. vm_compute. reflexivity. Qed.

Example test_is_smallest_normalized_3 : (
   let o0 := from_bits DoubleS 18446744073709551615 in
   let v1 := smallest_normalized DoubleS in
   let v2 := neg (smallest_normalized DoubleS) in
   let v3 := is_negative v1 in
   let o4 := next_down DoubleS v1 in
   let v5 := get (0, junk) o4 in
   let v6 := fst v5 in
   let v7 := snd v5 in
   let o8 := next_up DoubleS v7 in
   let v9 := get (0, junk) o8 in
   let v10 := fst v9 in
   let v11 := snd v9 in
   let o12 := next_up DoubleS v11 in
   let v13 := get (0, junk) o12 in
   let v14 := fst v13 in
   let v15 := snd v13 in
   let v16 := is_negative v2 in
   let o17 := next_down DoubleS v2 in
   let v18 := get (0, junk) o17 in
   let v19 := fst v18 in
   let v20 := snd v18 in
   let o21 := next_up DoubleS v20 in
   let v22 := get (0, junk) o21 in
   let v23 := fst v22 in
   let v24 := snd v22 in
   let o25 := next_up DoubleS v24 in
   let v26 := get (0, junk) o25 in
   let v27 := fst v26 in
   let v28 := snd v26 in
   all_true [
      negb (is_smallest_normalized DoubleS (qnan DoubleS None));
      negb (is_smallest_normalized DoubleS (snan DoubleS None));
      negb (is_smallest_normalized DoubleS (largest DoubleS));
      negb (is_smallest_normalized DoubleS (neg (largest DoubleS)));
      negb (is_smallest_normalized DoubleS (SMALLEST DoubleS));
      negb (is_smallest_normalized DoubleS (neg (SMALLEST DoubleS)));
      returns o0;
      negb (is_smallest_normalized DoubleS (get junk o0));
      is_smallest_normalized DoubleS v1;
      is_smallest_normalized DoubleS v2;
      returns o4;
      OK =? v6;
      Bool.eqb v3 (is_negative v7);
      negb (is_smallest_normalized DoubleS v7);
      returns o8;
      OK =? v10;
      is_smallest_normalized DoubleS v11;
      Bool.eqb v3 (is_negative v11);
      returns o12;
      OK =? v14;
      negb (is_smallest_normalized DoubleS v15);
      Bool.eqb v3 (is_negative v15);
      returns o17;
      OK =? v19;
      Bool.eqb v16 (is_negative v20);
      negb (is_smallest_normalized DoubleS v20);
      returns o21;
      OK =? v23;
      is_smallest_normalized DoubleS v24;
      Bool.eqb v16 (is_negative v24);
      returns o25;
      OK =? v27;
      negb (is_smallest_normalized DoubleS v28);
      Bool.eqb v16 (is_negative v28);
      negb (is_smallest_normalized QuadS (ZERO QuadS));
      negb (is_smallest_normalized QuadS (neg (ZERO QuadS)));
      negb (is_smallest_normalized QuadS (INFINITY QuadS));
      negb (is_smallest_normalized QuadS (neg (INFINITY QuadS)));
      negb (is_smallest_normalized QuadS (qnan QuadS None));
      negb (is_smallest_normalized QuadS (snan QuadS None))]) = true.
Proof. vm_compute. reflexivity. Qed.

Example test_is_smallest_normalized_4 : (
   let o0 := from_bits QuadS 340282366920938463463374607431768211455 in
   let v1 := smallest_normalized QuadS in
   let v2 := neg (smallest_normalized QuadS) in
   let v3 := is_negative v1 in
   let o4 := next_down QuadS v1 in
   let v5 := get (0, junk) o4 in
   let v6 := fst v5 in
   let v7 := snd v5 in
   let o8 := next_up QuadS v7 in
   let v9 := get (0, junk) o8 in
   let v10 := fst v9 in
   let v11 := snd v9 in
   let o12 := next_up QuadS v11 in
   let v13 := get (0, junk) o12 in
   let v14 := fst v13 in
   let v15 := snd v13 in
   let v16 := is_negative v2 in
   let o17 := next_down QuadS v2 in
   let v18 := get (0, junk) o17 in
   let v19 := fst v18 in
   let v20 := snd v18 in
   let o21 := next_up QuadS v20 in
   let v22 := get (0, junk) o21 in
   let v23 := fst v22 in
   let v24 := snd v22 in
   let o25 := next_up QuadS v24 in
   let v26 := get (0, junk) o25 in
   let v27 := fst v26 in
   let v28 := snd v26 in
   all_true [
      negb (is_smallest_normalized QuadS (largest QuadS));
      negb (is_smallest_normalized QuadS (neg (largest QuadS)));
      negb (is_smallest_normalized QuadS (SMALLEST QuadS));
      negb (is_smallest_normalized QuadS (neg (SMALLEST QuadS)));
      returns o0;
      negb (is_smallest_normalized QuadS (get junk o0));
      is_smallest_normalized QuadS v1;
      is_smallest_normalized QuadS v2;
      returns o4;
      OK =? v6;
      Bool.eqb v3 (is_negative v7);
      negb (is_smallest_normalized QuadS v7);
      returns o8;
      OK =? v10;
      is_smallest_normalized QuadS v11;
      Bool.eqb v3 (is_negative v11);
      returns o12;
      OK =? v14;
      negb (is_smallest_normalized QuadS v15);
      Bool.eqb v3 (is_negative v15);
      returns o17;
      OK =? v19;
      Bool.eqb v16 (is_negative v20);
      negb (is_smallest_normalized QuadS v20);
      returns o21;
      OK =? v23;
      is_smallest_normalized QuadS v24;
      Bool.eqb v16 (is_negative v24);
      returns o25;
      OK =? v27;
      negb (is_smallest_normalized QuadS v28);
      Bool.eqb v16 (is_negative v28);
      negb (is_smallest_normalized BFloatS (ZERO BFloatS));
      negb (is_smallest_normalized BFloatS (neg (ZERO BFloatS)));
      negb (is_smallest_normalized BFloatS (INFINITY BFloatS));
      negb (is_smallest_normalized BFloatS (neg (INFINITY BFloatS)));
      negb (is_smallest_normalized BFloatS (qnan BFloatS None));
      negb (is_smallest_normalized BFloatS (snan BFloatS None));
      negb (is_smallest_normalized BFloatS (largest BFloatS));
      negb (is_smallest_normalized BFloatS (neg (largest BFloatS)))]) = true.
Proof. vm_compute. reflexivity. Qed.

Example test_is_smallest_normalized_5 : (
   let o0 := from_bits BFloatS 65535 in
   let v1 := smallest_normalized BFloatS in
   let v2 := neg (smallest_normalized BFloatS) in
   let v3 := is_negative v1 in
   let o4 := next_down BFloatS v1 in
   let v5 := get (0, junk) o4 in
   let v6 := fst v5 in
   let v7 := snd v5 in
   let o8 := next_up BFloatS v7 in
   let v9 := get (0, junk) o8 in
   let v10 := fst v9 in
   let v11 := snd v9 in
   let o12 := next_up BFloatS v11 in
   let v13 := get (0, junk) o12 in
   let v14 := fst v13 in
   let v15 := snd v13 in
   let v16 := is_negative v2 in
   let o17 := next_down BFloatS v2 in
   let v18 := get (0, junk) o17 in
   let v19 := fst v18 in
   let v20 := snd v18 in
   let o21 := next_up BFloatS v20 in
   let v22 := get (0, junk) o21 in
   let v23 := fst v22 in
   let v24 := snd v22 in
   let o25 := next_up BFloatS v24 in
   let v26 := get (0, junk) o25 in
   let v27 := fst v26 in
   let v28 := snd v26 in
   all_true [
      negb (is_smallest_normalized BFloatS (SMALLEST BFloatS));
      negb (is_smallest_normalized BFloatS (neg (SMALLEST BFloatS)));
      returns o0;
      negb (is_smallest_normalized BFloatS (get junk o0));
      is_smallest_normalized BFloatS v1;
      is_smallest_normalized BFloatS v2;
      returns o4;
      OK =? v6;
      Bool.eqb v3 (is_negative v7);
      negb (is_smallest_normalized BFloatS v7);
      returns o8;
      OK =? v10;
      is_smallest_normalized BFloatS v11;
      Bool.eqb v3 (is_negative v11);
      returns o12;
      OK =? v14;
      negb (is_smallest_normalized BFloatS v15);
      Bool.eqb v3 (is_negative v15);
      returns o17;
      OK =? v19;
      Bool.eqb v16 (is_negative v20);
      negb (is_smallest_normalized BFloatS v20);
      returns o21;
      OK =? v23;
      is_smallest_normalized BFloatS v24;
      Bool.eqb v16 (is_negative v24);
      returns o25;
      OK =? v27;
      negb (is_smallest_normalized BFloatS v28);
      Bool.eqb v16 (is_negative v28);
      negb (is_smallest_normalized Float8E5M2S (ZERO Float8E5M2S));
      negb (is_smallest_normalized Float8E5M2S (neg (ZERO Float8E5M2S)));
      negb (is_smallest_normalized Float8E5M2S (INFINITY Float8E5M2S));
      negb (is_smallest_normalized Float8E5M2S (neg (INFINITY Float8E5M2S)));
      negb (is_smallest_normalized Float8E5M2S (qnan Float8E5M2S None));
      negb (is_smallest_normalized Float8E5M2S (snan Float8E5M2S None));
      negb (is_smallest_normalized Float8E5M2S (largest Float8E5M2S));
      negb (is_smallest_normalized Float8E5M2S (neg (largest Float8E5M2S)));
      negb (is_smallest_normalized Float8E5M2S (SMALLEST Float8E5M2S));
      negb (is_smallest_normalized Float8E5M2S (neg (SMALLEST Float8E5M2S)))]) = true.
Proof. vm_compute. reflexivity. Qed.

Example test_is_smallest_normalized_6 : (
   let o0 := from_bits Float8E5M2S 255 in
   let v1 := smallest_normalized Float8E5M2S in
   let v2 := neg (smallest_normalized Float8E5M2S) in
   let v3 := is_negative v1 in
   let o4 := next_down Float8E5M2S v1 in
   let v5 := get (0, junk) o4 in
   let v6 := fst v5 in
   let v7 := snd v5 in
   let o8 := next_up Float8E5M2S v7 in
   let v9 := get (0, junk) o8 in
   let v10 := fst v9 in
   let v11 := snd v9 in
   let o12 := next_up Float8E5M2S v11 in
   let v13 := get (0, junk) o12 in
   let v14 := fst v13 in
   let v15 := snd v13 in
   let v16 := is_negative v2 in
   let o17 := next_down Float8E5M2S v2 in
   let v18 := get (0, junk) o17 in
   let v19 := fst v18 in
   let v20 := snd v18 in
   let o21 := next_up Float8E5M2S v20 in
   let v22 := get (0, junk) o21 in
   let v23 := fst v22 in
   let v24 := snd v22 in
   let o25 := next_up Float8E5M2S v24 in
   let v26 := get (0, junk) o25 in
   let v27 := fst v26 in
   let v28 := snd v26 in
   let o29 := from_bits Float8E4M3FNS 255 in
   all_true [
      returns o0;
      negb (is_smallest_normalized Float8E5M2S (get junk o0));
      is_smallest_normalized Float8E5M2S v1;
      is_smallest_normalized Float8E5M2S v2;
      returns o4;
      OK =? v6;
      Bool.eqb v3 (is_negative v7);
      negb (is_smallest_normalized Float8E5M2S v7);
      returns o8;
      OK =? v10;
      is_smallest_normalized Float8E5M2S v11;
      Bool.eqb v3 (is_negative v11);
      returns o12;
      OK =? v14;
      negb (is_smallest_normalized Float8E5M2S v15);
      Bool.eqb v3 (is_negative v15);
      returns o17;
      OK =? v19;
      Bool.eqb v16 (is_negative v20);
      negb (is_smallest_normalized Float8E5M2S v20);
      returns o21;
      OK =? v23;
      is_smallest_normalized Float8E5M2S v24;
      Bool.eqb v16 (is_negative v24);
      returns o25;
      OK =? v27;
      negb (is_smallest_normalized Float8E5M2S v28);
      Bool.eqb v16 (is_negative v28);
      negb (is_smallest_normalized Float8E4M3FNS (ZERO Float8E4M3FNS));
      negb (is_smallest_normalized Float8E4M3FNS (neg (ZERO Float8E4M3FNS)));
      negb (is_smallest_normalized Float8E4M3FNS (INFINITY Float8E4M3FNS));
      negb (is_smallest_normalized Float8E4M3FNS (neg (INFINITY Float8E4M3FNS)));
      negb (is_smallest_normalized Float8E4M3FNS (qnan Float8E4M3FNS None));
      negb (is_smallest_normalized Float8E4M3FNS (snan Float8E4M3FNS None));
      negb (is_smallest_normalized Float8E4M3FNS (largest Float8E4M3FNS));
      negb (is_smallest_normalized Float8E4M3FNS (neg (largest Float8E4M3FNS)));
      negb (is_smallest_normalized Float8E4M3FNS (SMALLEST Float8E4M3FNS));
      negb (is_smallest_normalized Float8E4M3FNS (neg (SMALLEST Float8E4M3FNS)));
      returns o29;
      negb (is_smallest_normalized Float8E4M3FNS (get junk o29))]) = true.
Proof. vm_compute. reflexivity. Qed.

Example test_is_smallest_normalized_7 : (
   let v0 := smallest_normalized Float8E4M3FNS in
   let v1 := neg (smallest_normalized Float8E4M3FNS) in
   let v2 := is_negative v0 in
   let o3 := next_down Float8E4M3FNS v0 in
   let v4 := get (0, junk) o3 in
   let v5 := fst v4 in
   let v6 := snd v4 in
   let o7 := next_up Float8E4M3FNS v6 in
   let v8 := get (0, junk) o7 in
   let v9 := fst v8 in
   let v10 := snd v8 in
   let o11 := next_up Float8E4M3FNS v10 in
   let v12 := get (0, junk) o11 in
   let v13 := fst v12 in
   let v14 := snd v12 in
   let v15 := is_negative v1 in
   let o16 := next_down Float8E4M3FNS v1 in
   let v17 := get (0, junk) o16 in
   let v18 := fst v17 in
   let v19 := snd v17 in
   let o20 := next_up Float8E4M3FNS v19 in
   let v21 := get (0, junk) o20 in
   let v22 := fst v21 in
   let v23 := snd v21 in
   let o24 := next_up Float8E4M3FNS v23 in
   let v25 := get (0, junk) o24 in
   let v26 := fst v25 in
   let v27 := snd v25 in
   let o28 := from_bits X87DoubleExtendedS 1208925819614629174706175 in
   let v29 := smallest_normalized X87DoubleExtendedS in
   let v30 := neg (smallest_normalized X87DoubleExtendedS) in
   all_true [
      is_smallest_normalized Float8E4M3FNS v0;
      is_smallest_normalized Float8E4M3FNS v1;
      returns o3;
      OK =? v5;
      Bool.eqb v2 (is_negative v6);
      negb (is_smallest_normalized Float8E4M3FNS v6);
      returns o7;
      OK =? v9;
      is_smallest_normalized Float8E4M3FNS v10;
      Bool.eqb v2 (is_negative v10);
      returns o11;
      OK =? v13;
      negb (is_smallest_normalized Float8E4M3FNS v14);
      Bool.eqb v2 (is_negative v14);
      returns o16;
      OK =? v18;
      Bool.eqb v15 (is_negative v19);
      negb (is_smallest_normalized Float8E4M3FNS v19);
      returns o20;
      OK =? v22;
      is_smallest_normalized Float8E4M3FNS v23;
      Bool.eqb v15 (is_negative v23);
      returns o24;
      OK =? v26;
      negb (is_smallest_normalized Float8E4M3FNS v27);
      Bool.eqb v15 (is_negative v27);
      negb (is_smallest_normalized X87DoubleExtendedS (ZERO X87DoubleExtendedS));
      negb (is_smallest_normalized X87DoubleExtendedS (neg (ZERO X87DoubleExtendedS)));
      negb (is_smallest_normalized X87DoubleExtendedS (INFINITY X87DoubleExtendedS));
      negb (is_smallest_normalized X87DoubleExtendedS (neg (INFINITY X87DoubleExtendedS)));
      negb (is_smallest_normalized X87DoubleExtendedS (qnan X87DoubleExtendedS None));
      negb (is_smallest_normalized X87DoubleExtendedS (snan X87DoubleExtendedS None));
      negb (is_smallest_normalized X87DoubleExtendedS (largest X87DoubleExtendedS));
      negb (is_smallest_normalized X87DoubleExtendedS (neg (largest X87DoubleExtendedS)));
      negb (is_smallest_normalized X87DoubleExtendedS (SMALLEST X87DoubleExtendedS));
      negb (is_smallest_normalized X87DoubleExtendedS (neg (SMALLEST X87DoubleExtendedS)));
      returns o28;
      negb (is_smallest_normalized X87DoubleExtendedS (get junk o28));
      is_smallest_normalized X87DoubleExtendedS v29;
      is_smallest_normalized X87DoubleExtendedS v30]) = true.
Proof. vm_compute. reflexivity. Qed.

Example test_is_smallest_normalized_8 : (
   let v0 := smallest_normalized X87DoubleExtendedS in
   let v1 := neg (smallest_normalized X87DoubleExtendedS) in
   let v2 := is_negative v0 in
   let o3 := next_down X87DoubleExtendedS v0 in
   let v4 := get (0, junk) o3 in
   let v5 := fst v4 in
   let v6 := snd v4 in
   let o7 := next_up X87DoubleExtendedS v6 in
   let v8 := get (0, junk) o7 in
   let v9 := fst v8 in
   let v10 := snd v8 in
   let o11 := next_up X87DoubleExtendedS v10 in
   let v12 := get (0, junk) o11 in
   let v13 := fst v12 in
   let v14 := snd v12 in
   let v15 := is_negative v1 in
   let o16 := next_down X87DoubleExtendedS v1 in
   let v17 := get (0, junk) o16 in
   let v18 := fst v17 in
   let v19 := snd v17 in
   let o20 := next_up X87DoubleExtendedS v19 in
   let v21 := get (0, junk) o20 in
   let v22 := fst v21 in
   let v23 := snd v21 in
   let o24 := next_up X87DoubleExtendedS v23 in
   let v25 := get (0, junk) o24 in
   let v26 := fst v25 in
   let v27 := snd v25 in
   all_true [
      returns o3;
      OK =? v5;
      Bool.eqb v2 (is_negative v6);
      negb (is_smallest_normalized X87DoubleExtendedS v6);
      returns o7;
      OK =? v9;
      is_smallest_normalized X87DoubleExtendedS v10;
      Bool.eqb v2 (is_negative v10);
      returns o11;
      OK =? v13;
      negb (is_smallest_normalized X87DoubleExtendedS v14);
      Bool.eqb v2 (is_negative v14);
      returns o16;
      OK =? v18;
      Bool.eqb v15 (is_negative v19);
      negb (is_smallest_normalized X87DoubleExtendedS v19);
      returns o20;
      OK =? v22;
      is_smallest_normalized X87DoubleExtendedS v23;
      Bool.eqb v15 (is_negative v23);
      returns o24;
      OK =? v26;
      negb (is_smallest_normalized X87DoubleExtendedS v27);
      Bool.eqb v15 (is_negative v27)]) = true.
Proof. vm_compute. reflexivity. Qed.

(** ieee.rs:804 [decimal_strings_without_null_terminators] *)
Example test_decimal_strings_without_null_terminators : (
   let o0 := unwrap_parse (from_str DoubleS (bytes "0.0")) in
   let v1 := get junk o0 in
   let o2 := through_bits DoubleS v1 in
   let o3 := from_bits DoubleS 0 in
   let o4 := eq_f (get junk o2) (get junk o3) in
   let o5 := unwrap_parse (from_str DoubleS (bytes "0.0")) in
   let v6 := get junk o5 in
   let o7 := through_bits DoubleS v6 in
   let o8 := from_bits DoubleS 0 in
   let o9 := eq_f (get junk o7) (get junk o8) in
   let o10 := unwrap_parse (from_str DoubleS (bytes "0.0")) in
   let v11 := get junk o10 in
   let o12 := through_bits DoubleS v11 in
   let o13 := from_bits DoubleS 0 in
   let o14 := eq_f (get junk o12) (get junk o13) in
   let o15 := unwrap_parse (from_str DoubleS (bytes "0.09")) in
   let v16 := get junk o15 in
   let o17 := through_bits DoubleS v16 in
   let o18 := from_bits DoubleS 4591149604126578442 in
   let o19 := eq_f (get junk o17) (get junk o18) in
   let o20 := unwrap_parse (from_str DoubleS (bytes "0.00e+3")) in
   let v21 := get junk o20 in
   let o22 := through_bits DoubleS v21 in
   let o23 := from_bits DoubleS 0 in
   let o24 := eq_f (get junk o22) (get junk o23) in
   let o25 := unwrap_parse (from_str DoubleS (bytes "0e+3")) in
   let v26 := get junk o25 in
   let o27 := through_bits DoubleS v26 in
   let o28 := from_bits DoubleS 0 in
   let o29 := eq_f (get junk o27) (get junk o28) in
   all_true [
      returns o0;
      returns o2;
      returns o3;
      returns o4;
      get false o4;
      returns o5;
      returns o7;
      returns o8;
      returns o9;
      get false o9;
      returns o10;
      returns o12;
      returns o13;
      returns o14;
      get false o14;
      returns o15;
      returns o17;
      returns o18;
      returns o19;
      get false o19;
      returns o20;
      returns o22;
      returns o23;
      returns o24;
      get false o24;
      returns o25;
      returns o27;
      returns o28;
      returns o29;
      get false o29]) = true.
Proof. vm_compute. reflexivity. Qed.

(** ieee.rs:816 [from_zero_decimal_string] *)
Example test_from_zero_decimal_string_1 : (
   let o0 := unwrap_parse (from_str DoubleS (bytes "0")) in
   let v1 := get junk o0 in
   let o2 := through_bits DoubleS v1 in
   let o3 := from_bits DoubleS 0 in
   let o4 := eq_f (get junk o2) (get junk o3) in
   let o5 := unwrap_parse (from_str DoubleS (bytes "+0")) in
   let v6 := get junk o5 in
   let o7 := through_bits DoubleS v6 in
   let o8 := from_bits DoubleS 0 in
   let o9 := eq_f (get junk o7) (get junk o8) in
   let o10 := unwrap_parse (from_str DoubleS (bytes "-0")) in
   let v11 := get junk o10 in
   let o12 := through_bits DoubleS v11 in
   let o13 := from_bits DoubleS 9223372036854775808 in
   let o14 := eq_f (get junk o12) (get junk o13) in
   let o15 := unwrap_parse (from_str DoubleS (bytes "0.")) in
   let v16 := get junk o15 in
   let o17 := through_bits DoubleS v16 in
   let o18 := from_bits DoubleS 0 in
   let o19 := eq_f (get junk o17) (get junk o18) in
   let o20 := unwrap_parse (from_str DoubleS (bytes "+0.")) in
   let v21 := get junk o20 in
   let o22 := through_bits DoubleS v21 in
   let o23 := from_bits DoubleS 0 in
   let o24 := eq_f (get junk o22) (get junk o23) in
   let o25 := unwrap_parse (from_str DoubleS (bytes "-0.")) in
   let v26 := get junk o25 in
   let o27 := through_bits DoubleS v26 in
   let o28 := from_bits DoubleS 9223372036854775808 in
   let o29 := eq_f (get junk o27) (get junk o28) in
   let o30 := unwrap_parse (from_str DoubleS (bytes ".0")) in
   let v31 := get junk o30 in
   let o32 := through_bits DoubleS v31 in
   let o33 := from_bits DoubleS 0 in
   let o34 := eq_f (get junk o32) (get junk o33) in
   let o35 := unwrap_parse (from_str DoubleS (bytes "+.0")) in
   let v36 := get junk o35 in
   let o37 := through_bits DoubleS v36 in
   let o38 := from_bits DoubleS 0 in
   let o39 := eq_f (get junk o37) (get junk o38) in
   all_true [
      returns o0;
      returns o2;
      returns o3;
      returns o4;
      get false o4;
      returns o5;
      returns o7;
      returns o8;
      returns o9;
      get false o9;
      returns o10;
      returns o12;
      returns o13;
      returns o14;
      get false o14;
      returns o15;
      returns o17;
      returns o18;
      returns o19;
      get false o19;
      returns o20;
      returns o22;
      returns o23;
      returns o24;
      get false o24;
      returns o25;
      returns o27;
      returns o28;
      returns o29;
      get false o29;
      returns o30;
      returns o32;
      returns o33;
      returns o34;
      get false o34;
      returns o35;
      returns o37;
      returns o38;
      returns o39;
      get false o39]) = true.
Proof. vm_compute. reflexivity. Qed.

Example test_from_zero_decimal_string_2 : (
   let o0 := unwrap_parse (from_str DoubleS (bytes "-.0")) in
   let v1 := get junk o0 in
   let o2 := through_bits DoubleS v1 in
   let o3 := from_bits DoubleS 9223372036854775808 in
   let o4 := eq_f (get junk o2) (get junk o3) in
   let o5 := unwrap_parse (from_str DoubleS (bytes "0.0")) in
   let v6 := get junk o5 in
   let o7 := through_bits DoubleS v6 in
   let o8 := from_bits DoubleS 0 in
   let o9 := eq_f (get junk o7) (get junk o8) in
   let o10 := unwrap_parse (from_str DoubleS (bytes "+0.0")) in
   let v11 := get junk o10 in
   let o12 := through_bits DoubleS v11 in
   let o13 := from_bits DoubleS 0 in
   let o14 := eq_f (get junk o12) (get junk o13) in
   let o15 := unwrap_parse (from_str DoubleS (bytes "-0.0")) in
   let v16 := get junk o15 in
   let o17 := through_bits DoubleS v16 in
   let o18 := from_bits DoubleS 9223372036854775808 in
   let o19 := eq_f (get junk o17) (get junk o18) in
   let o20 := unwrap_parse (from_str DoubleS (bytes "00000.")) in
   let v21 := get junk o20 in
   let o22 := through_bits DoubleS v21 in
   let o23 := from_bits DoubleS 0 in
   let o24 := eq_f (get junk o22) (get junk o23) in
   let o25 := unwrap_parse (from_str DoubleS (bytes "+00000.")) in
   let v26 := get junk o25 in
   let o27 := through_bits DoubleS v26 in
   let o28 := from_bits DoubleS 0 in
   let o29 := eq_f (get junk o27) (get junk o28) in
   let o30 := unwrap_parse (from_str DoubleS (bytes "-00000.")) in
   let v31 := get junk o30 in
   let o32 := through_bits DoubleS v31 in
   let o33 := from_bits DoubleS 9223372036854775808 in
   let o34 := eq_f (get junk o32) (get junk o33) in
   let o35 := unwrap_parse (from_str DoubleS (bytes ".00000")) in
   let v36 := get junk o35 in
   let o37 := through_bits DoubleS v36 in
   let o38 := from_bits DoubleS 0 in
   let o39 := eq_f (get junk o37) (get junk o38) in
   all_true [
      returns o0;
      returns o2;
      returns o3;
      returns o4;
      get false o4;
      returns o5;
      returns o7;
      returns o8;
      returns o9;
      get false o9;
      returns o10;
      returns o12;
      returns o13;
      returns o14;
      get false o14;
      returns o15;
      returns o17;
      returns o18;
      returns o19;
      get false o19;
      returns o20;
      returns o22;
      returns o23;
      returns o24;
      get false o24;
      returns o25;
      returns o27;
      returns o28;
      returns o29;
      get false o29;
      returns o30;
      returns o32;
      returns o33;
      returns o34;
      get false o34;
      returns o35;
      returns o37;
      returns o38;
      returns o39;
      get false o39]) = true.
Proof. vm_compute. reflexivity. Qed.

Example test_from_zero_decimal_string_3 : (
   let o0 := unwrap_parse (from_str DoubleS (bytes "+.00000")) in
   let v1 := get junk o0 in
   let o2 := through_bits DoubleS v1 in
   let o3 := from_bits DoubleS 0 in
   let o4 := eq_f (get junk o2) (get junk o3) in
   let o5 := unwrap_parse (from_str DoubleS (bytes "-.00000")) in
   let v6 := get junk o5 in
   let o7 := through_bits DoubleS v6 in
   let o8 := from_bits DoubleS 9223372036854775808 in
   let o9 := eq_f (get junk o7) (get junk o8) in
   let o10 := unwrap_parse (from_str DoubleS (bytes "0000.00000")) in
   let v11 := get junk o10 in
   let o12 := through_bits DoubleS v11 in
   let o13 := from_bits DoubleS 0 in
   let o14 := eq_f (get junk o12) (get junk o13) in
   let o15 := unwrap_parse (from_str DoubleS (bytes "+0000.00000")) in
   let v16 := get junk o15 in
   let o17 := through_bits DoubleS v16 in
   let o18 := from_bits DoubleS 0 in
   let o19 := eq_f (get junk o17) (get junk o18) in
   let o20 := unwrap_parse (from_str DoubleS (bytes "-0000.00000")) in
   let v21 := get junk o20 in
   let o22 := through_bits DoubleS v21 in
   let o23 := from_bits DoubleS 9223372036854775808 in
   let o24 := eq_f (get junk o22) (get junk o23) in
   all_true [
      returns o0;
      returns o2;
      returns o3;
      returns o4;
      get false o4;
      returns o5;
      returns o7;
      returns o8;
      returns o9;
      get false o9;
      returns o10;
      returns o12;
      returns o13;
      returns o14;
      get false o14;
      returns o15;
      returns o17;
      returns o18;
      returns o19;
      get false o19;
      returns o20;
      returns o22;
      returns o23;
      returns o24;
      get false o24]) = true.
Proof. vm_compute. reflexivity. Qed.

(** ieee.rs:847 [from_zero_decimal_single_exponent_string] *)
Example test_from_zero_decimal_single_exponent_string_1 : (
   let o0 := unwrap_parse (from_str DoubleS (bytes "0e1")) in
   let v1 := get junk o0 in
   let o2 := through_bits DoubleS v1 in
   let o3 := from_bits DoubleS 0 in
   let o4 := eq_f (get junk o2) (get junk o3) in
   let o5 := unwrap_parse (from_str DoubleS (bytes "+0e1")) in
   let v6 := get junk o5 in
   let o7 := through_bits DoubleS v6 in
   let o8 := from_bits DoubleS 0 in
   let o9 := eq_f (get junk o7) (get junk o8) in
   let o10 := unwrap_parse (from_str DoubleS (bytes "-0e1")) in
   let v11 := get junk o10 in
   let o12 := through_bits DoubleS v11 in
   let o13 := from_bits DoubleS 9223372036854775808 in
   let o14 := eq_f (get junk o12) (get junk o13) in
   let o15 := unwrap_parse (from_str DoubleS (bytes "0e+1")) in
   let v16 := get junk o15 in
   let o17 := through_bits DoubleS v16 in
   let o18 := from_bits DoubleS 0 in
   let o19 := eq_f (get junk o17) (get junk o18) in
   let o20 := unwrap_parse (from_str DoubleS (bytes "+0e+1")) in
   let v21 := get junk o20 in
   let o22 := through_bits DoubleS v21 in
   let o23 := from_bits DoubleS 0 in
   let o24 := eq_f (get junk o22) (get junk o23) in
   let o25 := unwrap_parse (from_str DoubleS (bytes "-0e+1")) in
   let v26 := get junk o25 in
   let o27 := through_bits DoubleS v26 in
   let o28 := from_bits DoubleS 9223372036854775808 in
   let o29 := eq_f (get junk o27) (get junk o28) in
   let o30 := unwrap_parse (from_str DoubleS (bytes "0e-1")) in
   let v31 := get junk o30 in
   let o32 := through_bits DoubleS v31 in
   let o33 := from_bits DoubleS 0 in
   let o34 := eq_f (get junk o32) (get junk o33) in
   let o35 := unwrap_parse (from_str DoubleS (bytes "+0e-1")) in
   let v36 := get junk o35 in
   let o37 := through_bits DoubleS v36 in
   let o38 := from_bits DoubleS 0 in
   let o39 := eq_f (get junk o37) (get junk o38) in
   all_true [
      returns o0;
      returns o2;
      returns o3;
      returns o4;
      get false o4;
      returns o5;
      returns o7;
      returns o8;
      returns o9;
      get false o9;
      returns o10;
      returns o12;
      returns o13;
      returns o14;
      get false o14;
      returns o15;
      returns o17;
      returns o18;
      returns o19;
      get false o19;
      returns o20;
      returns o22;
      returns o23;
      returns o24;
      get false o24;
      returns o25;
      returns o27;
      returns o28;
      returns o29;
      get false o29;
      returns o30;
      returns o32;
      returns o33;
      returns o34;
      get false o34;
      returns o35;
      returns o37;
      returns o38;
      returns o39;
      get false o39]) = true.
Proof. vm_compute. reflexivity. Qed.

Example test_from_zero_decimal_single_exponent_string_2 : (
   let o0 := unwrap_parse (from_str DoubleS (bytes "-0e-1")) in
   let v1 := get junk o0 in
   let o2 := through_bits DoubleS v1 in
   let o3 := from_bits DoubleS 9223372036854775808 in
   let o4 := eq_f (get junk o2) (get junk o3) in
   let o5 := unwrap_parse (from_str DoubleS (bytes "0.e1")) in
   let v6 := get junk o5 in
   let o7 := through_bits DoubleS v6 in
   let o8 := from_bits DoubleS 0 in
   let o9 := eq_f (get junk o7) (get junk o8) in
   let o10 := unwrap_parse (from_str DoubleS (bytes "+0.e1")) in
   let v11 := get junk o10 in
   let o12 := through_bits DoubleS v11 in
   let o13 := from_bits DoubleS 0 in
   let o14 := eq_f (get junk o12) (get junk o13) in
   let o15 := unwrap_parse (from_str DoubleS (bytes "-0.e1")) in
   let v16 := get junk o15 in
   let o17 := through_bits DoubleS v16 in
   let o18 := from_bits DoubleS 9223372036854775808 in
   let o19 := eq_f (get junk o17) (get junk o18) in
   let o20 := unwrap_parse (from_str DoubleS (bytes "0.e+1")) in
   let v21 := get junk o20 in
   let o22 := through_bits DoubleS v21 in
   let o23 := from_bits DoubleS 0 in
   let o24 := eq_f (get junk o22) (get junk o23) in
   let o25 := unwrap_parse (from_str DoubleS (bytes "+0.e+1")) in
   let v26 := get junk o25 in
   let o27 := through_bits DoubleS v26 in
   let o28 := from_bits DoubleS 0 in
   let o29 := eq_f (get junk o27) (get junk o28) in
   let o30 := unwrap_parse (from_str DoubleS (bytes "-0.e+1")) in
   let v31 := get junk o30 in
   let o32 := through_bits DoubleS v31 in
   let o33 := from_bits DoubleS 9223372036854775808 in
   let o34 := eq_f (get junk o32) (get junk o33) in
   let o35 := unwrap_parse (from_str DoubleS (bytes "0.e-1")) in
   let v36 := get junk o35 in
   let o37 := through_bits DoubleS v36 in
   let o38 := from_bits DoubleS 0 in
   let o39 := eq_f (get junk o37) (get junk o38) in
   all_true [
      returns o0;
      returns o2;
      returns o3;
      returns o4;
      get false o4;
      returns o5;
      returns o7;
      returns o8;
      returns o9;
      get false o9;
      returns o10;
      returns o12;
      returns o13;
      returns o14;
      get false o14;
      returns o15;
      returns o17;
      returns o18;
      returns o19;
      get false o19;
      returns o20;
      returns o22;
      returns o23;
      returns o24;
      get false o24;
      returns o25;
      returns o27;
      returns o28;
      returns o29;
      get false o29;
      returns o30;
      returns o32;
      returns o33;
      returns o34;
      get false o34;
      returns o35;
      returns o37;
      returns o38;
      returns o39;
      get false o39]) = true.
Proof. vm_compute. reflexivity. Qed.

Example test_from_zero_decimal_single_exponent_string_3 : (
   let o0 := unwrap_parse (from_str DoubleS (bytes "+0.e-1")) in
   let v1 := get junk o0 in
   let o2 := through_bits DoubleS v1 in
   let o3 := from_bits DoubleS 0 in
   let o4 := eq_f (get junk o2) (get junk o3) in
   let o5 := unwrap_parse (from_str DoubleS (bytes "-0.e-1")) in
   let v6 := get junk o5 in
   let o7 := through_bits DoubleS v6 in
   let o8 := from_bits DoubleS 9223372036854775808 in
   let o9 := eq_f (get junk o7) (get junk o8) in
   let o10 := unwrap_parse (from_str DoubleS (bytes ".0e1")) in
   let v11 := get junk o10 in
   let o12 := through_bits DoubleS v11 in
   let o13 := from_bits DoubleS 0 in
   let o14 := eq_f (get junk o12) (get junk o13) in
   let o15 := unwrap_parse (from_str DoubleS (bytes "+.0e1")) in
   let v16 := get junk o15 in
   let o17 := through_bits DoubleS v16 in
   let o18 := from_bits DoubleS 0 in
   let o19 := eq_f (get junk o17) (get junk o18) in
   let o20 := unwrap_parse (from_str DoubleS (bytes "-.0e1")) in
   let v21 := get junk o20 in
   let o22 := through_bits DoubleS v21 in
   let o23 := from_bits DoubleS 9223372036854775808 in
   let o24 := eq_f (get junk o22) (get junk o23) in
   let o25 := unwrap_parse (from_str DoubleS (bytes ".0e+1")) in
   let v26 := get junk o25 in
   let o27 := through_bits DoubleS v26 in
   let o28 := from_bits DoubleS 0 in
   let o29 := eq_f (get junk o27) (get junk o28) in
   let o30 := unwrap_parse (from_str DoubleS (bytes "+.0e+1")) in
   let v31 := get junk o30 in
   let o32 := through_bits DoubleS v31 in
   let o33 := from_bits DoubleS 0 in
   let o34 := eq_f (get junk o32) (get junk o33) in
   let o35 := unwrap_parse (from_str DoubleS (bytes "-.0e+1")) in
   let v36 := get junk o35 in
   let o37 := through_bits DoubleS v36 in
   let o38 := from_bits DoubleS 9223372036854775808 in
   let o39 := eq_f (get junk o37) (get junk o38) in
   all_true [
      returns o0;
      returns o2;
      returns o3;
      returns o4;
      get false o4;
      returns o5;
      returns o7;
      returns o8;
      returns o9;
      get false o9;
      returns o10;
      returns o12;
      returns o13;
      returns o14;
      get false o14;
      returns o15;
      returns o17;
      returns o18;
      returns o19;
      get false o19;
      returns o20;
      returns o22;
      returns o23;
      returns o24;
      get false o24;
      returns o25;
      returns o27;
      returns o28;
      returns o29;
      get false o29;
      returns o30;
      returns o32;
      returns o33;
      returns o34;
      get false o34;
      returns o35;
      returns o37;
      returns o38;
      returns o39;
      get false o39]) = true.
Proof. vm_compute. reflexivity. Qed.

Example test_from_zero_decimal_single_exponent_string_4 : (
   let o0 := unwrap_parse (from_str DoubleS (bytes ".0e-1")) in
   let v1 := get junk o0 in
   let o2 := through_bits DoubleS v1 in
   let o3 := from_bits DoubleS 0 in
   let o4 := eq_f (get junk o2) (get junk o3) in
   let o5 := unwrap_parse (from_str DoubleS (bytes "+.0e-1")) in
   let v6 := get junk o5 in
   let o7 := through_bits DoubleS v6 in
   let o8 := from_bits DoubleS 0 in
   let o9 := eq_f (get junk o7) (get junk o8) in
   let o10 := unwrap_parse (from_str DoubleS (bytes "-.0e-1")) in
   let v11 := get junk o10 in
   let o12 := through_bits DoubleS v11 in
   let o13 := from_bits DoubleS 9223372036854775808 in
   let o14 := eq_f (get junk o12) (get junk o13) in
   let o15 := unwrap_parse (from_str DoubleS (bytes "0.0e1")) in
   let v16 := get junk o15 in
   let o17 := through_bits DoubleS v16 in
   let o18 := from_bits DoubleS 0 in
   let o19 := eq_f (get junk o17) (get junk o18) in
   let o20 := unwrap_parse (from_str DoubleS (bytes "+0.0e1")) in
   let v21 := get junk o20 in
   let o22 := through_bits DoubleS v21 in
   let o23 := from_bits DoubleS 0 in
   let o24 := eq_f (get junk o22) (get junk o23) in
   let o25 := unwrap_parse (from_str DoubleS (bytes "-0.0e1")) in
   let v26 := get junk o25 in
   let o27 := through_bits DoubleS v26 in
   let o28 := from_bits DoubleS 9223372036854775808 in
   let o29 := eq_f (get junk o27) (get junk o28) in
   let o30 := unwrap_parse (from_str DoubleS (bytes "0.0e+1")) in
   let v31 := get junk o30 in
   let o32 := through_bits DoubleS v31 in
   let o33 := from_bits DoubleS 0 in
   let o34 := eq_f (get junk o32) (get junk o33) in
   let o35 := unwrap_parse (from_str DoubleS (bytes "+0.0e+1")) in
   let v36 := get junk o35 in
   let o37 := through_bits DoubleS v36 in
   let o38 := from_bits DoubleS 0 in
   let o39 := eq_f (get junk o37) (get junk o38) in
   all_true [
      returns o0;
      returns o2;
      returns o3;
      returns o4;
      get false o4;
      returns o5;
      returns o7;
      returns o8;
      returns o9;
      get false o9;
      returns o10;
      returns o12;
      returns o13;
      returns o14;
      get false o14;
      returns o15;
      returns o17;
      returns o18;
      returns o19;
      get false o19;
      returns o20;
      returns o22;
      returns o23;
      returns o24;
      get false o24;
      returns o25;
      returns o27;
      returns o28;
      returns o29;
      get false o29;
      returns o30;
      returns o32;
      returns o33;
      returns o34;
      get false o34;
      returns o35;
      returns o37;
      returns o38;
      returns o39;
      get false o39]) = true.
Proof. vm_compute. reflexivity. Qed.

Example test_from_zero_decimal_single_exponent_string_5 : (
   let o0 := unwrap_parse (from_str DoubleS (bytes "-0.0e+1")) in
   let v1 := get junk o0 in
   let o2 := through_bits DoubleS v1 in
   let o3 := from_bits DoubleS 9223372036854775808 in
   let o4 := eq_f (get junk o2) (get junk o3) in
   let o5 := unwrap_parse (from_str DoubleS (bytes "0.0e-1")) in
   let v6 := get junk o5 in
   let o7 := through_bits DoubleS v6 in
   let o8 := from_bits DoubleS 0 in
   let o9 := eq_f (get junk o7) (get junk o8) in
   let o10 := unwrap_parse (from_str DoubleS (bytes "+0.0e-1")) in
   let v11 := get junk o10 in
   let o12 := through_bits DoubleS v11 in
   let o13 := from_bits DoubleS 0 in
   let o14 := eq_f (get junk o12) (get junk o13) in
   let o15 := unwrap_parse (from_str DoubleS (bytes "-0.0e-1")) in
   let v16 := get junk o15 in
   let o17 := through_bits DoubleS v16 in
   let o18 := from_bits DoubleS 9223372036854775808 in
   let o19 := eq_f (get junk o17) (get junk o18) in
   let o20 := unwrap_parse (from_str DoubleS (bytes "000.0000e1")) in
   let v21 := get junk o20 in
   let o22 := through_bits DoubleS v21 in
   let o23 := from_bits DoubleS 0 in
   let o24 := eq_f (get junk o22) (get junk o23) in
   let o25 := unwrap_parse (from_str DoubleS (bytes "+000.0000e+1")) in
   let v26 := get junk o25 in
   let o27 := through_bits DoubleS v26 in
   let o28 := from_bits DoubleS 0 in
   let o29 := eq_f (get junk o27) (get junk o28) in
   let o30 := unwrap_parse (from_str DoubleS (bytes "-000.0000e+1")) in
   let v31 := get junk o30 in
   let o32 := through_bits DoubleS v31 in
   let o33 := from_bits DoubleS 9223372036854775808 in
   let o34 := eq_f (get junk o32) (get junk o33) in
   all_true [
      returns o0;
      returns o2;
      returns o3;
      returns o4;
      get false o4;
      returns o5;
      returns o7;
      returns o8;
      returns o9;
      get false o9;
      returns o10;
      returns o12;
      returns o13;
      returns o14;
      get false o14;
      returns o15;
      returns o17;
      returns o18;
      returns o19;
      get false o19;
      returns o20;
      returns o22;
      returns o23;
      returns o24;
      get false o24;
      returns o25;
      returns o27;
      returns o28;
      returns o29;
      get false o29;
      returns o30;
      returns o32;
      returns o33;
      returns o34;
      get false o34]) = true.
Proof. vm_compute. reflexivity. Qed.

(** ieee.rs:902 [from_zero_decimal_large_exponent_string] *)
Example test_from_zero_decimal_large_exponent_string_1 : (
   let o0 := unwrap_parse (from_str DoubleS (bytes "0e1234")) in
   let v1 := get junk o0 in
   let o2 := through_bits DoubleS v1 in
   let o3 := from_bits DoubleS 0 in
   let o4 := eq_f (get junk o2) (get junk o3) in
   let o5 := unwrap_parse (from_str DoubleS (bytes "+0e1234")) in
   let v6 := get junk o5 in
   let o7 := through_bits DoubleS v6 in
   let o8 := from_bits DoubleS 0 in
   let o9 := eq_f (get junk o7) (get junk o8) in
   let o10 := unwrap_parse (from_str DoubleS (bytes "-0e1234")) in
   let v11 := get junk o10 in
   let o12 := through_bits DoubleS v11 in
   let o13 := from_bits DoubleS 9223372036854775808 in
   let o14 := eq_f (get junk o12) (get junk o13) in
   let o15 := unwrap_parse (from_str DoubleS (bytes "0e+1234")) in
   let v16 := get junk o15 in
   let o17 := through_bits DoubleS v16 in
   let o18 := from_bits DoubleS 0 in
   let o19 := eq_f (get junk o17) (get junk o18) in
   let o20 := unwrap_parse (from_str DoubleS (bytes "+0e+1234")) in
   let v21 := get junk o20 in
   let o22 := through_bits DoubleS v21 in
   let o23 := from_bits DoubleS 0 in
   let o24 := eq_f (get junk o22) (get junk o23) in
   let o25 := unwrap_parse (from_str DoubleS (bytes "-0e+1234")) in
   let v26 := get junk o25 in
   let o27 := through_bits DoubleS v26 in
   let o28 := from_bits DoubleS 9223372036854775808 in
   let o29 := eq_f (get junk o27) (get junk o28) in
   let o30 := unwrap_parse (from_str DoubleS (bytes "0e-1234")) in
   let v31 := get junk o30 in
   let o32 := through_bits DoubleS v31 in
   let o33 := from_bits DoubleS 0 in
   let o34 := eq_f (get junk o32) (get junk o33) in
   let o35 := unwrap_parse (from_str DoubleS (bytes "+0e-1234")) in
   let v36 := get junk o35 in
   let o37 := through_bits DoubleS v36 in
   let o38 := from_bits DoubleS 0 in
   let o39 := eq_f (get junk o37) (get junk o38) in
   all_true [
      returns o0;
      returns o2;
      returns o3;
      returns o4;
      get false o4;
      returns o5;
      returns o7;
      returns o8;
      returns o9;
      get false o9;
      returns o10;
      returns o12;
      returns o13;
      returns o14;
      get false o14;
      returns o15;
      returns o17;
      returns o18;
      returns o19;
      get false o19;
      returns o20;
      returns o22;
      returns o23;
      returns o24;
      get false o24;
      returns o25;
      returns o27;
      returns o28;
      returns o29;
      get false o29;
      returns o30;
      returns o32;
      returns o33;
      returns o34;
      get false o34;
      returns o35;
      returns o37;
      returns o38;
      returns o39;
      get false o39]) = true.
Proof. vm_compute. reflexivity. Qed.

Example test_from_zero_decimal_large_exponent_string_2 : (
   let o0 := unwrap_parse (from_str DoubleS (bytes "-0e-1234")) in
   let v1 := get junk o0 in
   let o2 := through_bits DoubleS v1 in
   let o3 := from_bits DoubleS 9223372036854775808 in
   let o4 := eq_f (get junk o2) (get junk o3) in
   let o5 := unwrap_parse (from_str DoubleS (bytes "000.0000e1234")) in
   let v6 := get junk o5 in
   let o7 := through_bits DoubleS v6 in
   let o8 := from_bits DoubleS 0 in
   let o9 := eq_f (get junk o7) (get junk o8) in
   let o10 := unwrap_parse (from_str DoubleS (bytes "000.0000e-1234")) in
   let v11 := get junk o10 in
   let o12 := through_bits DoubleS v11 in
   let o13 := from_bits DoubleS 0 in
   let o14 := eq_f (get junk o12) (get junk o13) in
   all_true [
      returns o0;
      returns o2;
      returns o3;
      returns o4;
      get false o4;
      returns o5;
      returns o7;
      returns o8;
      returns o9;
      get false o9;
      returns o10;
      returns o12;
      returns o13;
      returns o14;
      get false o14]) = true.
Proof. vm_compute. reflexivity. Qed.

(** ieee.rs:920 [from_zero_hexadecimal_string] *)
Example test_from_zero_hexadecimal_string_1 : (
   let o0 := unwrap_parse (from_str DoubleS (bytes "0x0p1")) in
   let v1 := get junk o0 in
   let o2 := through_bits DoubleS v1 in
   let o3 := from_bits DoubleS 0 in
   let o4 := eq_f (get junk o2) (get junk o3) in
   let o5 := unwrap_parse (from_str DoubleS (bytes "+0x0p1")) in
   let v6 := get junk o5 in
   let o7 := through_bits DoubleS v6 in
   let o8 := from_bits DoubleS 0 in
   let o9 := eq_f (get junk o7) (get junk o8) in
   let o10 := unwrap_parse (from_str DoubleS (bytes "-0x0p1")) in
   let v11 := get junk o10 in
   let o12 := through_bits DoubleS v11 in
   let o13 := from_bits DoubleS 9223372036854775808 in
   let o14 := eq_f (get junk o12) (get junk o13) in
   let o15 := unwrap_parse (from_str DoubleS (bytes "0x0p+1")) in
   let v16 := get junk o15 in
   let o17 := through_bits DoubleS v16 in
   let o18 := from_bits DoubleS 0 in
   let o19 := eq_f (get junk o17) (get junk o18) in
   let o20 := unwrap_parse (from_str DoubleS (bytes "+0x0p+1")) in
   let v21 := get junk o20 in
   let o22 := through_bits DoubleS v21 in
   let o23 := from_bits DoubleS 0 in
   let o24 := eq_f (get junk o22) (get junk o23) in
   let o25 := unwrap_parse (from_str DoubleS (bytes "-0x0p+1")) in
   let v26 := get junk o25 in
   let o27 := through_bits DoubleS v26 in
   let o28 := from_bits DoubleS 9223372036854775808 in
   let o29 := eq_f (get junk o27) (get junk o28) in
   let o30 := unwrap_parse (from_str DoubleS (bytes "0x0p-1")) in
   let v31 := get junk o30 in
   let o32 := through_bits DoubleS v31 in
   let o33 := from_bits DoubleS 0 in
   let o34 := eq_f (get junk o32) (get junk o33) in
   let o35 := unwrap_parse (from_str DoubleS (bytes "+0x0p-1")) in
   let v36 := get junk o35 in
   let o37 := through_bits DoubleS v36 in
   let o38 := from_bits DoubleS 0 in
   let o39 := eq_f (get junk o37) (get junk o38) in
   all_true [
      returns o0;
      returns o2;
      returns o3;
      returns o4;
      get false o4;
      returns o5;
      returns o7;
      returns o8;
      returns o9;
      get false o9;
      returns o10;
      returns o12;
      returns o13;
      returns o14;
      get false o14;
      returns o15;
      returns o17;
      returns o18;
      returns o19;
      get false o19;
      returns o20;
      returns o22;
      returns o23;
      returns o24;
      get false o24;
      returns o25;
      returns o27;
      returns o28;
      returns o29;
      get false o29;
      returns o30;
      returns o32;
      returns o33;
      returns o34;
      get false o34;
      returns o35;
      returns o37;
      returns o38;
      returns o39;
      get false o39]) = true.
Proof. vm_compute. reflexivity. Qed.

Example test_from_zero_hexadecimal_string_2 : (
   let o0 := unwrap_parse (from_str DoubleS (bytes "-0x0p-1")) in
   let v1 := get junk o0 in
   let o2 := through_bits DoubleS v1 in
   let o3 := from_bits DoubleS 9223372036854775808 in
   let o4 := eq_f (get junk o2) (get junk o3) in
   let o5 := unwrap_parse (from_str DoubleS (bytes "0x0.p1")) in
   let v6 := get junk o5 in
   let o7 := through_bits DoubleS v6 in
   let o8 := from_bits DoubleS 0 in
   let o9 := eq_f (get junk o7) (get junk o8) in
   let o10 := unwrap_parse (from_str DoubleS (bytes "+0x0.p1")) in
   let v11 := get junk o10 in
   let o12 := through_bits DoubleS v11 in
   let o13 := from_bits DoubleS 0 in
   let o14 := eq_f (get junk o12) (get junk o13) in
   let o15 := unwrap_parse (from_str DoubleS (bytes "-0x0.p1")) in
   let v16 := get junk o15 in
   let o17 := through_bits DoubleS v16 in
   let o18 := from_bits DoubleS 9223372036854775808 in
   let o19 := eq_f (get junk o17) (get junk o18) in
   let o20 := unwrap_parse (from_str DoubleS (bytes "0x0.p+1")) in
   let v21 := get junk o20 in
   let o22 := through_bits DoubleS v21 in
   let o23 := from_bits DoubleS 0 in
   let o24 := eq_f (get junk o22) (get junk o23) in
   let o25 := unwrap_parse (from_str DoubleS (bytes "+0x0.p+1")) in
   let v26 := get junk o25 in
   let o27 := through_bits DoubleS v26 in
   let o28 := from_bits DoubleS 0 in
   let o29 := eq_f (get junk o27) (get junk o28) in
   let o30 := unwrap_parse (from_str DoubleS (bytes "-0x0.p+1")) in
   let v31 := get junk o30 in
   let o32 := through_bits DoubleS v31 in
   let o33 := from_bits DoubleS 9223372036854775808 in
   let o34 := eq_f (get junk o32) (get junk o33) in
   let o35 := unwrap_parse (from_str DoubleS (bytes "0x0.p-1")) in
   let v36 := get junk o35 in
   let o37 := through_bits DoubleS v36 in
   let o38 := from_bits DoubleS 0 in
   let o39 := eq_f (get junk o37) (get junk o38) in
   all_true [
      returns o0;
      returns o2;
      returns o3;
      returns o4;
      get false o4;
      returns o5;
      returns o7;
      returns o8;
      returns o9;
      get false o9;
      returns o10;
      returns o12;
      returns o13;
      returns o14;
      get false o14;
      returns o15;
      returns o17;
      returns o18;
      returns o19;
      get false o19;
      returns o20;
      returns o22;
      returns o23;
      returns o24;
      get false o24;
      returns o25;
      returns o27;
      returns o28;
      returns o29;
      get false o29;
      returns o30;
      returns o32;
      returns o33;
      returns o34;
      get false o34;
      returns o35;
      returns o37;
      returns o38;
      returns o39;
      get false o39]) = true.
Proof. vm_compute. reflexivity. Qed.

Example test_from_zero_hexadecimal_string_3 : (
   let o0 := unwrap_parse (from_str DoubleS (bytes "+0x0.p-1")) in
   let v1 := get junk o0 in
   let o2 := through_bits DoubleS v1 in
   let o3 := from_bits DoubleS 0 in
   let o4 := eq_f (get junk o2) (get junk o3) in
   let o5 := unwrap_parse (from_str DoubleS (bytes "-0x0.p-1")) in
   let v6 := get junk o5 in
   let o7 := through_bits DoubleS v6 in
   let o8 := from_bits DoubleS 9223372036854775808 in
   let o9 := eq_f (get junk o7) (get junk o8) in
   let o10 := unwrap_parse (from_str DoubleS (bytes "0x.0p1")) in
   let v11 := get junk o10 in
   let o12 := through_bits DoubleS v11 in
   let o13 := from_bits DoubleS 0 in
   let o14 := eq_f (get junk o12) (get junk o13) in
   let o15 := unwrap_parse (from_str DoubleS (bytes "+0x.0p1")) in
   let v16 := get junk o15 in
   let o17 := through_bits DoubleS v16 in
   let o18 := from_bits DoubleS 0 in
   let o19 := eq_f (get junk o17) (get junk o18) in
   let o20 := unwrap_parse (from_str DoubleS (bytes "-0x.0p1")) in
   let v21 := get junk o20 in
   let o22 := through_bits DoubleS v21 in
   let o23 := from_bits DoubleS 9223372036854775808 in
   let o24 := eq_f (get junk o22) (get junk o23) in
   let o25 := unwrap_parse (from_str DoubleS (bytes "0x.0p+1")) in
   let v26 := get junk o25 in
   let o27 := through_bits DoubleS v26 in
   let o28 := from_bits DoubleS 0 in
   let o29 := eq_f (get junk o27) (get junk o28) in
   let o30 := unwrap_parse (from_str DoubleS (bytes "+0x.0p+1")) in
   let v31 := get junk o30 in
   let o32 := through_bits DoubleS v31 in
   let o33 := from_bits DoubleS 0 in
   let o34 := eq_f (get junk o32) (get junk o33) in
   let o35 := unwrap_parse (from_str DoubleS (bytes "-0x.0p+1")) in
   let v36 := get junk o35 in
   let o37 := through_bits DoubleS v36 in
   let o38 := from_bits DoubleS 9223372036854775808 in
   let o39 := eq_f (get junk o37) (get junk o38) in
   all_true [
      returns o0;
      returns o2;
      returns o3;
      returns o4;
      get false o4;
      returns o5;
      returns o7;
      returns o8;
      returns o9;
      get false o9;
      returns o10;
      returns o12;
      returns o13;
      returns o14;
      get false o14;
      returns o15;
      returns o17;
      returns o18;
      returns o19;
      get false o19;
      returns o20;
      returns o22;
      returns o23;
      returns o24;
      get false o24;
      returns o25;
      returns o27;
      returns o28;
      returns o29;
      get false o29;
      returns o30;
      returns o32;
      returns o33;
      returns o34;
      get false o34;
      returns o35;
      returns o37;
      returns o38;
      returns o39;
      get false o39]) = true.
Proof. vm_compute. reflexivity. Qed.

Example test_from_zero_hexadecimal_string_4 : (
   let o0 := unwrap_parse (from_str DoubleS (bytes "0x.0p-1")) in
   let v1 := get junk o0 in
   let o2 := through_bits DoubleS v1 in
   let o3 := from_bits DoubleS 0 in
   let o4 := eq_f (get junk o2) (get junk o3) in
   let o5 := unwrap_parse (from_str DoubleS (bytes "+0x.0p-1")) in
   let v6 := get junk o5 in
   let o7 := through_bits DoubleS v6 in
   let o8 := from_bits DoubleS 0 in
   let o9 := eq_f (get junk o7) (get junk o8) in
   let o10 := unwrap_parse (from_str DoubleS (bytes "-0x.0p-1")) in
   let v11 := get junk o10 in
   let o12 := through_bits DoubleS v11 in
   let o13 := from_bits DoubleS 9223372036854775808 in
   let o14 := eq_f (get junk o12) (get junk o13) in
   let o15 := unwrap_parse (from_str DoubleS (bytes "0x0.0p1")) in
   let v16 := get junk o15 in
   let o17 := through_bits DoubleS v16 in
   let o18 := from_bits DoubleS 0 in
   let o19 := eq_f (get junk o17) (get junk o18) in
   let o20 := unwrap_parse (from_str DoubleS (bytes "+0x0.0p1")) in
   let v21 := get junk o20 in
   let o22 := through_bits DoubleS v21 in
   let o23 := from_bits DoubleS 0 in
   let o24 := eq_f (get junk o22) (get junk o23) in
   let o25 := unwrap_parse (from_str DoubleS (bytes "-0x0.0p1")) in
   let v26 := get junk o25 in
   let o27 := through_bits DoubleS v26 in
   let o28 := from_bits DoubleS 9223372036854775808 in
   let o29 := eq_f (get junk o27) (get junk o28) in
   let o30 := unwrap_parse (from_str DoubleS (bytes "0x0.0p+1")) in
   let v31 := get junk o30 in
   let o32 := through_bits DoubleS v31 in
   let o33 := from_bits DoubleS 0 in
   let o34 := eq_f (get junk o32) (get junk o33) in
   let o35 := unwrap_parse (from_str DoubleS (bytes "+0x0.0p+1")) in
   let v36 := get junk o35 in
   let o37 := through_bits DoubleS v36 in
   let o38 := from_bits DoubleS 0 in
   let o39 := eq_f (get junk o37) (get junk o38) in
   all_true [
      returns o0;
      returns o2;
      returns o3;
      returns o4;
      get false o4;
      returns o5;
      returns o7;
      returns o8;
      returns o9;
      get false o9;
      returns o10;
      returns o12;
      returns o13;
      returns o14;
      get false o14;
      returns o15;
      returns o17;
      returns o18;
      returns o19;
      get false o19;
      returns o20;
      returns o22;
      returns o23;
      returns o24;
      get false o24;
      returns o25;
      returns o27;
      returns o28;
      returns o29;
      get false o29;
      returns o30;
      returns o32;
      returns o33;
      returns o34;
      get false o34;
      returns o35;
      returns o37;
      returns o38;
      returns o39;
      get false o39]) = true.
Proof. vm_compute. reflexivity. Qed.

Example test_from_zero_hexadecimal_string_5 : (
   let o0 := unwrap_parse (from_str DoubleS (bytes "-0x0.0p+1")) in
   let v1 := get junk o0 in
   let o2 := through_bits DoubleS v1 in
   let o3 := from_bits DoubleS 9223372036854775808 in
   let o4 := eq_f (get junk o2) (get junk o3) in
   let o5 := unwrap_parse (from_str DoubleS (bytes "0x0.0p-1")) in
   let v6 := get junk o5 in
   let o7 := through_bits DoubleS v6 in
   let o8 := from_bits DoubleS 0 in
   let o9 := eq_f (get junk o7) (get junk o8) in
   let o10 := unwrap_parse (from_str DoubleS (bytes "+0x0.0p-1")) in
   let v11 := get junk o10 in
   let o12 := through_bits DoubleS v11 in
   let o13 := from_bits DoubleS 0 in
   let o14 := eq_f (get junk o12) (get junk o13) in
   let o15 := unwrap_parse (from_str DoubleS (bytes "-0x0.0p-1")) in
   let v16 := get junk o15 in
   let o17 := through_bits DoubleS v16 in
   let o18 := from_bits DoubleS 9223372036854775808 in
   let o19 := eq_f (get junk o17) (get junk o18) in
   let o20 := unwrap_parse (from_str DoubleS (bytes "0x00000.p1")) in
   let v21 := get junk o20 in
   let o22 := through_bits DoubleS v21 in
   let o23 := from_bits DoubleS 0 in
   let o24 := eq_f (get junk o22) (get junk o23) in
   let o25 := unwrap_parse (from_str DoubleS (bytes "0x0000.00000p1")) in
   let v26 := get junk o25 in
   let o27 := through_bits DoubleS v26 in
   let o28 := from_bits DoubleS 0 in
   let o29 := eq_f (get junk o27) (get junk o28) in
   let o30 := unwrap_parse (from_str DoubleS (bytes "0x.00000p1")) in
   let v31 := get junk o30 in
   let o32 := through_bits DoubleS v31 in
   let o33 := from_bits DoubleS 0 in
   let o34 := eq_f (get junk o32) (get junk o33) in
   let o35 := unwrap_parse (from_str DoubleS (bytes "0x0.p1")) in
   let v36 := get junk o35 in
   let o37 := through_bits DoubleS v36 in
   let o38 := from_bits DoubleS 0 in
   let o39 := eq_f (get junk o37) (get junk o38) in
   all_true [
      returns o0;
      returns o2;
      returns o3;
      returns o4;
      get false o4;
      returns o5;
      returns o7;
      returns o8;
      returns o9;
      get false o9;
      returns o10;
      returns o12;
      returns o13;
      returns o14;
      get false o14;
      returns o15;
      returns o17;
      returns o18;
      returns o19;
      get false o19;
      returns o20;
      returns o22;
      returns o23;
      returns o24;
      get false o24;
      returns o25;
      returns o27;
      returns o28;
      returns o29;
      get false o29;
      returns o30;
      returns o32;
      returns o33;
      returns o34;
      get false o34;
      returns o35;
      returns o37;
      returns o38;
      returns o39;
      get false o39]) = true.
Proof. vm_compute. reflexivity. Qed.

Example test_from_zero_hexadecimal_string_6 : (
   let o0 := unwrap_parse (from_str DoubleS (bytes "0x0p1234")) in
   let v1 := get junk o0 in
   let o2 := through_bits DoubleS v1 in
   let o3 := from_bits DoubleS 0 in
   let o4 := eq_f (get junk o2) (get junk o3) in
   let o5 := unwrap_parse (from_str DoubleS (bytes "-0x0p1234")) in
   let v6 := get junk o5 in
   let o7 := through_bits DoubleS v6 in
   let o8 := from_bits DoubleS 9223372036854775808 in
   let o9 := eq_f (get junk o7) (get junk o8) in
   let o10 := unwrap_parse (from_str DoubleS (bytes "0x00000.p1234")) in
   let v11 := get junk o10 in
   let o12 := through_bits DoubleS v11 in
   let o13 := from_bits DoubleS 0 in
   let o14 := eq_f (get junk o12) (get junk o13) in
   let o15 := unwrap_parse (from_str DoubleS (bytes "0x0000.00000p1234")) in
   let v16 := get junk o15 in
   let o17 := through_bits DoubleS v16 in
   let o18 := from_bits DoubleS 0 in
   let o19 := eq_f (get junk o17) (get junk o18) in
   let o20 := unwrap_parse (from_str DoubleS (bytes "0x.00000p1234")) in
   let v21 := get junk o20 in
   let o22 := through_bits DoubleS v21 in
   let o23 := from_bits DoubleS 0 in
   let o24 := eq_f (get junk o22) (get junk o23) in
   let o25 := unwrap_parse (from_str DoubleS (bytes "0x0.p1234")) in
   let v26 := get junk o25 in
   let o27 := through_bits DoubleS v26 in
   let o28 := from_bits DoubleS 0 in
   let o29 := eq_f (get junk o27) (get junk o28) in
   all_true [
      returns o0;
      returns o2;
      returns o3;
      returns o4;
      get false o4;
      returns o5;
      returns o7;
      returns o8;
      returns o9;
      get false o9;
      returns o10;
      returns o12;
      returns o13;
      returns o14;
      get false o14;
      returns o15;
      returns o17;
      returns o18;
      returns o19;
      get false o19;
      returns o20;
      returns o22;
      returns o23;
      returns o24;
      get false o24;
      returns o25;
      returns o27;
      returns o28;
      returns o29;
      get false o29]) = true.
Proof. vm_compute. reflexivity. Qed.

(** ieee.rs:982 [from_decimal_string] *)
Example test_from_decimal_string_1 : (
   let o0 := unwrap_parse (from_str DoubleS (bytes "1")) in
   let v1 := get junk o0 in
   let o2 := through_bits DoubleS v1 in
   let o3 := from_bits DoubleS 4607182418800017408 in
   let o4 := eq_f (get junk o2) (get junk o3) in
   let o5 := unwrap_parse (from_str DoubleS (bytes "2.")) in
   let v6 := get junk o5 in
   let o7 := through_bits DoubleS v6 in
   let o8 := from_bits DoubleS 4611686018427387904 in
   let o9 := eq_f (get junk o7) (get junk o8) in
   let o10 := unwrap_parse (from_str DoubleS (bytes ".5")) in
   let v11 := get junk o10 in
   let o12 := through_bits DoubleS v11 in
   let o13 := from_bits DoubleS 4602678819172646912 in
   let o14 := eq_f (get junk o12) (get junk o13) in
   let o15 := unwrap_parse (from_str DoubleS (bytes "1.0")) in
   let v16 := get junk o15 in
   let o17 := through_bits DoubleS v16 in
   let o18 := from_bits DoubleS 4607182418800017408 in
   let o19 := eq_f (get junk o17) (get junk o18) in
   let o20 := unwrap_parse (from_str DoubleS (bytes "-2")) in
   let v21 := get junk o20 in
   let o22 := through_bits DoubleS v21 in
   let o23 := from_bits DoubleS 13835058055282163712 in
   let o24 := eq_f (get junk o22) (get junk o23) in
   let o25 := unwrap_parse (from_str DoubleS (bytes "-4.")) in
   let v26 := get junk o25 in
   let o27 := through_bits DoubleS v26 in
   let o28 := from_bits DoubleS 13839561654909534208 in
   let o29 := eq_f (get junk o27) (get junk o28) in
   let o30 := unwrap_parse (from_str DoubleS (bytes "-.5")) in
   let v31 := get junk o30 in
   let o32 := through_bits DoubleS v31 in
   let o33 := from_bits DoubleS 13826050856027422720 in
   let o34 := eq_f (get junk o32) (get junk o33) in
   let o35 := unwrap_parse (from_str DoubleS (bytes "-1.5")) in
   let v36 := get junk o35 in
   let o37 := through_bits DoubleS v36 in
   let o38 := from_bits DoubleS 13832806255468478464 in
   let o39 := eq_f (get junk o37) (get junk o38) in
   all_true [
      returns o0;
      returns o2;
      returns o3;
      returns o4;
      get false o4;
      returns o5;
      returns o7;
      returns o8;
      returns o9;
      get false o9;
      returns o10;
      returns o12;
      returns o13;
      returns o14;
      get false o14;
      returns o15;
      returns o17;
      returns o18;
      returns o19;
      get false o19;
      returns o20;
      returns o22;
      returns o23;
      returns o24;
      get false o24;
      returns o25;
      returns o27;
      returns o28;
      returns o29;
      get false o29;
      returns o30;
      returns o32;
      returns o33;
      returns o34;
      get false o34;
      returns o35;
      returns o37;
      returns o38;
      returns o39;
      get false o39]) = true.
Proof. vm_compute. reflexivity. Qed.

Example test_from_decimal_string_2 : (
   let o0 := unwrap_parse (from_str DoubleS (bytes "1.25e12")) in
   let v1 := get junk o0 in
   let o2 := through_bits DoubleS v1 in
   let o3 := from_bits DoubleS 4787942804267466752 in
   let o4 := eq_f (get junk o2) (get junk o3) in
   let o5 := unwrap_parse (from_str DoubleS (bytes "1.25e+12")) in
   let v6 := get junk o5 in
   let o7 := through_bits DoubleS v6 in
   let o8 := from_bits DoubleS 4787942804267466752 in
   let o9 := eq_f (get junk o7) (get junk o8) in
   let o10 := unwrap_parse (from_str DoubleS (bytes "1.25e-12")) in
   let v11 := get junk o10 in
   let o12 := through_bits DoubleS v11 in
   let o13 := from_bits DoubleS 4428724534274253973 in
   let o14 := eq_f (get junk o12) (get junk o13) in
   let o15 := unwrap_parse (from_str DoubleS (bytes "1024.")) in
   let v16 := get junk o15 in
   let o17 := through_bits DoubleS v16 in
   let o18 := from_bits DoubleS 4652218415073722368 in
   let o19 := eq_f (get junk o17) (get junk o18) in
   let o20 := unwrap_parse (from_str DoubleS (bytes "1024.05000")) in
   let v21 := get junk o20 in
   let o22 := through_bits DoubleS v21 in
   let o23 := from_bits DoubleS 4652218634976047923 in
   let o24 := eq_f (get junk o22) (get junk o23) in
   let o25 := unwrap_parse (from_str DoubleS (bytes ".05000")) in
   let v26 := get junk o25 in
   let o27 := through_bits DoubleS v26 in
   let o28 := from_bits DoubleS 4587366580439587226 in
   let o29 := eq_f (get junk o27) (get junk o28) in
   let o30 := unwrap_parse (from_str DoubleS (bytes "2.")) in
   let v31 := get junk o30 in
   let o32 := through_bits DoubleS v31 in
   let o33 := from_bits DoubleS 4611686018427387904 in
   let o34 := eq_f (get junk o32) (get junk o33) in
   let o35 := unwrap_parse (from_str DoubleS (bytes "2.e2")) in
   let v36 := get junk o35 in
   let o37 := through_bits DoubleS v36 in
   let o38 := from_bits DoubleS 4641240890982006784 in
   let o39 := eq_f (get junk o37) (get junk o38) in
   all_true [
      returns o0;
      returns o2;
      returns o3;
      returns o4;
      get false o4;
      returns o5;
      returns o7;
      returns o8;
      returns o9;
      get false o9;
      returns o10;
      returns o12;
      returns o13;
      returns o14;
      get false o14;
      returns o15;
      returns o17;
      returns o18;
      returns o19;
      get false o19;
      returns o20;
      returns o22;
      returns o23;
      returns o24;
      get false o24;
      returns o25;
      returns o27;
      returns o28;
      returns o29;
      get false o29;
      returns o30;
      returns o32;
      returns o33;
      returns o34;
      get false o34;
      returns o35;
      returns o37;
      returns o38;
      returns o39;
      get false o39]) = true.
Proof. vm_compute. reflexivity. Qed.

Example test_from_decimal_string_3 : (
   let o0 := unwrap_parse (from_str DoubleS (bytes "2.e+2")) in
   let v1 := get junk o0 in
   let o2 := through_bits DoubleS v1 in
   let o3 := from_bits DoubleS 4641240890982006784 in
   let o4 := eq_f (get junk o2) (get junk o3) in
   let o5 := unwrap_parse (from_str DoubleS (bytes "2.e-2")) in
   let v6 := get junk o5 in
   let o7 := through_bits DoubleS v6 in
   let o8 := from_bits DoubleS 4581421828931458171 in
   let o9 := eq_f (get junk o7) (get junk o8) in
   let o10 := unwrap_parse (from_str DoubleS (bytes "002.05000e2")) in
   let v11 := get junk o10 in
   let o12 := through_bits DoubleS v11 in
   let o13 := from_bits DoubleS 4641416812842450944 in
   let o14 := eq_f (get junk o12) (get junk o13) in
   let o15 := unwrap_parse (from_str DoubleS (bytes "002.05000e+2")) in
   let v16 := get junk o15 in
   let o17 := through_bits DoubleS v16 in
   let o18 := from_bits DoubleS 4641416812842450944 in
   let o19 := eq_f (get junk o17) (get junk o18) in
   let o20 := unwrap_parse (from_str DoubleS (bytes "002.05000e-2")) in
   let v21 := get junk o20 in
   let o22 := through_bits DoubleS v21 in
   let o23 := from_bits DoubleS 4581565944119534027 in
   let o24 := eq_f (get junk o22) (get junk o23) in
   let o25 := unwrap_parse (from_str DoubleS (bytes "002.05000e12")) in
   let v26 := get junk o25 in
   let o27 := through_bits DoubleS v26 in
   let o28 := from_bits DoubleS 4791219604267466752 in
   let o29 := eq_f (get junk o27) (get junk o28) in
   let o30 := unwrap_parse (from_str DoubleS (bytes "002.05000e+12")) in
   let v31 := get junk o30 in
   let o32 := through_bits DoubleS v31 in
   let o33 := from_bits DoubleS 4791219604267466752 in
   let o34 := eq_f (get junk o32) (get junk o33) in
   let o35 := unwrap_parse (from_str DoubleS (bytes "002.05000e-12")) in
   let v36 := get junk o35 in
   let o37 := through_bits DoubleS v36 in
   let o38 := from_bits DoubleS 4432113987866267627 in
   let o39 := eq_f (get junk o37) (get junk o38) in
   all_true [
      returns o0;
      returns o2;
      returns o3;
      returns o4;
      get false o4;
      returns o5;
      returns o7;
      returns o8;
      returns o9;
      get false o9;
      returns o10;
      returns o12;
      returns o13;
      returns o14;
      get false o14;
      returns o15;
      returns o17;
      returns o18;
      returns o19;
      get false o19;
      returns o20;
      returns o22;
      returns o23;
      returns o24;
      get false o24;
      returns o25;
      returns o27;
      returns o28;
      returns o29;
      get false o29;
      returns o30;
      returns o32;
      returns o33;
      returns o34;
      get false o34;
      returns o35;
      returns o37;
      returns o38;
      returns o39;
      get false o39]) = true.
Proof. vm_compute. reflexivity. Qed.

Example test_from_decimal_string_4 : (
   let o0 := unwrap_parse (from_str DoubleS (bytes "1e")) in
   let v1 := get junk o0 in
   let o2 := through_bits DoubleS v1 in
   let o3 := from_bits DoubleS 4607182418800017408 in
   let o4 := eq_f (get junk o2) (get junk o3) in
   let o5 := unwrap_parse (from_str DoubleS (bytes "+1e")) in
   let v6 := get junk o5 in
   let o7 := through_bits DoubleS v6 in
   let o8 := from_bits DoubleS 4607182418800017408 in
   let o9 := eq_f (get junk o7) (get junk o8) in
   let o10 := unwrap_parse (from_str DoubleS (bytes "-1e")) in
   let v11 := get junk o10 in
   let o12 := through_bits DoubleS v11 in
   let o13 := from_bits DoubleS 13830554455654793216 in
   let o14 := eq_f (get junk o12) (get junk o13) in
   let o15 := unwrap_parse (from_str DoubleS (bytes "1.e")) in
   let v16 := get junk o15 in
   let o17 := through_bits DoubleS v16 in
   let o18 := from_bits DoubleS 4607182418800017408 in
   let o19 := eq_f (get junk o17) (get junk o18) in
   let o20 := unwrap_parse (from_str DoubleS (bytes "+1.e")) in
   let v21 := get junk o20 in
   let o22 := through_bits DoubleS v21 in
   let o23 := from_bits DoubleS 4607182418800017408 in
   let o24 := eq_f (get junk o22) (get junk o23) in
   let o25 := unwrap_parse (from_str DoubleS (bytes "-1.e")) in
   let v26 := get junk o25 in
   let o27 := through_bits DoubleS v26 in
   let o28 := from_bits DoubleS 13830554455654793216 in
   let o29 := eq_f (get junk o27) (get junk o28) in
   let o30 := unwrap_parse (from_str DoubleS (bytes ".1e")) in
   let v31 := get junk o30 in
   let o32 := through_bits DoubleS v31 in
   let o33 := from_bits DoubleS 4591870180066957722 in
   let o34 := eq_f (get junk o32) (get junk o33) in
   let o35 := unwrap_parse (from_str DoubleS (bytes "+.1e")) in
   let v36 := get junk o35 in
   let o37 := through_bits DoubleS v36 in
   let o38 := from_bits DoubleS 4591870180066957722 in
   let o39 := eq_f (get junk o37) (get junk o38) in
   all_true [
      returns o0;
      returns o2;
      returns o3;
      returns o4;
      get false o4;
      returns o5;
      returns o7;
      returns o8;
      returns o9;
      get false o9;
      returns o10;
      returns o12;
      returns o13;
      returns o14;
      get false o14;
      returns o15;
      returns o17;
      returns o18;
      returns o19;
      get false o19;
      returns o20;
      returns o22;
      returns o23;
      returns o24;
      get false o24;
      returns o25;
      returns o27;
      returns o28;
      returns o29;
      get false o29;
      returns o30;
      returns o32;
      returns o33;
      returns o34;
      get false o34;
      returns o35;
      returns o37;
      returns o38;
      returns o39;
      get false o39]) = true.
Proof. vm_compute. reflexivity. Qed.

Example test_from_decimal_string_5 : (
   let o0 := unwrap_parse (from_str DoubleS (bytes "-.1e")) in
   let v1 := get junk o0 in
   let o2 := through_bits DoubleS v1 in
   let o3 := from_bits DoubleS 13815242216921733530 in
   let o4 := eq_f (get junk o2) (get junk o3) in
   let o5 := unwrap_parse (from_str DoubleS (bytes "1.1e")) in
   let v6 := get junk o5 in
   let o7 := through_bits DoubleS v6 in
   let o8 := from_bits DoubleS 4607632778762754458 in
   let o9 := eq_f (get junk o7) (get junk o8) in
   let o10 := unwrap_parse (from_str DoubleS (bytes "+1.1e")) in
   let v11 := get junk o10 in
   let o12 := through_bits DoubleS v11 in
   let o13 := from_bits DoubleS 4607632778762754458 in
   let o14 := eq_f (get junk o12) (get junk o13) in
   let o15 := unwrap_parse (from_str DoubleS (bytes "-1.1e")) in
   let v16 := get junk o15 in
   let o17 := through_bits DoubleS v16 in
   let o18 := from_bits DoubleS 13831004815617530266 in
   let o19 := eq_f (get junk o17) (get junk o18) in
   let o20 := unwrap_parse (from_str DoubleS (bytes "1e+")) in
   let v21 := get junk o20 in
   let o22 := through_bits DoubleS v21 in
   let o23 := from_bits DoubleS 4607182418800017408 in
   let o24 := eq_f (get junk o22) (get junk o23) in
   let o25 := unwrap_parse (from_str DoubleS (bytes "1e-")) in
   let v26 := get junk o25 in
   let o27 := through_bits DoubleS v26 in
   let o28 := from_bits DoubleS 4607182418800017408 in
   let o29 := eq_f (get junk o27) (get junk o28) in
   let o30 := unwrap_parse (from_str DoubleS (bytes ".1e")) in
   let v31 := get junk o30 in
   let o32 := through_bits DoubleS v31 in
   let o33 := from_bits DoubleS 4591870180066957722 in
   let o34 := eq_f (get junk o32) (get junk o33) in
   let o35 := unwrap_parse (from_str DoubleS (bytes ".1e+")) in
   let v36 := get junk o35 in
   let o37 := through_bits DoubleS v36 in
   let o38 := from_bits DoubleS 4591870180066957722 in
   let o39 := eq_f (get junk o37) (get junk o38) in
   all_true [
      returns o0;
      returns o2;
      returns o3;
      returns o4;
      get false o4;
      returns o5;
      returns o7;
      returns o8;
      returns o9;
      get false o9;
      returns o10;
      returns o12;
      returns o13;
      returns o14;
      get false o14;
      returns o15;
      returns o17;
      returns o18;
      returns o19;
      get false o19;
      returns o20;
      returns o22;
      returns o23;
      returns o24;
      get false o24;
      returns o25;
      returns o27;
      returns o28;
      returns o29;
      get false o29;
      returns o30;
      returns o32;
      returns o33;
      returns o34;
      get false o34;
      returns o35;
      returns o37;
      returns o38;
      returns o39;
      get false o39]) = true.
Proof. vm_compute. reflexivity. Qed.

Example test_from_decimal_string_6 : (
   let o0 := unwrap_parse (from_str DoubleS (bytes ".1e-")) in
   let v1 := get junk o0 in
   let o2 := through_bits DoubleS v1 in
   let o3 := from_bits DoubleS 4591870180066957722 in
   let o4 := eq_f (get junk o2) (get junk o3) in
   let o5 := unwrap_parse (from_str DoubleS (bytes "1.0e")) in
   let v6 := get junk o5 in
   let o7 := through_bits DoubleS v6 in
   let o8 := from_bits DoubleS 4607182418800017408 in
   let o9 := eq_f (get junk o7) (get junk o8) in
   let o10 := unwrap_parse (from_str DoubleS (bytes "1.0e+")) in
   let v11 := get junk o10 in
   let o12 := through_bits DoubleS v11 in
   let o13 := from_bits DoubleS 4607182418800017408 in
   let o14 := eq_f (get junk o12) (get junk o13) in
   let o15 := unwrap_parse (from_str DoubleS (bytes "1.0e-")) in
   let v16 := get junk o15 in
   let o17 := through_bits DoubleS v16 in
   let o18 := from_bits DoubleS 4607182418800017408 in
   let o19 := eq_f (get junk o17) (get junk o18) in
   let o20 := unwrap_parse (from_str DoubleS (bytes "99e99999")) in
   let v21 := get junk o20 in
   let o22 := unwrap_parse (from_str DoubleS (bytes "-99e99999")) in
   let v23 := get junk o22 in
   let o24 := unwrap_parse (from_str DoubleS (bytes "1e-99999")) in
   let v25 := get junk o24 in
   let o26 := unwrap_parse (from_str DoubleS (bytes "-1e-99999")) in
   let v27 := get junk o26 in
   let o28 := unwrap_parse (from_str DoubleS (bytes "2.71828")) in
   let v29 := get junk o28 in
   let o30 := through_bits DoubleS v29 in
   let o31 := from_bits DoubleS 4613303441197561744 in
   let o32 := eq_f (get junk o30) (get junk o31) in
   all_true [
      returns o0;
      returns o2;
      returns o3;
      returns o4;
      get false o4;
      returns o5;
      returns o7;
      returns o8;
      returns o9;
      get false o9;
      returns o10;
      returns o12;
      returns o13;
      returns o14;
      get false o14;
      returns o15;
      returns o17;
      returns o18;
      returns o19;
      get false o19;
      returns o20;
      is_infinite v21;
      returns o22;
      is_infinite v23;
      returns o24;
      is_pos_zero v25;
      returns o26;
      is_neg_zero v27;
      returns o28;
      returns o30;
      returns o31;
      returns o32;
      get false o32]) = true.
Proof. vm_compute. reflexivity. Qed.

(** ieee.rs:1143 [from_to_string_specials] *)
Example test_from_to_string_specials : (
   let o0 := unwrap_parse (from_str DoubleS (bytes "+Inf")) in
   let v1 := get junk o0 in
   let o2 := fmt DoubleS v1 None None false in
   let o3 := unwrap_parse (from_str DoubleS (bytes "INFINITY")) in
   let v4 := get junk o3 in
   let o5 := fmt DoubleS v4 None None false in
   let o6 := unwrap_parse (from_str DoubleS (bytes "inf")) in
   let v7 := get junk o6 in
   let o8 := fmt DoubleS v7 None None false in
   let o9 := unwrap_parse (from_str DoubleS (bytes "-Inf")) in
   let v10 := get junk o9 in
   let o11 := fmt DoubleS v10 None None false in
   let o12 := unwrap_parse (from_str DoubleS (bytes "-INFINITY")) in
   let v13 := get junk o12 in
   let o14 := fmt DoubleS v13 None None false in
   let o15 := unwrap_parse (from_str DoubleS (bytes "-inf")) in
   let v16 := get junk o15 in
   let o17 := fmt DoubleS v16 None None false in
   let o18 := unwrap_parse (from_str DoubleS (bytes "NaN")) in
   let v19 := get junk o18 in
   let o20 := fmt DoubleS v19 None None false in
   let o21 := unwrap_parse (from_str DoubleS (bytes "nan")) in
   let v22 := get junk o21 in
   let o23 := fmt DoubleS v22 None None false in
   let o24 := unwrap_parse (from_str DoubleS (bytes "-NaN")) in
   let v25 := get junk o24 in
   let o26 := fmt DoubleS v25 None None false in
   let o27 := unwrap_parse (from_str DoubleS (bytes "-nan")) in
   let v28 := get junk o27 in
   let o29 := fmt DoubleS v28 None None false in
   all_true [
      returns o0;
      returns o2;
      str_eqb (get [] o2) (bytes "+Inf");
      returns o3;
      returns o5;
      str_eqb (get [] o5) (bytes "+Inf");
      returns o6;
      returns o8;
      str_eqb (get [] o8) (bytes "+Inf");
      returns o9;
      returns o11;
      str_eqb (get [] o11) (bytes "-Inf");
      returns o12;
      returns o14;
      str_eqb (get [] o14) (bytes "-Inf");
      returns o15;
      returns o17;
      str_eqb (get [] o17) (bytes "-Inf");
      returns o18;
      returns o20;
      str_eqb (get [] o20) (bytes "NaN");
      returns o21;
      returns o23;
      str_eqb (get [] o23) (bytes "NaN");
      returns o24;
      returns o26;
      str_eqb (get [] o26) (bytes "NaN");
      returns o27;
      returns o29;
      str_eqb (get [] o29) (bytes "NaN")]) = true.
Proof. vm_compute. reflexivity. Qed.

(** ieee.rs:1157 [from_hexadecimal_string] *)
Example test_from_hexadecimal_string_1 : (
   let o0 := unwrap_parse (from_str DoubleS (bytes "0x1p0")) in
   let v1 := get junk o0 in
   let o2 := through_bits DoubleS v1 in
   let o3 := from_bits DoubleS 4607182418800017408 in
   let o4 := eq_f (get junk o2) (get junk o3) in
   let o5 := unwrap_parse (from_str DoubleS (bytes "+0x1p0")) in
   let v6 := get junk o5 in
   let o7 := through_bits DoubleS v6 in
   let o8 := from_bits DoubleS 4607182418800017408 in
   let o9 := eq_f (get junk o7) (get junk o8) in
   let o10 := unwrap_parse (from_str DoubleS (bytes "-0x1p0")) in
   let v11 := get junk o10 in
   let o12 := through_bits DoubleS v11 in
   let o13 := from_bits DoubleS 13830554455654793216 in
   let o14 := eq_f (get junk o12) (get junk o13) in
   let o15 := unwrap_parse (from_str DoubleS (bytes "0x1p+0")) in
   let v16 := get junk o15 in
   let o17 := through_bits DoubleS v16 in
   let o18 := from_bits DoubleS 4607182418800017408 in
   let o19 := eq_f (get junk o17) (get junk o18) in
   let o20 := unwrap_parse (from_str DoubleS (bytes "+0x1p+0")) in
   let v21 := get junk o20 in
   let o22 := through_bits DoubleS v21 in
   let o23 := from_bits DoubleS 4607182418800017408 in
   let o24 := eq_f (get junk o22) (get junk o23) in
   let o25 := unwrap_parse (from_str DoubleS (bytes "-0x1p+0")) in
   let v26 := get junk o25 in
   let o27 := through_bits DoubleS v26 in
   let o28 := from_bits DoubleS 13830554455654793216 in
   let o29 := eq_f (get junk o27) (get junk o28) in
   let o30 := unwrap_parse (from_str DoubleS (bytes "0x1p-0")) in
   let v31 := get junk o30 in
   let o32 := through_bits DoubleS v31 in
   let o33 := from_bits DoubleS 4607182418800017408 in
   let o34 := eq_f (get junk o32) (get junk o33) in
   let o35 := unwrap_parse (from_str DoubleS (bytes "+0x1p-0")) in
   let v36 := get junk o35 in
   let o37 := through_bits DoubleS v36 in
   let o38 := from_bits DoubleS 4607182418800017408 in
   let o39 := eq_f (get junk o37) (get junk o38) in
   all_true [
      returns o0;
      returns o2;
      returns o3;
      returns o4;
      get false o4;
      returns o5;
      returns o7;
      returns o8;
      returns o9;
      get false o9;
      returns o10;
      returns o12;
      returns o13;
      returns o14;
      get false o14;
      returns o15;
      returns o17;
      returns o18;
      returns o19;
      get false o19;
      returns o20;
      returns o22;
      returns o23;
      returns o24;
      get false o24;
      returns o25;
      returns o27;
      returns o28;
      returns o29;
      get false o29;
      returns o30;
      returns o32;
      returns o33;
      returns o34;
      get false o34;
      returns o35;
      returns o37;
      returns o38;
      returns o39;
      get false o39]) = true.
Proof. vm_compute. reflexivity. Qed.

Example test_from_hexadecimal_string_2 : (
   let o0 := unwrap_parse (from_str DoubleS (bytes "-0x1p-0")) in
   let v1 := get junk o0 in
   let o2 := through_bits DoubleS v1 in
   let o3 := from_bits DoubleS 13830554455654793216 in
   let o4 := eq_f (get junk o2) (get junk o3) in
   let o5 := unwrap_parse (from_str DoubleS (bytes "0x1p1")) in
   let v6 := get junk o5 in
   let o7 := through_bits DoubleS v6 in
   let o8 := from_bits DoubleS 4611686018427387904 in
   let o9 := eq_f (get junk o7) (get junk o8) in
   let o10 := unwrap_parse (from_str DoubleS (bytes "+0x1p1")) in
   let v11 := get junk o10 in
   let o12 := through_bits DoubleS v11 in
   let o13 := from_bits DoubleS 4611686018427387904 in
   let o14 := eq_f (get junk o12) (get junk o13) in
   let o15 := unwrap_parse (from_str DoubleS (bytes "-0x1p1")) in
   let v16 := get junk o15 in
   let o17 := through_bits DoubleS v16 in
   let o18 := from_bits DoubleS 13835058055282163712 in
   let o19 := eq_f (get junk o17) (get junk o18) in
   let o20 := unwrap_parse (from_str DoubleS (bytes "0x1p+1")) in
   let v21 := get junk o20 in
   let o22 := through_bits DoubleS v21 in
   let o23 := from_bits DoubleS 4611686018427387904 in
   let o24 := eq_f (get junk o22) (get junk o23) in
   let o25 := unwrap_parse (from_str DoubleS (bytes "+0x1p+1")) in
   let v26 := get junk o25 in
   let o27 := through_bits DoubleS v26 in
   let o28 := from_bits DoubleS 4611686018427387904 in
   let o29 := eq_f (get junk o27) (get junk o28) in
   let o30 := unwrap_parse (from_str DoubleS (bytes "-0x1p+1")) in
   let v31 := get junk o30 in
   let o32 := through_bits DoubleS v31 in
   let o33 := from_bits DoubleS 13835058055282163712 in
   let o34 := eq_f (get junk o32) (get junk o33) in
   let o35 := unwrap_parse (from_str DoubleS (bytes "0x1p-1")) in
   let v36 := get junk o35 in
   let o37 := through_bits DoubleS v36 in
   let o38 := from_bits DoubleS 4602678819172646912 in
   let o39 := eq_f (get junk o37) (get junk o38) in
   all_true [
      returns o0;
      returns o2;
      returns o3;
      returns o4;
      get false o4;
      returns o5;
      returns o7;
      returns o8;
      returns o9;
      get false o9;
      returns o10;
      returns o12;
      returns o13;
      returns o14;
      get false o14;
      returns o15;
      returns o17;
      returns o18;
      returns o19;
      get false o19;
      returns o20;
      returns o22;
      returns o23;
      returns o24;
      get false o24;
      returns o25;
      returns o27;
      returns o28;
      returns o29;
      get false o29;
      returns o30;
      returns o32;
      returns o33;
      returns o34;
      get false o34;
      returns o35;
      returns o37;
      returns o38;
      returns o39;
      get false o39]) = true.
Proof. vm_compute. reflexivity. Qed.

Example test_from_hexadecimal_string_3 : (
   let o0 := unwrap_parse (from_str DoubleS (bytes "+0x1p-1")) in
   let v1 := get junk o0 in
   let o2 := through_bits DoubleS v1 in
   let o3 := from_bits DoubleS 4602678819172646912 in
   let o4 := eq_f (get junk o2) (get junk o3) in
   let o5 := unwrap_parse (from_str DoubleS (bytes "-0x1p-1")) in
   let v6 := get junk o5 in
   let o7 := through_bits DoubleS v6 in
   let o8 := from_bits DoubleS 13826050856027422720 in
   let o9 := eq_f (get junk o7) (get junk o8) in
   let o10 := unwrap_parse (from_str DoubleS (bytes "0x1.8p1")) in
   let v11 := get junk o10 in
   let o12 := through_bits DoubleS v11 in
   let o13 := from_bits DoubleS 4613937818241073152 in
   let o14 := eq_f (get junk o12) (get junk o13) in
   let o15 := unwrap_parse (from_str DoubleS (bytes "+0x1.8p1")) in
   let v16 := get junk o15 in
   let o17 := through_bits DoubleS v16 in
   let o18 := from_bits DoubleS 4613937818241073152 in
   let o19 := eq_f (get junk o17) (get junk o18) in
   let o20 := unwrap_parse (from_str DoubleS (bytes "-0x1.8p1")) in
   let v21 := get junk o20 in
   let o22 := through_bits DoubleS v21 in
   let o23 := from_bits DoubleS 13837309855095848960 in
   let o24 := eq_f (get junk o22) (get junk o23) in
   let o25 := unwrap_parse (from_str DoubleS (bytes "0x1.8p+1")) in
   let v26 := get junk o25 in
   let o27 := through_bits DoubleS v26 in
   let o28 := from_bits DoubleS 4613937818241073152 in
   let o29 := eq_f (get junk o27) (get junk o28) in
   let o30 := unwrap_parse (from_str DoubleS (bytes "+0x1.8p+1")) in
   let v31 := get junk o30 in
   let o32 := through_bits DoubleS v31 in
   let o33 := from_bits DoubleS 4613937818241073152 in
   let o34 := eq_f (get junk o32) (get junk o33) in
   let o35 := unwrap_parse (from_str DoubleS (bytes "-0x1.8p+1")) in
   let v36 := get junk o35 in
   let o37 := through_bits DoubleS v36 in
   let o38 := from_bits DoubleS 13837309855095848960 in
   let o39 := eq_f (get junk o37) (get junk o38) in
   all_true [
      returns o0;
      returns o2;
      returns o3;
      returns o4;
      get false o4;
      returns o5;
      returns o7;
      returns o8;
      returns o9;
      get false o9;
      returns o10;
      returns o12;
      returns o13;
      returns o14;
      get false o14;
      returns o15;
      returns o17;
      returns o18;
      returns o19;
      get false o19;
      returns o20;
      returns o22;
      returns o23;
      returns o24;
      get false o24;
      returns o25;
      returns o27;
      returns o28;
      returns o29;
      get false o29;
      returns o30;
      returns o32;
      returns o33;
      returns o34;
      get false o34;
      returns o35;
      returns o37;
      returns o38;
      returns o39;
      get false o39]) = true.
Proof. vm_compute. reflexivity. Qed.

Example test_from_hexadecimal_string_4 : (
   let o0 := unwrap_parse (from_str DoubleS (bytes "0x1.8p-1")) in
   let v1 := get junk o0 in
   let o2 := through_bits DoubleS v1 in
   let o3 := from_bits DoubleS 4604930618986332160 in
   let o4 := eq_f (get junk o2) (get junk o3) in
   let o5 := unwrap_parse (from_str DoubleS (bytes "+0x1.8p-1")) in
   let v6 := get junk o5 in
   let o7 := through_bits DoubleS v6 in
   let o8 := from_bits DoubleS 4604930618986332160 in
   let o9 := eq_f (get junk o7) (get junk o8) in
   let o10 := unwrap_parse (from_str DoubleS (bytes "-0x1.8p-1")) in
   let v11 := get junk o10 in
   let o12 := through_bits DoubleS v11 in
   let o13 := from_bits DoubleS 13828302655841107968 in
   let o14 := eq_f (get junk o12) (get junk o13) in
   let o15 := unwrap_parse (from_str DoubleS (bytes "0x1000.000p1")) in
   let v16 := get junk o15 in
   let o17 := through_bits DoubleS v16 in
   let o18 := from_bits DoubleS 4665729213955833856 in
   let o19 := eq_f (get junk o17) (get junk o18) in
   let o20 := unwrap_parse (from_str DoubleS (bytes "+0x1000.000p1")) in
   let v21 := get junk o20 in
   let o22 := through_bits DoubleS v21 in
   let o23 := from_bits DoubleS 4665729213955833856 in
   let o24 := eq_f (get junk o22) (get junk o23) in
   let o25 := unwrap_parse (from_str DoubleS (bytes "-0x1000.000p1")) in
   let v26 := get junk o25 in
   let o27 := through_bits DoubleS v26 in
   let o28 := from_bits DoubleS 13889101250810609664 in
   let o29 := eq_f (get junk o27) (get junk o28) in
   let o30 := unwrap_parse (from_str DoubleS (bytes "0x1000.000p+1")) in
   let v31 := get junk o30 in
   let o32 := through_bits DoubleS v31 in
   let o33 := from_bits DoubleS 4665729213955833856 in
   let o34 := eq_f (get junk o32) (get junk o33) in
   let o35 := unwrap_parse (from_str DoubleS (bytes "+0x1000.000p+1")) in
   let v36 := get junk o35 in
   let o37 := through_bits DoubleS v36 in
   let o38 := from_bits DoubleS 4665729213955833856 in
   let o39 := eq_f (get junk o37) (get junk o38) in
   all_true [
      returns o0;
      returns o2;
      returns o3;
      returns o4;
      get false o4;
      returns o5;
      returns o7;
      returns o8;
      returns o9;
      get false o9;
      returns o10;
      returns o12;
      returns o13;
      returns o14;
      get false o14;
      returns o15;
      returns o17;
      returns o18;
      returns o19;
      get false o19;
      returns o20;
      returns o22;
      returns o23;
      returns o24;
      get false o24;
      returns o25;
      returns o27;
      returns o28;
      returns o29;
      get false o29;
      returns o30;
      returns o32;
      returns o33;
      returns o34;
      get false o34;
      returns o35;
      returns o37;
      returns o38;
      returns o39;
      get false o39]) = true.
Proof. vm_compute. reflexivity. Qed.

Example test_from_hexadecimal_string_5 : (
   let o0 := unwrap_parse (from_str DoubleS (bytes "-0x1000.000p+1")) in
   let v1 := get junk o0 in
   let o2 := through_bits DoubleS v1 in
   let o3 := from_bits DoubleS 13889101250810609664 in
   let o4 := eq_f (get junk o2) (get junk o3) in
   let o5 := unwrap_parse (from_str DoubleS (bytes "0x1000.000p-1")) in
   let v6 := get junk o5 in
   let o7 := through_bits DoubleS v6 in
   let o8 := from_bits DoubleS 4656722014701092864 in
   let o9 := eq_f (get junk o7) (get junk o8) in
   let o10 := unwrap_parse (from_str DoubleS (bytes "+0x1000.000p-1")) in
   let v11 := get junk o10 in
   let o12 := through_bits DoubleS v11 in
   let o13 := from_bits DoubleS 4656722014701092864 in
   let o14 := eq_f (get junk o12) (get junk o13) in
   let o15 := unwrap_parse (from_str DoubleS (bytes "-0x1000.000p-1")) in
   let v16 := get junk o15 in
   let o17 := through_bits DoubleS v16 in
   let o18 := from_bits DoubleS 13880094051555868672 in
   let o19 := eq_f (get junk o17) (get junk o18) in
   let o20 := unwrap_parse (from_str DoubleS (bytes "0x1000p1")) in
   let v21 := get junk o20 in
   let o22 := through_bits DoubleS v21 in
   let o23 := from_bits DoubleS 4665729213955833856 in
   let o24 := eq_f (get junk o22) (get junk o23) in
   let o25 := unwrap_parse (from_str DoubleS (bytes "+0x1000p1")) in
   let v26 := get junk o25 in
   let o27 := through_bits DoubleS v26 in
   let o28 := from_bits DoubleS 4665729213955833856 in
   let o29 := eq_f (get junk o27) (get junk o28) in
   let o30 := unwrap_parse (from_str DoubleS (bytes "-0x1000p1")) in
   let v31 := get junk o30 in
   let o32 := through_bits DoubleS v31 in
   let o33 := from_bits DoubleS 13889101250810609664 in
   let o34 := eq_f (get junk o32) (get junk o33) in
   let o35 := unwrap_parse (from_str DoubleS (bytes "0x1000p+1")) in
   let v36 := get junk o35 in
   let o37 := through_bits DoubleS v36 in
   let o38 := from_bits DoubleS 4665729213955833856 in
   let o39 := eq_f (get junk o37) (get junk o38) in
   all_true [
      returns o0;
      returns o2;
      returns o3;
      returns o4;
      get false o4;
      returns o5;
      returns o7;
      returns o8;
      returns o9;
      get false o9;
      returns o10;
      returns o12;
      returns o13;
      returns o14;
      get false o14;
      returns o15;
      returns o17;
      returns o18;
      returns o19;
      get false o19;
      returns o20;
      returns o22;
      returns o23;
      returns o24;
      get false o24;
      returns o25;
      returns o27;
      returns o28;
      returns o29;
      get false o29;
      returns o30;
      returns o32;
      returns o33;
      returns o34;
      get false o34;
      returns o35;
      returns o37;
      returns o38;
      returns o39;
      get false o39]) = true.
Proof. vm_compute. reflexivity. Qed.

Example test_from_hexadecimal_string_6 : (
   let o0 := unwrap_parse (from_str DoubleS (bytes "+0x1000p+1")) in
   let v1 := get junk o0 in
   let o2 := through_bits DoubleS v1 in
   let o3 := from_bits DoubleS 4665729213955833856 in
   let o4 := eq_f (get junk o2) (get junk o3) in
   let o5 := unwrap_parse (from_str DoubleS (bytes "-0x1000p+1")) in
   let v6 := get junk o5 in
   let o7 := through_bits DoubleS v6 in
   let o8 := from_bits DoubleS 13889101250810609664 in
   let o9 := eq_f (get junk o7) (get junk o8) in
   let o10 := unwrap_parse (from_str DoubleS (bytes "0x1000p-1")) in
   let v11 := get junk o10 in
   let o12 := through_bits DoubleS v11 in
   let o13 := from_bits DoubleS 4656722014701092864 in
   let o14 := eq_f (get junk o12) (get junk o13) in
   let o15 := unwrap_parse (from_str DoubleS (bytes "+0x1000p-1")) in
   let v16 := get junk o15 in
   let o17 := through_bits DoubleS v16 in
   let o18 := from_bits DoubleS 4656722014701092864 in
   let o19 := eq_f (get junk o17) (get junk o18) in
   let o20 := unwrap_parse (from_str DoubleS (bytes "-0x1000p-1")) in
   let v21 := get junk o20 in
   let o22 := through_bits DoubleS v21 in
   let o23 := from_bits DoubleS 13880094051555868672 in
   let o24 := eq_f (get junk o22) (get junk o23) in
   let o25 := unwrap_parse (from_str DoubleS (bytes "0x10p10")) in
   let v26 := get junk o25 in
   let o27 := through_bits DoubleS v26 in
   let o28 := from_bits DoubleS 4670232813583204352 in
   let o29 := eq_f (get junk o27) (get junk o28) in
   let o30 := unwrap_parse (from_str DoubleS (bytes "+0x10p10")) in
   let v31 := get junk o30 in
   let o32 := through_bits DoubleS v31 in
   let o33 := from_bits DoubleS 4670232813583204352 in
   let o34 := eq_f (get junk o32) (get junk o33) in
   let o35 := unwrap_parse (from_str DoubleS (bytes "-0x10p10")) in
   let v36 := get junk o35 in
   let o37 := through_bits DoubleS v36 in
   let o38 := from_bits DoubleS 13893604850437980160 in
   let o39 := eq_f (get junk o37) (get junk o38) in
   all_true [
      returns o0;
      returns o2;
      returns o3;
      returns o4;
      get false o4;
      returns o5;
      returns o7;
      returns o8;
      returns o9;
      get false o9;
      returns o10;
      returns o12;
      returns o13;
      returns o14;
      get false o14;
      returns o15;
      returns o17;
      returns o18;
      returns o19;
      get false o19;
      returns o20;
      returns o22;
      returns o23;
      returns o24;
      get false o24;
      returns o25;
      returns o27;
      returns o28;
      returns o29;
      get false o29;
      returns o30;
      returns o32;
      returns o33;
      returns o34;
      get false o34;
      returns o35;
      returns o37;
      returns o38;
      returns o39;
      get false o39]) = true.
Proof. vm_compute. reflexivity. Qed.

Example test_from_hexadecimal_string_7 : (
   let o0 := unwrap_parse (from_str DoubleS (bytes "0x10p+10")) in
   let v1 := get junk o0 in
   let o2 := through_bits DoubleS v1 in
   let o3 := from_bits DoubleS 4670232813583204352 in
   let o4 := eq_f (get junk o2) (get junk o3) in
   let o5 := unwrap_parse (from_str DoubleS (bytes "+0x10p+10")) in
   let v6 := get junk o5 in
   let o7 := through_bits DoubleS v6 in
   let o8 := from_bits DoubleS 4670232813583204352 in
   let o9 := eq_f (get junk o7) (get junk o8) in
   let o10 := unwrap_parse (from_str DoubleS (bytes "-0x10p+10")) in
   let v11 := get junk o10 in
   let o12 := through_bits DoubleS v11 in
   let o13 := from_bits DoubleS 13893604850437980160 in
   let o14 := eq_f (get junk o12) (get junk o13) in
   let o15 := unwrap_parse (from_str DoubleS (bytes "0x10p-10")) in
   let v16 := get junk o15 in
   let o17 := through_bits DoubleS v16 in
   let o18 := from_bits DoubleS 4580160821035794432 in
   let o19 := eq_f (get junk o17) (get junk o18) in
   let o20 := unwrap_parse (from_str DoubleS (bytes "+0x10p-10")) in
   let v21 := get junk o20 in
   let o22 := through_bits DoubleS v21 in
   let o23 := from_bits DoubleS 4580160821035794432 in
   let o24 := eq_f (get junk o22) (get junk o23) in
   let o25 := unwrap_parse (from_str DoubleS (bytes "-0x10p-10")) in
   let v26 := get junk o25 in
   let o27 := through_bits DoubleS v26 in
   let o28 := from_bits DoubleS 13803532857890570240 in
   let o29 := eq_f (get junk o27) (get junk o28) in
   let o30 := unwrap_parse (from_str DoubleS (bytes "0x1.1p0")) in
   let v31 := get junk o30 in
   let o32 := through_bits DoubleS v31 in
   let o33 := from_bits DoubleS 4607463893776728064 in
   let o34 := eq_f (get junk o32) (get junk o33) in
   let o35 := unwrap_parse (from_str DoubleS (bytes "0x1p0")) in
   let v36 := get junk o35 in
   let o37 := through_bits DoubleS v36 in
   let o38 := from_bits DoubleS 4607182418800017408 in
   let o39 := eq_f (get junk o37) (get junk o38) in
   all_true [
      returns o0;
      returns o2;
      returns o3;
      returns o4;
      get false o4;
      returns o5;
      returns o7;
      returns o8;
      returns o9;
      get false o9;
      returns o10;
      returns o12;
      returns o13;
      returns o14;
      get false o14;
      returns o15;
      returns o17;
      returns o18;
      returns o19;
      get false o19;
      returns o20;
      returns o22;
      returns o23;
      returns o24;
      get false o24;
      returns o25;
      returns o27;
      returns o28;
      returns o29;
      get false o29;
      returns o30;
      returns o32;
      returns o33;
      returns o34;
      get false o34;
      returns o35;
      returns o37;
      returns o38;
      returns o39;
      get false o39]) = true.
Proof. vm_compute. reflexivity. Qed.

Example test_from_hexadecimal_string_8 : (
   let o0 := unwrap_parse (from_str DoubleS (bytes "0x1p-150")) in
   let v1 := get junk o0 in
   let o2 := through_bits DoubleS v1 in
   let o3 := unwrap_parse (from_str DoubleS (bytes "+0x800000000000000001.p-221")) in
   let v4 := get junk o3 in
   let o5 := through_bits DoubleS v4 in
   let o6 := eq_f (get junk o2) (get junk o5) in
   let o7 := unwrap_parse (from_str DoubleS (bytes "0x80000000000004000000.010p-28")) in
   let v8 := get junk o7 in
   let o9 := through_bits DoubleS v8 in
   let o10 := from_bits DoubleS 4836865999795912705 in
   let o11 := eq_f (get junk o9) (get junk o10) in
   all_true [
      returns o0;
      returns o2;
      returns o3;
      returns o5;
      returns o6;
      get false o6;
      returns o7;
      returns o9;
      returns o10;
      returns o11;
      get false o11]) = true.
Proof. vm_compute. reflexivity. Qed.

(** ieee.rs:1241 [to_string] *)
Example test_to_string_1 : (
   let o0 := from_bits DoubleS 4621819117588971520 in
   let v1 := get junk o0 in
   let o2 := fmt DoubleS v1 (Some 3) (Some 6) false in
   let o3 := from_bits DoubleS 4621819117588971520 in
   let v4 := get junk o3 in
   let o5 := fmt DoubleS v4 (Some 0) (Some 6) false in
   let o6 := from_bits DoubleS 4666778148048732160 in
   let v7 := get junk o6 in
   let o8 := fmt DoubleS v7 (Some 2) (Some 5) false in
   let o9 := from_bits DoubleS 4666778148048732160 in
   let v10 := get junk o9 in
   let o11 := fmt DoubleS v10 (Some 2) (Some 4) false in
   let o12 := from_bits DoubleS 4666778148048732160 in
   let v13 := get junk o12 in
   let o14 := fmt DoubleS v13 (Some 1) (Some 5) false in
   let o15 := from_bits DoubleS 4576975875379318017 in
   let v16 := get junk o15 in
   let o17 := fmt DoubleS v16 (Some 2) (Some 5) false in
   let o18 := from_bits DoubleS 4576975875379318017 in
   let v19 := get junk o18 in
   let o20 := fmt DoubleS v19 (Some 2) (Some 4) false in
   let o21 := from_bits DoubleS 4576975875379318017 in
   let v22 := get junk o21 in
   let o23 := fmt DoubleS v22 (Some 1) (Some 5) false in
   let o24 := from_bits DoubleS 4605249457297304856 in
   let v25 := get junk o24 in
   let o26 := fmt DoubleS v25 (Some 3) None false in
   let o27 := from_bits DoubleS 1 in
   let o28 := from_bits DoubleS 4650891818230829233 in
   let v29 := get junk o28 in
   let o30 := fmt DoubleS v29 (Some 1) None false in
   let o31 := from_bits DoubleS 4650891818230829233 in
   let v32 := get junk o31 in
   let o33 := fmt DoubleS v32 (Some 0) None false in
   let o34 := from_bits DoubleS 9218868437227405311 in
   let o35 := from_bits DoubleS 4621819117588971520 in
   let v36 := get junk o35 in
   let o37 := fmt DoubleS v36 (Some 3) (Some 6) true in
   let o38 := from_bits DoubleS 4621819117588971520 in
   let v39 := get junk o38 in
   let o40 := fmt DoubleS v39 (Some 0) (Some 6) true in
   all_true [
      returns o0;
      returns o2;
      str_eqb (get [] o2) (bytes "10");
      returns o3;
      returns o5;
      str_eqb (get [] o5) (bytes "1.0E+1");
      returns o6;
      returns o8;
      str_eqb (get [] o8) (bytes "10100");
      returns o9;
      returns o11;
      str_eqb (get [] o11) (bytes "1.01E+4");
      returns o12;
      returns o14;
      str_eqb (get [] o14) (bytes "1.01E+4");
      returns o15;
      returns o17;
      str_eqb (get [] o17) (bytes "0.0101");
      returns o18;
      returns o20;
      str_eqb (get [] o20) (bytes "0.0101");
      returns o21;
      returns o23;
      str_eqb (get [] o23) (bytes "1.01E-2");
      returns o24;
      returns o26;
      str_eqb (get [] o26) (bytes "0.78539816339744828");
      returns o27;
      returns o28;
      returns o30;
      str_eqb (get [] o30) (bytes "873.18340000000001");
      returns o31;
      returns o33;
      str_eqb (get [] o33) (bytes "8.7318340000000001E+2");
      returns o34;
      returns o35;
      returns o37;
      str_eqb (get [] o37) (bytes "10");
      returns o38;
      returns o40]) = true.
Proof. vm_compute. reflexivity. Qed.

Example test_to_string_2 : (
   let o0 := from_bits DoubleS 4621819117588971520 in
   let v1 := get junk o0 in
   let o2 := fmt DoubleS v1 (Some 0) (Some 6) true in
   let o3 := from_bits DoubleS 4666778148048732160 in
   let v4 := get junk o3 in
   let o5 := fmt DoubleS v4 (Some 2) (Some 5) true in
   let o6 := from_bits DoubleS 4666778148048732160 in
   let v7 := get junk o6 in
   let o8 := fmt DoubleS v7 (Some 2) (Some 4) true in
   let o9 := from_bits DoubleS 4666778148048732160 in
   let v10 := get junk o9 in
   let o11 := fmt DoubleS v10 (Some 1) (Some 5) true in
   let o12 := from_bits DoubleS 4576975875379318017 in
   let v13 := get junk o12 in
   let o14 := fmt DoubleS v13 (Some 2) (Some 5) true in
   let o15 := from_bits DoubleS 4576975875379318017 in
   let v16 := get junk o15 in
   let o17 := fmt DoubleS v16 (Some 2) (Some 4) true in
   let o18 := from_bits DoubleS 4576975875379318017 in
   let v19 := get junk o18 in
   let o20 := fmt DoubleS v19 (Some 1) (Some 5) true in
   let o21 := from_bits DoubleS 4605249457297304856 in
   let v22 := get junk o21 in
   let o23 := fmt DoubleS v22 (Some 3) None true in
   let o24 := from_bits DoubleS 1 in
   let o25 := from_bits DoubleS 4650891818230829233 in
   let v26 := get junk o25 in
   let o27 := fmt DoubleS v26 (Some 1) None true in
   let o28 := from_bits DoubleS 4650891818230829233 in
   let v29 := get junk o28 in
   let o30 := fmt DoubleS v29 (Some 0) None true in
   let o31 := from_bits DoubleS 9218868437227405311 in
   let o32 := from_bits X87DoubleExtendedS 18446744073709551616 in
   let o33 := fmt X87DoubleExtendedS (get junk o32) None None false in
   all_true [
      str_eqb (get [] o2) (bytes "1.000000e+01");
      returns o3;
      returns o5;
      str_eqb (get [] o5) (bytes "10100");
      returns o6;
      returns o8;
      str_eqb (get [] o8) (bytes "1.0100e+04");
      returns o9;
      returns o11;
      str_eqb (get [] o11) (bytes "1.01000e+04");
      returns o12;
      returns o14;
      str_eqb (get [] o14) (bytes "0.0101");
      returns o15;
      returns o17;
      str_eqb (get [] o17) (bytes "0.0101");
      returns o18;
      returns o20;
      str_eqb (get [] o20) (bytes "1.01000e-02");
      returns o21;
      returns o23;
      str_eqb (get [] o23) (bytes "0.78539816339744828");
      returns o24;
      returns o25;
      returns o27;
      str_eqb (get [] o27) (bytes "873.18340000000001");
      returns o28;
      returns o30;
      str_eqb (get [] o30) (bytes "8.73183400000000010e+02");
      returns o31;
      returns o32;
      returns o33;
      str_eqb (get [] o33) (bytes "NaN")]) = true.
Proof. vm_compute. reflexivity. Qed.

(** ieee.rs:1289 [to_integer] *)
Example test_to_integer : (
   let o0 := unwrap_parse (from_str DoubleS (bytes "10")) in
   let v1 := get junk o0 in
   let o2 := to_u128_r DoubleS v1 5 TowardZero in
   let v3 := get (0, 0, false) o2 in
   let v4 := snd v3 in
   let o5 := unwrap_parse (from_str DoubleS (bytes "-10")) in
   let v6 := get junk o5 in
   let o7 := to_u128_r DoubleS v6 5 TowardZero in
   let v8 := get (0, 0, false) o7 in
   let v9 := snd v8 in
   let o10 := unwrap_parse (from_str DoubleS (bytes "32")) in
   let v11 := get junk o10 in
   let o12 := to_u128_r DoubleS v11 5 TowardZero in
   let v13 := get (0, 0, false) o12 in
   let v14 := snd v13 in
   let o15 := unwrap_parse (from_str DoubleS (bytes "7.9")) in
   let v16 := get junk o15 in
   let o17 := to_u128_r DoubleS v16 5 TowardZero in
   let v18 := get (0, 0, false) o17 in
   let v19 := snd v18 in
   let o20 := unwrap_parse (from_str DoubleS (bytes "-10")) in
   let v21 := get junk o20 in
   let o22 := to_i128_r DoubleS v21 5 TowardZero in
   let v23 := get (0, 0, false) o22 in
   let v24 := snd v23 in
   let o25 := unwrap_parse (from_str DoubleS (bytes "-17")) in
   let v26 := get junk o25 in
   let o27 := to_i128_r DoubleS v26 5 TowardZero in
   let v28 := get (0, 0, false) o27 in
   let v29 := snd v28 in
   let o30 := unwrap_parse (from_str DoubleS (bytes "16")) in
   let v31 := get junk o30 in
   let o32 := to_i128_r DoubleS v31 5 TowardZero in
   let v33 := get (0, 0, false) o32 in
   let v34 := snd v33 in
   all_true [
      returns o0;
      returns o2;
      (fst (OK, 10) =? fst (fst v3)) && (snd (OK, 10) =? snd (fst v3));
      v4;
      returns o5;
      returns o7;
      (fst (INVALID_OP, 0) =? fst (fst v8)) && (snd (INVALID_OP, 0) =? snd (fst v8));
      negb v9;
      returns o10;
      returns o12;
      (fst (INVALID_OP, 31) =? fst (fst v13)) && (snd (INVALID_OP, 31) =? snd (fst v13));
      negb v14;
      returns o15;
      returns o17;
      (fst (INEXACT, 7) =? fst (fst v18)) && (snd (INEXACT, 7) =? snd (fst v18));
      negb v19;
      returns o20;
      returns o22;
      (fst (OK, (-10)) =? fst (fst v23)) && (snd (OK, (-10)) =? snd (fst v23));
      v24;
      returns o25;
      returns o27;
      (fst (INVALID_OP, (-16)) =? fst (fst v28)) && (snd (INVALID_OP, (-16)) =? snd (fst v28));
      negb v29;
      returns o30;
      returns o32;
      (fst (INVALID_OP, 15) =? fst (fst v33)) && (snd (INVALID_OP, 15) =? snd (fst v33));
      negb v34]) = true.
Proof. vm_compute. reflexivity. Qed.

(** ieee.rs:1354 [nan] *)
Example test_nan : (
   let v0 := qnan SingleS (Some 0) in
   let o1 := to_bits SingleS v0 in
   let v2 := qnan SingleS (Some 0) in
   let o3 := to_bits SingleS (neg v2) in
   let v4 := qnan SingleS (Some 44658) in
   let o5 := to_bits SingleS v4 in
   let v6 := qnan SingleS (Some 4294946418) in
   let o7 := to_bits SingleS v6 in
   let v8 := qnan SingleS (Some 14331506) in
   let o9 := to_bits SingleS v8 in
   let v10 := snan SingleS (Some 0) in
   let o11 := to_bits SingleS v10 in
   let v12 := snan SingleS (Some 0) in
   let o13 := to_bits SingleS (neg v12) in
   let v14 := snan SingleS (Some 44658) in
   let o15 := to_bits SingleS v14 in
   let v16 := snan SingleS (Some 4294946418) in
   let o17 := to_bits SingleS v16 in
   let v18 := snan SingleS (Some 1748594) in
   let o19 := to_bits SingleS v18 in
   let v20 := qnan DoubleS (Some 0) in
   let o21 := to_bits DoubleS v20 in
   let v22 := qnan DoubleS (Some 0) in
   let o23 := to_bits DoubleS (neg v22) in
   let v24 := qnan DoubleS (Some 44658) in
   let o25 := to_bits DoubleS v24 in
   let v26 := qnan DoubleS (Some 18446744073709530738) in
   let o27 := to_bits DoubleS v26 in
   let v28 := qnan DoubleS (Some 3846824681713266) in
   let o29 := to_bits DoubleS v28 in
   let v30 := snan DoubleS (Some 0) in
   let o31 := to_bits DoubleS v30 in
   let v32 := snan DoubleS (Some 0) in
   let o33 := to_bits DoubleS (neg v32) in
   let v34 := snan DoubleS (Some 44658) in
   let o35 := to_bits DoubleS v34 in
   let v36 := snan DoubleS (Some 18446744073709530738) in
   let o37 := to_bits DoubleS v36 in
   let v38 := snan DoubleS (Some 469124961185394) in
   let o39 := to_bits DoubleS v38 in
   all_true [
      returns o1;
      (get 0 o1) =? 2143289344;
      returns o3;
      (get 0 o3) =? 4290772992;
      returns o5;
      (get 0 o5) =? 2143334002;
      returns o7;
      (get 0 o7) =? 2147462770;
      returns o9;
      (get 0 o9) =? 2145037938;
      returns o11;
      (get 0 o11) =? 2141192192;
      returns o13;
      (get 0 o13) =? 4288675840;
      returns o15;
      (get 0 o15) =? 2139139698;
      returns o17;
      (get 0 o17) =? 2143268466;
      returns o19;
      (get 0 o19) =? 2140843634;
      returns o21;
      (get 0 o21) =? 9221120237041090560;
      returns o23;
      (get 0 o23) =? 18444492273895866368;
      returns o25;
      (get 0 o25) =? 9221120237041135218;
      returns o27;
      (get 0 o27) =? 9223372036854754930;
      returns o29;
      (get 0 o29) =? 9222715261909118578;
      returns o31;
      (get 0 o31) =? 9219994337134247936;
      returns o33;
      (get 0 o33) =? 18443366373989023744;
      returns o35;
      (get 0 o35) =? 9218868437227449970;
      returns o37;
      (get 0 o37) =? 9221120237041069682;
      returns o39;
      (get 0 o39) =? 9219337562188590706]) = true.
Proof. vm_compute. reflexivity. Qed.

(** ieee.rs:1403 [string_decimal_error] *)
Example test_string_decimal_error : (
   all_true [
      error_is (from_str DoubleS (bytes "")) InvalidStringLength;
      error_is (from_str DoubleS (bytes "+")) StringHasNoDigits;
      error_is (from_str DoubleS (bytes "-")) StringHasNoDigits;
      error_is (from_str DoubleS [0]) InvalidCharacterInSignificand;
      error_is (from_str DoubleS [49; 0]) InvalidCharacterInSignificand;
      error_is (from_str DoubleS [49; 0; 50]) InvalidCharacterInSignificand;
      error_is (from_str DoubleS [49; 0; 50; 101; 49]) InvalidCharacterInSignificand;
      error_is (from_str DoubleS [49; 101; 0]) InvalidCharacterInExponent;
      error_is (from_str DoubleS [49; 101; 49; 0]) InvalidCharacterInExponent;
      error_is (from_str DoubleS [49; 101; 49; 0; 50]) InvalidCharacterInExponent;
      error_is (from_str DoubleS (bytes "1.0f")) InvalidCharacterInSignificand;
      error_is (from_str DoubleS (bytes "..")) StringContainsMultipleDots;
      error_is (from_str DoubleS (bytes "..0")) StringContainsMultipleDots;
      error_is (from_str DoubleS (bytes "1.0.0")) StringContainsMultipleDots]) = true.
Proof. vm_compute. reflexivity. Qed.

(** ieee.rs:1424 [string_decimal_significand_error] *)
Example test_string_decimal_significand_error : (
   all_true [
      error_is (from_str DoubleS (bytes ".")) SignificandHasNoDigits;
      error_is (from_str DoubleS (bytes "+.")) SignificandHasNoDigits;
      error_is (from_str DoubleS (bytes "-.")) SignificandHasNoDigits;
      error_is (from_str DoubleS (bytes "e")) SignificandHasNoDigits;
      error_is (from_str DoubleS (bytes "+e")) SignificandHasNoDigits;
      error_is (from_str DoubleS (bytes "-e")) SignificandHasNoDigits;
      error_is (from_str DoubleS (bytes "e1")) SignificandHasNoDigits;
      error_is (from_str DoubleS (bytes "+e1")) SignificandHasNoDigits;
      error_is (from_str DoubleS (bytes "-e1")) SignificandHasNoDigits;
      error_is (from_str DoubleS (bytes ".e1")) SignificandHasNoDigits;
      error_is (from_str DoubleS (bytes "+.e1")) SignificandHasNoDigits;
      error_is (from_str DoubleS (bytes "-.e1")) SignificandHasNoDigits;
      error_is (from_str DoubleS (bytes ".e")) SignificandHasNoDigits;
      error_is (from_str DoubleS (bytes "+.e")) SignificandHasNoDigits;
      error_is (from_str DoubleS (bytes "-.e")) SignificandHasNoDigits]) = true.
Proof. vm_compute. reflexivity. Qed.

(** ieee.rs:1447 [string_hexadecimal_error] *)
Example test_string_hexadecimal_error : (
   all_true [
      error_is (from_str DoubleS (bytes "0x")) InvalidString;
      error_is (from_str DoubleS (bytes "+0x")) InvalidString;
      error_is (from_str DoubleS (bytes "-0x")) InvalidString;
      error_is (from_str DoubleS (bytes "0x0")) HexStringsRequireAnExponent;
      error_is (from_str DoubleS (bytes "+0x0")) HexStringsRequireAnExponent;
      error_is (from_str DoubleS (bytes "-0x0")) HexStringsRequireAnExponent;
      error_is (from_str DoubleS (bytes "0x0.")) HexStringsRequireAnExponent;
      error_is (from_str DoubleS (bytes "+0x0.")) HexStringsRequireAnExponent;
      error_is (from_str DoubleS (bytes "-0x0.")) HexStringsRequireAnExponent;
      error_is (from_str DoubleS (bytes "0x.0")) HexStringsRequireAnExponent;
      error_is (from_str DoubleS (bytes "+0x.0")) HexStringsRequireAnExponent;
      error_is (from_str DoubleS (bytes "-0x.0")) HexStringsRequireAnExponent;
      error_is (from_str DoubleS (bytes "0x0.0")) HexStringsRequireAnExponent;
      error_is (from_str DoubleS (bytes "+0x0.0")) HexStringsRequireAnExponent;
      error_is (from_str DoubleS (bytes "-0x0.0")) HexStringsRequireAnExponent;
      error_is (from_str DoubleS [48; 120; 0]) InvalidCharacterInSignificand;
      error_is (from_str DoubleS [48; 120; 49; 0]) InvalidCharacterInSignificand;
      error_is (from_str DoubleS [48; 120; 49; 0; 50]) InvalidCharacterInSignificand;
      error_is (from_str DoubleS [48; 120; 49; 0; 50; 112; 49]) InvalidCharacterInSignificand;
      error_is (from_str DoubleS [48; 120; 49; 112; 0]) InvalidCharacterInExponent;
      error_is (from_str DoubleS [48; 120; 49; 112; 49; 0]) InvalidCharacterInExponent;
      error_is (from_str DoubleS [48; 120; 49; 112; 49; 0; 50]) InvalidCharacterInExponent;
      error_is (from_str DoubleS (bytes "0x1p0f")) InvalidCharacterInExponent;
      error_is (from_str DoubleS (bytes "0x..p1")) StringContainsMultipleDots;
      error_is (from_str DoubleS (bytes "0x..0p1")) StringContainsMultipleDots;
      error_is (from_str DoubleS (bytes "0x1.0.0p1")) StringContainsMultipleDots]) = true.
Proof. vm_compute. reflexivity. Qed.

(** ieee.rs:1484 [string_hexadecimal_significand_error] *)
Example test_string_hexadecimal_significand_error : (
   all_true [
      error_is (from_str DoubleS (bytes "0x.")) SignificandHasNoDigits;
      error_is (from_str DoubleS (bytes "+0x.")) SignificandHasNoDigits;
      error_is (from_str DoubleS (bytes "-0x.")) SignificandHasNoDigits;
      error_is (from_str DoubleS (bytes "0xp")) SignificandHasNoDigits;
      error_is (from_str DoubleS (bytes "+0xp")) SignificandHasNoDigits;
      error_is (from_str DoubleS (bytes "-0xp")) SignificandHasNoDigits;
      error_is (from_str DoubleS (bytes "0xp+")) SignificandHasNoDigits;
      error_is (from_str DoubleS (bytes "+0xp+")) SignificandHasNoDigits;
      error_is (from_str DoubleS (bytes "-0xp+")) SignificandHasNoDigits;
      error_is (from_str DoubleS (bytes "0xp-")) SignificandHasNoDigits;
      error_is (from_str DoubleS (bytes "+0xp-")) SignificandHasNoDigits;
      error_is (from_str DoubleS (bytes "-0xp-")) SignificandHasNoDigits;
      error_is (from_str DoubleS (bytes "0x.p")) SignificandHasNoDigits;
      error_is (from_str DoubleS (bytes "+0x.p")) SignificandHasNoDigits;
      error_is (from_str DoubleS (bytes "-0x.p")) SignificandHasNoDigits;
      error_is (from_str DoubleS (bytes "0x.p+")) SignificandHasNoDigits;
      error_is (from_str DoubleS (bytes "+0x.p+")) SignificandHasNoDigits;
      error_is (from_str DoubleS (bytes "-0x.p+")) SignificandHasNoDigits;
      error_is (from_str DoubleS (bytes "0x.p-")) SignificandHasNoDigits;
      error_is (from_str DoubleS (bytes "+0x.p-")) SignificandHasNoDigits;
      error_is (from_str DoubleS (bytes "-0x.p-")) SignificandHasNoDigits]) = true.
Proof. vm_compute. reflexivity. Qed.

(** ieee.rs:1515 [string_hexadecimal_exponent_error] *)
Example test_string_hexadecimal_exponent_error : (
   all_true [
      error_is (from_str DoubleS (bytes "0x1p")) ExponentHasNoDigits;
      error_is (from_str DoubleS (bytes "+0x1p")) ExponentHasNoDigits;
      error_is (from_str DoubleS (bytes "-0x1p")) ExponentHasNoDigits;
      error_is (from_str DoubleS (bytes "0x1p+")) ExponentHasNoDigits;
      error_is (from_str DoubleS (bytes "+0x1p+")) ExponentHasNoDigits;
      error_is (from_str DoubleS (bytes "-0x1p+")) ExponentHasNoDigits;
      error_is (from_str DoubleS (bytes "0x1p-")) ExponentHasNoDigits;
      error_is (from_str DoubleS (bytes "+0x1p-")) ExponentHasNoDigits;
      error_is (from_str DoubleS (bytes "-0x1p-")) ExponentHasNoDigits;
      error_is (from_str DoubleS (bytes "0x1.p")) ExponentHasNoDigits;
      error_is (from_str DoubleS (bytes "+0x1.p")) ExponentHasNoDigits;
      error_is (from_str DoubleS (bytes "-0x1.p")) ExponentHasNoDigits;
      error_is (from_str DoubleS (bytes "0x1.p+")) ExponentHasNoDigits;
      error_is (from_str DoubleS (bytes "+0x1.p+")) ExponentHasNoDigits;
      error_is (from_str DoubleS (bytes "-0x1.p+")) ExponentHasNoDigits;
      error_is (from_str DoubleS (bytes "0x1.p-")) ExponentHasNoDigits;
      error_is (from_str DoubleS (bytes "+0x1.p-")) ExponentHasNoDigits;
      error_is (from_str DoubleS (bytes "-0x1.p-")) ExponentHasNoDigits;
      error_is (from_str DoubleS (bytes "0x.1p")) ExponentHasNoDigits;
      error_is (from_str DoubleS (bytes "+0x.1p")) ExponentHasNoDigits;
      error_is (from_str DoubleS (bytes "-0x.1p")) ExponentHasNoDigits;
      error_is (from_str DoubleS (bytes "0x.1p+")) ExponentHasNoDigits;
      error_is (from_str DoubleS (bytes "+0x.1p+")) ExponentHasNoDigits;
      error_is (from_str DoubleS (bytes "-0x.1p+")) ExponentHasNoDigits;
      error_is (from_str DoubleS (bytes "0x.1p-")) ExponentHasNoDigits;
      error_is (from_str DoubleS (bytes "+0x.1p-")) ExponentHasNoDigits;
      error_is (from_str DoubleS (bytes "-0x.1p-")) ExponentHasNoDigits;
      error_is (from_str DoubleS (bytes "0x1.1p")) ExponentHasNoDigits;
      error_is (from_str DoubleS (bytes "+0x1.1p")) ExponentHasNoDigits;
      error_is (from_str DoubleS (bytes "-0x1.1p")) ExponentHasNoDigits;
      error_is (from_str DoubleS (bytes "0x1.1p+")) ExponentHasNoDigits;
      error_is (from_str DoubleS (bytes "+0x1.1p+")) ExponentHasNoDigits;
      error_is (from_str DoubleS (bytes "-0x1.1p+")) ExponentHasNoDigits;
      error_is (from_str DoubleS (bytes "0x1.1p-")) ExponentHasNoDigits;
      error_is (from_str DoubleS (bytes "+0x1.1p-")) ExponentHasNoDigits;
      error_is (from_str DoubleS (bytes "-0x1.1p-")) ExponentHasNoDigits]) = true.
Proof. vm_compute. reflexivity. Qed.

(** ieee.rs:1566 [exact_inverse] *)
Example test_exact_inverse : (
   let o0 := from_bits DoubleS 4611686018427387904 in
   let o1 := get_exact_inverse DoubleS (get junk o0) in
   let o2 := unwrap_option (get None o1) in
   let o3 := from_bits DoubleS 4602678819172646912 in
   let o4 := from_bits SingleS 1073741824 in
   let o5 := get_exact_inverse SingleS (get junk o4) in
   let o6 := unwrap_option (get None o5) in
   let o7 := from_bits SingleS 1056964608 in
   let o8 := unwrap_parse (from_str QuadS (bytes "2.0")) in
   let v9 := get junk o8 in
   let o10 := get_exact_inverse QuadS v9 in
   let o11 := unwrap_option (get None o10) in
   let o12 := unwrap_parse (from_str QuadS (bytes "0.5")) in
   let v13 := get junk o12 in
   let o14 := unwrap_parse (from_str X87DoubleExtendedS (bytes "2.0")) in
   let v15 := get junk o14 in
   let o16 := get_exact_inverse X87DoubleExtendedS v15 in
   let o17 := unwrap_option (get None o16) in
   let o18 := unwrap_parse (from_str X87DoubleExtendedS (bytes "0.5")) in
   let v19 := get junk o18 in
   let o20 := from_bits SingleS 8388608 in
   let o21 := get_exact_inverse SingleS (get junk o20) in
   let o22 := unwrap_option (get None o21) in
   let o23 := from_bits SingleS 2122317824 in
   let o24 := from_bits SingleS 2130706432 in
   let o25 := get_exact_inverse SingleS (get junk o24) in
   let o26 := from_bits DoubleS 0 in
   let o27 := get_exact_inverse DoubleS (get junk o26) in
   let o28 := from_bits SingleS 1 in
   let o29 := get_exact_inverse SingleS (get junk o28) in
   all_true [
      returns o0;
      returns o1;
      returns o2;
      returns o3;
      bitwise_eq (get junk o2) (get junk o3);
      returns o4;
      returns o5;
      returns o6;
      returns o7;
      bitwise_eq (get junk o6) (get junk o7);
      returns o8;
      returns o10;
      returns o11;
      returns o12;
      bitwise_eq (get junk o11) v13;
      returns o14;
      returns o16;
      returns o17;
      returns o18;
      bitwise_eq (get junk o17) v19;
      returns o20;
      returns o21;
      returns o22;
      returns o23;
      bitwise_eq (get junk o22) (get junk o23);
      returns o24;
      returns o25;
      is_none (get None o25);
      returns o26;
      returns o27;
      is_none (get None o27);
      returns o28;
      returns o29;
      is_none (get None o29)]) = true.
Proof. vm_compute. reflexivity. Qed.

(** ieee.rs:1604 [round_to_integral] *)
Example test_round_to_integral_1 : (
   let o0 := from_bits DoubleS 13826050856027422720 in
   let v1 := get junk o0 in
   let o2 := round_to_integral DoubleS v1 TowardZero in
   let v3 := snd (get (0, junk) o2) in
   let o4 := through_bits DoubleS v3 in
   let o5 := from_bits DoubleS 9223372036854775808 in
   let o6 := eq_f (get junk o4) (get junk o5) in
   let o7 := round_to_integral DoubleS v1 TowardNegative in
   let v8 := snd (get (0, junk) o7) in
   let o9 := through_bits DoubleS v8 in
   let o10 := from_bits DoubleS 13830554455654793216 in
   let o11 := eq_f (get junk o9) (get junk o10) in
   let o12 := round_to_integral DoubleS v1 TowardPositive in
   let v13 := snd (get (0, junk) o12) in
   let o14 := through_bits DoubleS v13 in
   let o15 := from_bits DoubleS 9223372036854775808 in
   let o16 := eq_f (get junk o14) (get junk o15) in
   let o17 := round_to_integral DoubleS v1 NearestTiesToEven in
   let v18 := snd (get (0, junk) o17) in
   let o19 := through_bits DoubleS v18 in
   let o20 := from_bits DoubleS 9223372036854775808 in
   let o21 := eq_f (get junk o19) (get junk o20) in
   let o22 := from_bits DoubleS 4614253070214989087 in
   let v23 := get junk o22 in
   let o24 := round_to_integral DoubleS v23 TowardZero in
   let v25 := snd (get (0, junk) o24) in
   let o26 := through_bits DoubleS v25 in
   let o27 := from_bits DoubleS 4613937818241073152 in
   let o28 := eq_f (get junk o26) (get junk o27) in
   let o29 := round_to_integral DoubleS v23 TowardNegative in
   let v30 := snd (get (0, junk) o29) in
   let o31 := through_bits DoubleS v30 in
   let o32 := from_bits DoubleS 4613937818241073152 in
   let o33 := eq_f (get junk o31) (get junk o32) in
   let o34 := round_to_integral DoubleS v23 TowardPositive in
   let v35 := snd (get (0, junk) o34) in
   let o36 := through_bits DoubleS v35 in
   let o37 := from_bits DoubleS 4616189618054758400 in
   let o38 := eq_f (get junk o36) (get junk o37) in
   let o39 := round_to_integral DoubleS v23 NearestTiesToEven in
   let v40 := snd (get (0, junk) o39) in
   let o41 := through_bits DoubleS v40 in
   let o42 := from_bits DoubleS 4613937818241073152 in
   all_true [
      returns o0;
      returns o2;
      returns o4;
      returns o5;
      returns o6;
      get false o6;
      returns o7;
      returns o9;
      returns o10;
      returns o11;
      get false o11;
      returns o12;
      returns o14;
      returns o15;
      returns o16;
      get false o16;
      returns o17;
      returns o19;
      returns o20;
      returns o21;
      get false o21;
      returns o22;
      returns o24;
      returns o26;
      returns o27;
      returns o28;
      get false o28;
      returns o29;
      returns o31;
      returns o32;
      returns o33;
      get false o33;
      returns o34;
      returns o36;
      returns o37;
      returns o38;
      get false o38;
      returns o39;
      returns o41;
      returns o42]) = true.
Proof. vm_compute. reflexivity. Qed.

Example test_round_to_integral_2 : (
   let o0 := from_bits DoubleS 4614253070214989087 in
   let v1 := get junk o0 in
   let o2 := round_to_integral DoubleS v1 NearestTiesToEven in
   let v3 := snd (get (0, junk) o2) in
   let o4 := through_bits DoubleS v3 in
   let o5 := from_bits DoubleS 4613937818241073152 in
   let o6 := eq_f (get junk o4) (get junk o5) in
   let v7 := largest DoubleS in
   let o8 := through_bits DoubleS v7 in
   let o9 := round_to_integral DoubleS v7 TowardZero in
   let v10 := snd (get (0, junk) o9) in
   let o11 := through_bits DoubleS v10 in
   let o12 := eq_f (get junk o8) (get junk o11) in
   let o13 := through_bits DoubleS v7 in
   let o14 := round_to_integral DoubleS v7 TowardNegative in
   let v15 := snd (get (0, junk) o14) in
   let o16 := through_bits DoubleS v15 in
   let o17 := eq_f (get junk o13) (get junk o16) in
   let o18 := through_bits DoubleS v7 in
   let o19 := round_to_integral DoubleS v7 TowardPositive in
   let v20 := snd (get (0, junk) o19) in
   let o21 := through_bits DoubleS v20 in
   let o22 := eq_f (get junk o18) (get junk o21) in
   let o23 := through_bits DoubleS v7 in
   let o24 := round_to_integral DoubleS v7 NearestTiesToEven in
   let v25 := snd (get (0, junk) o24) in
   let o26 := through_bits DoubleS v25 in
   let o27 := eq_f (get junk o23) (get junk o26) in
   let o28 := round_to_integral DoubleS (ZERO DoubleS) TowardZero in
   let v29 := snd (get (0, junk) o28) in
   let o30 := through_bits DoubleS v29 in
   let o31 := from_bits DoubleS 0 in
   let o32 := eq_f (get junk o30) (get junk o31) in
   let o33 := round_to_integral DoubleS (neg (ZERO DoubleS)) TowardZero in
   let v34 := snd (get (0, junk) o33) in
   let o35 := through_bits DoubleS v34 in
   let o36 := from_bits DoubleS 9223372036854775808 in
   let o37 := eq_f (get junk o35) (get junk o36) in
   let o38 := round_to_integral DoubleS (NAN DoubleS) TowardZero in
   let v39 := snd (get (0, junk) o38) in
   let o40 := through_bits DoubleS v39 in
   let o41 := round_to_integral DoubleS (INFINITY DoubleS) TowardZero in
   let v42 := snd (get (0, junk) o41) in
   let o43 := through_bits DoubleS v42 in
   let o44 := through_bits DoubleS v42 in
   let o45 := from_bits DoubleS 0 in
   let o46 := gt_f (get junk o44) (get junk o45) in
   all_true [
      returns o6;
      get false o6;
      returns o8;
      returns o9;
      returns o11;
      returns o12;
      get false o12;
      returns o13;
      returns o14;
      returns o16;
      returns o17;
      get false o17;
      returns o18;
      returns o19;
      returns o21;
      returns o22;
      get false o22;
      returns o23;
      returns o24;
      returns o26;
      returns o27;
      get false o27;
      returns o28;
      returns o30;
      returns o31;
      returns o32;
      get false o32;
      returns o33;
      returns o35;
      returns o36;
      returns o37;
      get false o37;
      returns o38;
      returns o40;
      is_nan (get junk o40);
      returns o41;
      returns o43;
      returns o44;
      returns o45;
      returns o46]) = true.
Proof. vm_compute. reflexivity. Qed.

Example test_round_to_integral_3 : (
   let o0 := round_to_integral DoubleS (INFINITY DoubleS) TowardZero in
   let v1 := snd (get (0, junk) o0) in
   let o2 := through_bits DoubleS v1 in
   let o3 := through_bits DoubleS v1 in
   let o4 := from_bits DoubleS 0 in
   let o5 := gt_f (get junk o3) (get junk o4) in
   let o6 := round_to_integral DoubleS (neg (INFINITY DoubleS)) TowardZero in
   let v7 := snd (get (0, junk) o6) in
   let o8 := through_bits DoubleS v7 in
   let o9 := through_bits DoubleS v7 in
   let o10 := from_bits DoubleS 0 in
   let o11 := lt_f (get junk o9) (get junk o10) in
   let o12 := round_to_integral DoubleS (NAN DoubleS) TowardZero in
   let v13 := get (0, junk) o12 in
   let v14 := fst v13 in
   let v15 := snd v13 in
   let o16 := round_to_integral DoubleS (neg (NAN DoubleS)) TowardZero in
   let v17 := get (0, junk) o16 in
   let v18 := fst v17 in
   let v19 := snd v17 in
   let o20 := round_to_integral DoubleS (snan DoubleS None) TowardZero in
   let v21 := get (0, junk) o20 in
   let v22 := fst v21 in
   let v23 := snd v21 in
   let o24 := round_to_integral DoubleS (neg (snan DoubleS None)) TowardZero in
   let v25 := get (0, junk) o24 in
   let v26 := fst v25 in
   let v27 := snd v25 in
   let o28 := round_to_integral DoubleS (INFINITY DoubleS) TowardZero in
   let v29 := get (0, junk) o28 in
   let v30 := fst v29 in
   let v31 := snd v29 in
   let o32 := round_to_integral DoubleS (neg (INFINITY DoubleS)) TowardZero in
   let v33 := get (0, junk) o32 in
   let v34 := fst v33 in
   let v35 := snd v33 in
   let o36 := round_to_integral DoubleS (ZERO DoubleS) TowardZero in
   let v37 := get (0, junk) o36 in
   let v38 := fst v37 in
   let v39 := snd v37 in
   let o40 := round_to_integral DoubleS (ZERO DoubleS) TowardNegative in
   let v41 := get (0, junk) o40 in
   let v42 := snd v41 in
   all_true [
      andb (is_infinite (get junk o2)) (get false o5);
      returns o6;
      returns o8;
      returns o9;
      returns o10;
      returns o11;
      andb (is_infinite (get junk o8)) (get false o11);
      returns o12;
      is_nan v15;
      negb (is_negative v15);
      OK =? v14;
      returns o16;
      is_nan v19;
      is_negative v19;
      OK =? v18;
      returns o20;
      is_nan v23;
      negb (is_signaling DoubleS v23);
      negb (is_negative v23);
      INVALID_OP =? v22;
      returns o24;
      is_nan v27;
      negb (is_signaling DoubleS v27);
      is_negative v27;
      INVALID_OP =? v26;
      returns o28;
      is_infinite v31;
      negb (is_negative v31);
      OK =? v30;
      returns o32;
      is_infinite v35;
      is_negative v35;
      OK =? v34;
      returns o36;
      is_zero v39;
      negb (is_negative v39);
      OK =? v38;
      returns o40;
      is_zero v42;
      negb (is_negative v42)]) = true.
Proof. vm_compute. reflexivity. Qed.

Example test_round_to_integral_4 : (
   let o0 := round_to_integral DoubleS (ZERO DoubleS) TowardNegative in
   let v1 := get (0, junk) o0 in
   let v2 := fst v1 in
   let o3 := round_to_integral DoubleS (neg (ZERO DoubleS)) TowardZero in
   let v4 := get (0, junk) o3 in
   let v5 := fst v4 in
   let v6 := snd v4 in
   let o7 := round_to_integral DoubleS (neg (ZERO DoubleS)) TowardNegative in
   let v8 := get (0, junk) o7 in
   let v9 := fst v8 in
   let v10 := snd v8 in
   let o11 := from_bits DoubleS 3110860544497550640 in
   let o12 := round_to_integral DoubleS (get junk o11) TowardNegative in
   let v13 := get (0, junk) o12 in
   let v14 := fst v13 in
   let v15 := snd v13 in
   let o16 := from_bits DoubleS 3110860544497550640 in
   let o17 := round_to_integral DoubleS (get junk o16) TowardPositive in
   let v18 := get (0, junk) o17 in
   let v19 := fst v18 in
   let v20 := snd v18 in
   let o21 := through_bits DoubleS v20 in
   let o22 := from_bits DoubleS 4607182418800017408 in
   let o23 := eq_f (get junk o21) (get junk o22) in
   let o24 := from_bits DoubleS 12334232581352326448 in
   let o25 := round_to_integral DoubleS (get junk o24) TowardNegative in
   let v26 := get (0, junk) o25 in
   let v27 := fst v26 in
   let v28 := snd v26 in
   let o29 := through_bits DoubleS v28 in
   let o30 := from_bits DoubleS 13830554455654793216 in
   let o31 := eq_f (get junk o29) (get junk o30) in
   let o32 := from_bits DoubleS 12334232581352326448 in
   let o33 := round_to_integral DoubleS (get junk o32) TowardPositive in
   let v34 := get (0, junk) o33 in
   let v35 := fst v34 in
   let v36 := snd v34 in
   let o37 := from_bits DoubleS 4621819117588971520 in
   let o38 := round_to_integral DoubleS (get junk o37) TowardZero in
   let v39 := get (0, junk) o38 in
   let v40 := snd v39 in
   let o41 := through_bits DoubleS v40 in
   let o42 := from_bits DoubleS 4621819117588971520 in
   let o43 := eq_f (get junk o41) (get junk o42) in
   all_true [
      OK =? v2;
      returns o3;
      is_zero v6;
      is_negative v6;
      OK =? v5;
      returns o7;
      is_zero v10;
      is_negative v10;
      OK =? v9;
      returns o11;
      returns o12;
      is_zero v15;
      negb (is_negative v15);
      INEXACT =? v14;
      returns o16;
      returns o17;
      returns o21;
      returns o22;
      returns o23;
      get false o23;
      negb (is_negative v20);
      INEXACT =? v19;
      returns o24;
      returns o25;
      is_negative v28;
      returns o29;
      returns o30;
      returns o31;
      get false o31;
      INEXACT =? v27;
      returns o32;
      returns o33;
      is_zero v36;
      is_negative v36;
      INEXACT =? v35;
      returns o37;
      returns o38;
      returns o41;
      returns o42;
      returns o43]) = true.
Proof. vm_compute. reflexivity. Qed.

Example test_round_to_integral_5 : (
   let o0 := from_bits DoubleS 4621819117588971520 in
   let o1 := round_to_integral DoubleS (get junk o0) TowardZero in
   let v2 := get (0, junk) o1 in
   let v3 := fst v2 in
   let v4 := snd v2 in
   let o5 := through_bits DoubleS v4 in
   let o6 := from_bits DoubleS 4621819117588971520 in
   let o7 := eq_f (get junk o5) (get junk o6) in
   let o8 := from_bits DoubleS 4622100592565682176 in
   let o9 := round_to_integral DoubleS (get junk o8) TowardZero in
   let v10 := get (0, junk) o9 in
   let v11 := fst v10 in
   let v12 := snd v10 in
   let o13 := through_bits DoubleS v12 in
   let o14 := from_bits DoubleS 4621819117588971520 in
   let o15 := eq_f (get junk o13) (get junk o14) in
   let o16 := from_bits DoubleS 4622100592565682176 in
   let o17 := round_to_integral DoubleS (get junk o16) TowardPositive in
   let v18 := get (0, junk) o17 in
   let v19 := fst v18 in
   let v20 := snd v18 in
   let o21 := through_bits DoubleS v20 in
   let o22 := from_bits DoubleS 4622382067542392832 in
   let o23 := eq_f (get junk o21) (get junk o22) in
   let o24 := from_bits DoubleS 4622100592565682176 in
   let o25 := round_to_integral DoubleS (get junk o24) TowardNegative in
   let v26 := get (0, junk) o25 in
   let v27 := fst v26 in
   let v28 := snd v26 in
   let o29 := through_bits DoubleS v28 in
   let o30 := from_bits DoubleS 4621819117588971520 in
   let o31 := eq_f (get junk o29) (get junk o30) in
   let o32 := from_bits DoubleS 4622100592565682176 in
   let o33 := round_to_integral DoubleS (get junk o32) NearestTiesToAway in
   let v34 := get (0, junk) o33 in
   let v35 := fst v34 in
   let v36 := snd v34 in
   let o37 := through_bits DoubleS v36 in
   let o38 := from_bits DoubleS 4622382067542392832 in
   let o39 := eq_f (get junk o37) (get junk o38) in
   let o40 := from_bits DoubleS 4622100592565682176 in
   let o41 := round_to_integral DoubleS (get junk o40) NearestTiesToEven in
   let v42 := get (0, junk) o41 in
   let v43 := fst v42 in
   let v44 := snd v42 in
   let o45 := through_bits DoubleS v44 in
   let o46 := from_bits DoubleS 4621819117588971520 in
   let o47 := eq_f (get junk o45) (get junk o46) in
   all_true [
      get false o7;
      OK =? v3;
      returns o8;
      returns o9;
      returns o13;
      returns o14;
      returns o15;
      get false o15;
      INEXACT =? v11;
      returns o16;
      returns o17;
      returns o21;
      returns o22;
      returns o23;
      get false o23;
      INEXACT =? v19;
      returns o24;
      returns o25;
      returns o29;
      returns o30;
      returns o31;
      get false o31;
      INEXACT =? v27;
      returns o32;
      returns o33;
      returns o37;
      returns o38;
      returns o39;
      get false o39;
      INEXACT =? v35;
      returns o40;
      returns o41;
      returns o45;
      returns o46;
      returns o47;
      get false o47;
      INEXACT =? v43]) = true.
Proof. vm_compute. reflexivity. Qed.

(** ieee.rs:1734 [is_integer] *)
Example test_is_integer : (
   let o0 := from_bits DoubleS 9223372036854775808 in
   let v1 := get junk o0 in
   let o2 := is_integer DoubleS v1 in
   let o3 := from_bits DoubleS 4614256650576692846 in
   let v4 := get junk o3 in
   let o5 := is_integer DoubleS v4 in
   let v6 := NAN DoubleS in
   let o7 := is_integer DoubleS v6 in
   let v8 := INFINITY DoubleS in
   let o9 := is_integer DoubleS v8 in
   let v10 := neg (INFINITY DoubleS) in
   let o11 := is_integer DoubleS v10 in
   let v12 := largest DoubleS in
   let o13 := is_integer DoubleS v12 in
   all_true [
      returns o0;
      returns o2;
      get false o2;
      returns o3;
      returns o5;
      negb (get false o5);
      returns o7;
      negb (get false o7);
      returns o9;
      negb (get false o9);
      returns o11;
      negb (get false o11);
      returns o13;
      get false o13]) = true.
Proof. vm_compute. reflexivity. Qed.

(** ieee.rs:1750 [largest] *)
Example test_largest : (
   let o0 := through_bits SingleS (largest SingleS) in
   let o1 := from_bits SingleS 2139095039 in
   let o2 := eq_f (get junk o0) (get junk o1) in
   let o3 := through_bits DoubleS (largest DoubleS) in
   let o4 := from_bits DoubleS 9218868437227405311 in
   let o5 := eq_f (get junk o3) (get junk o4) in
   let o6 := lossless Float8E4M3FNS DoubleS (largest Float8E4M3FNS) in
   let o7 := from_bits DoubleS 4646588915539509248 in
   let o8 := eq_f (get junk o6) (get junk o7) in
   all_true [
      returns o0;
      returns o1;
      returns o2;
      get false o2;
      returns o3;
      returns o4;
      returns o5;
      get false o5;
      returns o6;
      returns o7;
      returns o8;
      get false o8]) = true.
Proof. vm_compute. reflexivity. Qed.

(** ieee.rs:1757 [smallest] *)
Example test_smallest : (
   let v0 := SMALLEST SingleS in
   let o1 := unwrap_parse (from_str SingleS (bytes "0x0.000002p-126")) in
   let v2 := get junk o1 in
   let o3 := is_denormal SingleS v0 in
   let v4 := neg (SMALLEST SingleS) in
   let o5 := unwrap_parse (from_str SingleS (bytes "-0x0.000002p-126")) in
   let v6 := get junk o5 in
   let o7 := is_denormal SingleS v4 in
   let v8 := SMALLEST QuadS in
   let o9 := unwrap_parse (from_str QuadS (bytes "0x0.0000000000000000000000000001p-16382")) in
   let v10 := get junk o9 in
   let o11 := is_denormal QuadS v8 in
   let v12 := neg (SMALLEST QuadS) in
   let o13 := unwrap_parse (from_str QuadS (bytes "-0x0.0000000000000000000000000001p-16382")) in
   let v14 := get junk o13 in
   let o15 := is_denormal QuadS v12 in
   all_true [
      returns o1;
      negb (is_negative v0);
      is_finite_non_zero v0;
      returns o3;
      get false o3;
      bitwise_eq v0 v2;
      returns o5;
      is_negative v4;
      is_finite_non_zero v4;
      returns o7;
      get false o7;
      bitwise_eq v4 v6;
      returns o9;
      negb (is_negative v8);
      is_finite_non_zero v8;
      returns o11;
      get false o11;
      bitwise_eq v8 v10;
      returns o13;
      is_negative v12;
      is_finite_non_zero v12;
      returns o15;
      get false o15;
      bitwise_eq v12 v14]) = true.
Proof. vm_compute. reflexivity. Qed.

(** ieee.rs:1788 [smallest_normalized] *)
Example test_smallest_normalized_1 : (
   let v0 := smallest_normalized SingleS in
   let o1 := unwrap_parse (from_str SingleS (bytes "0x1p-126")) in
   let v2 := get junk o1 in
   let o3 := is_denormal SingleS v0 in
   let v4 := neg (smallest_normalized SingleS) in
   let o5 := unwrap_parse (from_str SingleS (bytes "-0x1p-126")) in
   let v6 := get junk o5 in
   let o7 := is_denormal SingleS v4 in
   let v8 := smallest_normalized DoubleS in
   let o9 := unwrap_parse (from_str DoubleS (bytes "0x1p-1022")) in
   let v10 := get junk o9 in
   let o11 := is_denormal DoubleS v8 in
   let v12 := neg (smallest_normalized DoubleS) in
   let o13 := unwrap_parse (from_str DoubleS (bytes "-0x1p-1022")) in
   let v14 := get junk o13 in
   let o15 := is_denormal DoubleS v12 in
   let v16 := smallest_normalized QuadS in
   let o17 := unwrap_parse (from_str QuadS (bytes "0x1p-16382")) in
   let v18 := get junk o17 in
   let o19 := is_denormal QuadS v16 in
   let v20 := neg (smallest_normalized QuadS) in
   let o21 := unwrap_parse (from_str QuadS (bytes "-0x1p-16382")) in
   let o22 := is_denormal QuadS v20 in
   all_true [
      returns o1;
      negb (is_negative v0);
      is_finite_non_zero v0;
      returns o3;
      negb (get false o3);
      bitwise_eq v0 v2;
      is_smallest_normalized SingleS v0;
      returns o5;
      is_negative v4;
      is_finite_non_zero v4;
      returns o7;
      negb (get false o7);
      bitwise_eq v4 v6;
      is_smallest_normalized SingleS v4;
      returns o9;
      negb (is_negative v8);
      is_finite_non_zero v8;
      returns o11;
      negb (get false o11);
      bitwise_eq v8 v10;
      is_smallest_normalized DoubleS v8;
      returns o13;
      is_negative v12;
      is_finite_non_zero v12;
      returns o15;
      negb (get false o15);
      bitwise_eq v12 v14;
      is_smallest_normalized DoubleS v12;
      returns o17;
      negb (is_negative v16);
      is_finite_non_zero v16;
      returns o19;
      negb (get false o19);
      bitwise_eq v16 v18;
      is_smallest_normalized QuadS v16;
      returns o21;
      is_negative v20;
      is_finite_non_zero v20;
      returns o22;
      negb (get false o22)]) = true.
Proof. vm_compute. reflexivity. Qed.

Example test_smallest_normalized_2 : (
   let v0 := neg (smallest_normalized QuadS) in
   let o1 := unwrap_parse (from_str QuadS (bytes "-0x1p-16382")) in
   let v2 := get junk o1 in
   all_true [
      bitwise_eq v0 v2;
      is_smallest_normalized QuadS v0]) = true.
Proof. vm_compute. reflexivity. Qed.

(** ieee.rs:1839 [zero] *)
Example test_zero_1 : (
   let o0 := from_bits SingleS 0 in
   let o1 := through_bits SingleS (get junk o0) in
   let o2 := from_bits SingleS 0 in
   let o3 := eq_f (get junk o1) (get junk o2) in
   let o4 := from_bits SingleS 2147483648 in
   let o5 := through_bits SingleS (get junk o4) in
   let o6 := from_bits SingleS 2147483648 in
   let o7 := eq_f (get junk o5) (get junk o6) in
   let o8 := from_bits SingleS 2147483648 in
   let o9 := from_bits DoubleS 0 in
   let o10 := through_bits DoubleS (get junk o9) in
   let o11 := from_bits DoubleS 0 in
   let o12 := eq_f (get junk o10) (get junk o11) in
   let o13 := from_bits DoubleS 9223372036854775808 in
   let o14 := through_bits DoubleS (get junk o13) in
   let o15 := from_bits DoubleS 9223372036854775808 in
   let o16 := eq_f (get junk o14) (get junk o15) in
   let o17 := from_bits DoubleS 9223372036854775808 in
   let v18 := ZERO HalfS in
   let o19 := unwrap_parse (from_str HalfS (bytes "0x0p+0")) in
   let v20 := get junk o19 in
   let o21 := to_bits HalfS v18 in
   let v22 := neg (ZERO HalfS) in
   let o23 := unwrap_parse (from_str HalfS (bytes "-0x0p+0")) in
   let v24 := get junk o23 in
   let o25 := to_bits HalfS v22 in
   let v26 := ZERO SingleS in
   let o27 := unwrap_parse (from_str SingleS (bytes "0x0p+0")) in
   let v28 := get junk o27 in
   all_true [
      returns o0;
      returns o1;
      returns o2;
      returns o3;
      get false o3;
      returns o4;
      returns o5;
      returns o6;
      returns o7;
      get false o7;
      returns o8;
      is_negative (get junk o8);
      returns o9;
      returns o10;
      returns o11;
      returns o12;
      get false o12;
      returns o13;
      returns o14;
      returns o15;
      returns o16;
      get false o16;
      returns o17;
      is_negative (get junk o17);
      returns o19;
      is_zero v18;
      Bool.eqb (is_negative v18) false;
      bitwise_eq v18 v20;
      returns o21;
      (get 0 o21) =? 0;
      returns o23;
      is_zero v22;
      Bool.eqb (is_negative v22) true;
      bitwise_eq v22 v24;
      returns o25;
      (get 0 o25) =? 32768;
      returns o27;
      is_zero v26;
      Bool.eqb (is_negative v26) false;
      bitwise_eq v26 v28]) = true.
Proof. vm_compute. reflexivity. Qed.

Example test_zero_2 : (
   let v0 := ZERO SingleS in
   let o1 := to_bits SingleS v0 in
   let v2 := neg (ZERO SingleS) in
   let o3 := unwrap_parse (from_str SingleS (bytes "-0x0p+0")) in
   let v4 := get junk o3 in
   let o5 := to_bits SingleS v2 in
   let v6 := ZERO DoubleS in
   let o7 := unwrap_parse (from_str DoubleS (bytes "0x0p+0")) in
   let v8 := get junk o7 in
   let o9 := to_bits DoubleS v6 in
   let v10 := neg (ZERO DoubleS) in
   let o11 := unwrap_parse (from_str DoubleS (bytes "-0x0p+0")) in
   let v12 := get junk o11 in
   let o13 := to_bits DoubleS v10 in
   let v14 := ZERO QuadS in
   let o15 := unwrap_parse (from_str QuadS (bytes "0x0p+0")) in
   let v16 := get junk o15 in
   let o17 := to_bits QuadS v14 in
   let v18 := neg (ZERO QuadS) in
   let o19 := unwrap_parse (from_str QuadS (bytes "-0x0p+0")) in
   let v20 := get junk o19 in
   let o21 := to_bits QuadS v18 in
   let v22 := ZERO X87DoubleExtendedS in
   let o23 := unwrap_parse (from_str X87DoubleExtendedS (bytes "0x0p+0")) in
   let v24 := get junk o23 in
   let o25 := to_bits X87DoubleExtendedS v22 in
   let v26 := neg (ZERO X87DoubleExtendedS) in
   let o27 := unwrap_parse (from_str X87DoubleExtendedS (bytes "-0x0p+0")) in
   all_true [
      returns o1;
      (get 0 o1) =? 0;
      returns o3;
      is_zero v2;
      Bool.eqb (is_negative v2) true;
      bitwise_eq v2 v4;
      returns o5;
      (get 0 o5) =? 2147483648;
      returns o7;
      is_zero v6;
      Bool.eqb (is_negative v6) false;
      bitwise_eq v6 v8;
      returns o9;
      (get 0 o9) =? 0;
      returns o11;
      is_zero v10;
      Bool.eqb (is_negative v10) true;
      bitwise_eq v10 v12;
      returns o13;
      (get 0 o13) =? 9223372036854775808;
      returns o15;
      is_zero v14;
      Bool.eqb (is_negative v14) false;
      bitwise_eq v14 v16;
      returns o17;
      (get 0 o17) =? 0;
      returns o19;
      is_zero v18;
      Bool.eqb (is_negative v18) true;
      bitwise_eq v18 v20;
      returns o21;
      (get 0 o21) =? 170141183460469231731687303715884105728;
      returns o23;
      is_zero v22;
      Bool.eqb (is_negative v22) false;
      bitwise_eq v22 v24;
      returns o25;
      (get 0 o25) =? 0;
      returns o27;
      is_zero v26]) = true.
Proof. vm_compute. reflexivity. Qed.

Example test_zero_3 : (
   let v0 := neg (ZERO X87DoubleExtendedS) in
   let o1 := unwrap_parse (from_str X87DoubleExtendedS (bytes "-0x0p+0")) in
   let v2 := get junk o1 in
   let o3 := to_bits X87DoubleExtendedS v0 in
   let v4 := ZERO Float8E5M2S in
   let o5 := unwrap_parse (from_str Float8E5M2S (bytes "0x0p+0")) in
   let v6 := get junk o5 in
   let o7 := to_bits Float8E5M2S v4 in
   let v8 := neg (ZERO Float8E5M2S) in
   let o9 := unwrap_parse (from_str Float8E5M2S (bytes "-0x0p+0")) in
   let v10 := get junk o9 in
   let o11 := to_bits Float8E5M2S v8 in
   let v12 := ZERO Float8E4M3FNS in
   let o13 := unwrap_parse (from_str Float8E4M3FNS (bytes "0x0p+0")) in
   let v14 := get junk o13 in
   let o15 := to_bits Float8E4M3FNS v12 in
   let v16 := neg (ZERO Float8E4M3FNS) in
   let o17 := unwrap_parse (from_str Float8E4M3FNS (bytes "-0x0p+0")) in
   let v18 := get junk o17 in
   let o19 := to_bits Float8E4M3FNS v16 in
   all_true [
      Bool.eqb (is_negative v0) true;
      bitwise_eq v0 v2;
      returns o3;
      (get 0 o3) =? 604462909807314587353088;
      returns o5;
      is_zero v4;
      Bool.eqb (is_negative v4) false;
      bitwise_eq v4 v6;
      returns o7;
      (get 0 o7) =? 0;
      returns o9;
      is_zero v8;
      Bool.eqb (is_negative v8) true;
      bitwise_eq v8 v10;
      returns o11;
      (get 0 o11) =? 128;
      returns o13;
      is_zero v12;
      Bool.eqb (is_negative v12) false;
      bitwise_eq v12 v14;
      returns o15;
      (get 0 o15) =? 0;
      returns o17;
      is_zero v16;
      Bool.eqb (is_negative v16) true;
      bitwise_eq v16 v18;
      returns o19;
      (get 0 o19) =? 128]) = true.
Proof. vm_compute. reflexivity. Qed.

(** ieee.rs:1874 [copy_sign] *)
Example test_copy_sign : (
   let o0 := from_bits DoubleS 13854479828675198976 in
   let o1 := from_bits DoubleS 4631107791820423168 in
   let o2 := from_bits DoubleS 13830554455654793216 in
   let o3 := from_bits DoubleS 4631107791820423168 in
   let o4 := from_bits DoubleS 13854479828675198976 in
   let o5 := from_bits DoubleS 4607182418800017408 in
   let o6 := from_bits DoubleS 13854479828675198976 in
   let o7 := from_bits DoubleS 13854479828675198976 in
   let o8 := from_bits DoubleS 13830554455654793216 in
   let o9 := from_bits DoubleS 4631107791820423168 in
   let o10 := from_bits DoubleS 4631107791820423168 in
   let o11 := from_bits DoubleS 4607182418800017408 in
   all_true [
      returns o0;
      returns o1;
      returns o2;
      bitwise_eq (get junk o0) (copy_sign (get junk o1) (get junk o2));
      returns o3;
      returns o4;
      returns o5;
      bitwise_eq (get junk o3) (copy_sign (get junk o4) (get junk o5));
      returns o6;
      returns o7;
      returns o8;
      bitwise_eq (get junk o6) (copy_sign (get junk o7) (get junk o8));
      returns o9;
      returns o10;
      returns o11;
      bitwise_eq (get junk o9) (copy_sign (get junk o10) (get junk o11))]) = true.
Proof. vm_compute. reflexivity. Qed.

(** ieee.rs:1882 [convert] *)
Example test_convert_1 : (
   let o0 := unwrap_parse (from_str DoubleS (bytes "1.0")) in
   let v1 := get junk o0 in
   let o2 := convert DoubleS SingleS v1 in
   let v3 := get (0, junk, false) o2 in
   let v4 := snd v3 in
   let v5 := snd (fst v3) in
   let o6 := through_bits SingleS v5 in
   let o7 := from_bits SingleS 1065353216 in
   let o8 := eq_f (get junk o6) (get junk o7) in
   let o9 := unwrap_parse (from_str X87DoubleExtendedS (bytes "0x1p-53")) in
   let v10 := get junk o9 in
   let o11 := unwrap_parse (from_str X87DoubleExtendedS (bytes "1.0")) in
   let v12 := get junk o11 in
   let o13 := add_assign X87DoubleExtendedS v10 v12 in
   let v14 := get junk o13 in
   let o15 := convert X87DoubleExtendedS DoubleS v14 in
   let v16 := get (0, junk, false) o15 in
   let v17 := snd v16 in
   let v18 := snd (fst v16) in
   let o19 := through_bits DoubleS v18 in
   let o20 := from_bits DoubleS 4607182418800017408 in
   let o21 := eq_f (get junk o19) (get junk o20) in
   let o22 := unwrap_parse (from_str QuadS (bytes "0x1p-53")) in
   let v23 := get junk o22 in
   let o24 := unwrap_parse (from_str QuadS (bytes "1.0")) in
   let v25 := get junk o24 in
   let o26 := add_assign QuadS v23 v25 in
   let v27 := get junk o26 in
   let o28 := convert QuadS DoubleS v27 in
   let v29 := get (0, junk, false) o28 in
   let v30 := snd v29 in
   let v31 := snd (fst v29) in
   let o32 := through_bits DoubleS v31 in
   let o33 := from_bits DoubleS 4607182418800017408 in
   let o34 := eq_f (get junk o32) (get junk o33) in
   let o35 := unwrap_parse (from_str X87DoubleExtendedS (bytes "0xf.fffffffp+28")) in
   let v36 := get junk o35 in
   let o37 := convert X87DoubleExtendedS DoubleS v36 in
   let v38 := get (0, junk, false) o37 in
   let v39 := snd v38 in
   let v40 := snd (fst v38) in
   let o41 := through_bits DoubleS v40 in
   let o42 := from_bits DoubleS 4751297606873776128 in
   let o43 := eq_f (get junk o41) (get junk o42) in
   let v44 := snan SingleS None in
   let o45 := convert SingleS X87DoubleExtendedS v44 in
   let v46 := get (0, junk, false) o45 in
   let v47 := snd v46 in
   let v48 := fst v46 in
   let v49 := fst v48 in
   let v50 := snd v48 in
   let v51 := qnan SingleS None in
   let v52 := qnan X87DoubleExtendedS None in
   let o53 := convert SingleS X87DoubleExtendedS v51 in
   let v54 := get (0, junk, false) o53 in
   let v55 := snd v54 in
   let v56 := snd (fst v54) in
   let v57 := snan DoubleS None in
   let o58 := convert DoubleS X87DoubleExtendedS v57 in
   all_true [
      returns o0;
      returns o2;
      returns o6;
      returns o7;
      returns o8;
      get false o8;
      negb v4;
      returns o9;
      returns o11;
      returns o13;
      returns o15;
      returns o19;
      returns o20;
      returns o21;
      get false o21;
      v17;
      returns o22;
      returns o24;
      returns o26;
      returns o28;
      returns o32;
      returns o33;
      returns o34;
      get false o34;
      v30;
      returns o35;
      returns o37;
      returns o41;
      returns o42;
      returns o43;
      get false o43;
      negb v39;
      returns o45;
      bitwise_eq v50 (qnan X87DoubleExtendedS (Some 6917529027641081856));
      negb v47;
      v49 =? INVALID_OP;
      returns o53;
      bitwise_eq v56 v52;
      negb v55;
      returns o58]) = true.
Proof. vm_compute. reflexivity. Qed.

Example test_convert_2 : (
   let v0 := qnan X87DoubleExtendedS None in
   let v1 := snan DoubleS None in
   let o2 := convert DoubleS X87DoubleExtendedS v1 in
   let v3 := get (0, junk, false) o2 in
   let v4 := snd v3 in
   let v5 := snd (fst v3) in
   let v6 := qnan DoubleS None in
   let o7 := convert DoubleS X87DoubleExtendedS v6 in
   let v8 := get (0, junk, false) o7 in
   let v9 := snd v8 in
   let v10 := snd (fst v8) in
   let v11 := snan DoubleS (Some 1) in
   let o12 := convert DoubleS SingleS v11 in
   let v13 := get (0, junk, false) o12 in
   let v14 := snd v13 in
   let v15 := fst v13 in
   let v16 := fst v15 in
   let v17 := snd v15 in
   let o18 := to_bits SingleS v17 in
   let v19 := qnan DoubleS (Some 1) in
   let o20 := convert DoubleS SingleS v19 in
   let v21 := get (0, junk, false) o20 in
   let v22 := snd v21 in
   let v23 := fst v21 in
   let v24 := fst v23 in
   let v25 := snd v23 in
   let o26 := to_bits SingleS v25 in
   let o27 := unwrap_parse (from_str DoubleS (bytes "0x0.0000010000000p-1022")) in
   let v28 := get junk o27 in
   let o29 := convert DoubleS SingleS v28 in
   let v30 := get (0, junk, false) o29 in
   let v31 := snd v30 in
   let v32 := fst v30 in
   let v33 := snd v32 in
   let o34 := through_bits SingleS v33 in
   let o35 := from_bits SingleS 0 in
   let o36 := eq_f (get junk o34) (get junk o35) in
   let o37 := unwrap_parse (from_str DoubleS (bytes "0x0.0000010000001p-1022")) in
   let v38 := get junk o37 in
   let o39 := convert DoubleS SingleS v38 in
   let v40 := get (0, junk, false) o39 in
   let v41 := snd v40 in
   let v42 := fst v40 in
   let v43 := snd v42 in
   let o44 := through_bits SingleS v43 in
   let o45 := from_bits SingleS 0 in
   let o46 := eq_f (get junk o44) (get junk o45) in
   let o47 := unwrap_parse (from_str DoubleS (bytes "-0x0.0000010000001p-1022")) in
   let v48 := get junk o47 in
   let o49 := convert DoubleS SingleS v48 in
   let v50 := get (0, junk, false) o49 in
   let v51 := snd v50 in
   let v52 := fst v50 in
   let v53 := snd v52 in
   let o54 := through_bits SingleS v53 in
   let o55 := from_bits SingleS 0 in
   let o56 := eq_f (get junk o54) (get junk o55) in
   let o57 := unwrap_parse (from_str DoubleS (bytes "0x0.0000020000000p-1022")) in
   let v58 := get junk o57 in
   let o59 := convert DoubleS SingleS v58 in
   let v60 := get (0, junk, false) o59 in
   let v61 := fst v60 in
   let v62 := snd v61 in
   let o63 := through_bits SingleS v62 in
   let o64 := from_bits SingleS 0 in
   all_true [
      bitwise_eq v5 (qnan X87DoubleExtendedS (Some 6917529027641081856));
      negb v4;
      returns o7;
      bitwise_eq v10 v0;
      negb v9;
      returns o12;
      returns o18;
      (get 0 o18) =? 2143289344;
      v14;
      v16 =? INVALID_OP;
      returns o20;
      returns o26;
      (get 0 o26) =? 2143289344;
      v22;
      v24 =? OK;
      returns o27;
      returns o29;
      returns o34;
      returns o35;
      returns o36;
      get false o36;
      v31;
      returns o37;
      returns o39;
      returns o44;
      returns o45;
      returns o46;
      get false o46;
      v41;
      returns o47;
      returns o49;
      returns o54;
      returns o55;
      returns o56;
      get false o56;
      v51;
      returns o57;
      returns o59;
      returns o63;
      returns o64]) = true.
Proof. vm_compute. reflexivity. Qed.

Example test_convert_3 : (
   let o0 := unwrap_parse (from_str DoubleS (bytes "0x0.0000020000000p-1022")) in
   let v1 := get junk o0 in
   let o2 := convert DoubleS SingleS v1 in
   let v3 := get (0, junk, false) o2 in
   let v4 := snd v3 in
   let v5 := fst v3 in
   let v6 := snd v5 in
   let o7 := through_bits SingleS v6 in
   let o8 := from_bits SingleS 0 in
   let o9 := eq_f (get junk o7) (get junk o8) in
   let o10 := unwrap_parse (from_str DoubleS (bytes "0x0.0000020000001p-1022")) in
   let v11 := get junk o10 in
   let o12 := convert DoubleS SingleS v11 in
   let v13 := get (0, junk, false) o12 in
   let v14 := snd v13 in
   let v15 := fst v13 in
   let v16 := snd v15 in
   let o17 := through_bits SingleS v16 in
   let o18 := from_bits SingleS 0 in
   let o19 := eq_f (get junk o17) (get junk o18) in
   let o20 := unwrap_parse (from_str SingleS (bytes "0x0.01p-126")) in
   let v21 := get junk o20 in
   let o22 := convert SingleS BFloatS v21 in
   let v23 := get (0, junk, false) o22 in
   let v24 := snd v23 in
   let v25 := fst v23 in
   let v26 := snd v25 in
   let o27 := lossless BFloatS SingleS v26 in
   let o28 := from_bits SingleS 0 in
   let o29 := eq_f (get junk o27) (get junk o28) in
   let o30 := unwrap_parse (from_str SingleS (bytes "0x0.02p-126")) in
   let v31 := get junk o30 in
   let o32 := convert SingleS BFloatS v31 in
   let v33 := get (0, junk, false) o32 in
   let v34 := snd v33 in
   let v35 := fst v33 in
   let v36 := snd v35 in
   let o37 := to_bits BFloatS v36 in
   let o38 := unwrap_parse (from_str SingleS (bytes "0x0.01p-126")) in
   let v39 := get junk o38 in
   let o40 := convert_r SingleS BFloatS v39 NearestTiesToAway in
   let v41 := get (0, junk, false) o40 in
   let v42 := snd v41 in
   let v43 := fst v41 in
   let v44 := snd v43 in
   let o45 := to_bits BFloatS v44 in
   all_true [
      returns o9;
      get false o9;
      v4;
      returns o10;
      returns o12;
      returns o17;
      returns o18;
      returns o19;
      get false o19;
      v14;
      returns o20;
      returns o22;
      returns o27;
      returns o28;
      returns o29;
      get false o29;
      v24;
      returns o30;
      returns o32;
      returns o37;
      (get 0 o37) =? 1;
      negb v34;
      returns o38;
      returns o40;
      returns o45;
      (get 0 o45) =? 1;
      v42]) = true.
Proof. vm_compute. reflexivity. Qed.

(** ieee.rs:1995 [is_negative] *)
Example test_is_negative : (
   let o0 := unwrap_parse (from_str SingleS (bytes "0x1p+0")) in
   let v1 := get junk o0 in
   let o2 := unwrap_parse (from_str SingleS (bytes "-0x1p+0")) in
   let v3 := get junk o2 in
   all_true [
      returns o0;
      negb (is_negative v1);
      returns o2;
      is_negative v3;
      negb (is_negative (INFINITY SingleS));
      is_negative (neg (INFINITY SingleS));
      negb (is_negative (ZERO SingleS));
      is_negative (neg (ZERO SingleS));
      negb (is_negative (NAN SingleS));
      is_negative (neg (NAN SingleS));
      negb (is_negative (snan SingleS None));
      is_negative (neg (snan SingleS None))]) = true.
Proof. vm_compute. reflexivity. Qed.

(** ieee.rs:2015 [is_normal] *)
Example test_is_normal : (
   let o0 := unwrap_parse (from_str SingleS (bytes "0x1p+0")) in
   let v1 := get junk o0 in
   let o2 := is_normal SingleS v1 in
   let o3 := is_normal SingleS (INFINITY SingleS) in
   let o4 := is_normal SingleS (ZERO SingleS) in
   let o5 := is_normal SingleS (NAN SingleS) in
   let o6 := is_normal SingleS (snan SingleS None) in
   let o7 := unwrap_parse (from_str SingleS (bytes "0x1p-149")) in
   let v8 := get junk o7 in
   let o9 := is_normal SingleS v8 in
   all_true [
      returns o0;
      returns o2;
      get false o2;
      returns o3;
      negb (get false o3);
      returns o4;
      negb (get false o4);
      returns o5;
      negb (get false o5);
      returns o6;
      negb (get false o6);
      returns o7;
      returns o9;
      negb (get false o9)]) = true.
Proof. vm_compute. reflexivity. Qed.

(** ieee.rs:2027 [is_finite] *)
Example test_is_finite : (
   let o0 := unwrap_parse (from_str SingleS (bytes "0x1p+0")) in
   let v1 := get junk o0 in
   let o2 := unwrap_parse (from_str SingleS (bytes "0x1p-149")) in
   let v3 := get junk o2 in
   all_true [
      returns o0;
      is_finite v1;
      negb (is_finite (INFINITY SingleS));
      is_finite (ZERO SingleS);
      negb (is_finite (NAN SingleS));
      negb (is_finite (snan SingleS None));
      returns o2;
      is_finite v3]) = true.
Proof. vm_compute. reflexivity. Qed.

(** ieee.rs:2038 [is_infinite] *)
Example test_is_infinite : (
   let o0 := unwrap_parse (from_str SingleS (bytes "0x1p+0")) in
   let v1 := get junk o0 in
   let v2 := INFINITY SingleS in
   let v3 := neg (INFINITY SingleS) in
   let o4 := unwrap_parse (from_str SingleS (bytes "0x1p-149")) in
   let v5 := get junk o4 in
   all_true [
      returns o0;
      negb (is_infinite v1);
      is_infinite v2;
      is_pos_infinity v2;
      negb (is_neg_infinity v2);
      is_infinite v3;
      negb (is_pos_infinity v3);
      is_neg_infinity v3;
      negb (is_infinite (ZERO SingleS));
      negb (is_infinite (NAN SingleS));
      negb (is_infinite (snan SingleS None));
      returns o4;
      negb (is_infinite v5)]) = true.
Proof. vm_compute. reflexivity. Qed.

(** ieee.rs:2059 [is_nan] *)
Example test_is_nan : (
   let o0 := unwrap_parse (from_str SingleS (bytes "0x1p+0")) in
   let v1 := get junk o0 in
   let o2 := unwrap_parse (from_str SingleS (bytes "0x1p-149")) in
   let v3 := get junk o2 in
   all_true [
      returns o0;
      negb (is_nan v1);
      negb (is_nan (INFINITY SingleS));
      negb (is_nan (ZERO SingleS));
      is_nan (NAN SingleS);
      is_nan (snan SingleS None);
      returns o2;
      negb (is_nan v3)]) = true.
Proof. vm_compute. reflexivity. Qed.

(** ieee.rs:2070 [is_finite_non_zero] *)
Example test_is_finite_non_zero : (
   let o0 := unwrap_parse (from_str SingleS (bytes "0x1p+0")) in
   let v1 := get junk o0 in
   let o2 := unwrap_parse (from_str SingleS (bytes "-0x1p+0")) in
   let v3 := get junk o2 in
   let o4 := unwrap_parse (from_str SingleS (bytes "0x1p-149")) in
   let v5 := get junk o4 in
   let o6 := unwrap_parse (from_str SingleS (bytes "-0x1p-149")) in
   let v7 := get junk o6 in
   all_true [
      returns o0;
      is_finite_non_zero v1;
      returns o2;
      is_finite_non_zero v3;
      returns o4;
      is_finite_non_zero v5;
      returns o6;
      is_finite_non_zero v7;
      negb (is_finite_non_zero (INFINITY SingleS));
      negb (is_finite_non_zero (neg (INFINITY SingleS)));
      negb (is_finite_non_zero (ZERO SingleS));
      negb (is_finite_non_zero (neg (ZERO SingleS)));
      negb (is_finite_non_zero (NAN SingleS));
      negb (is_finite_non_zero (neg (NAN SingleS)));
      negb (is_finite_non_zero (snan SingleS None));
      negb (is_finite_non_zero (neg (snan SingleS None)))]) = true.
Proof. vm_compute. reflexivity. Qed.

(** ieee.rs:3202 [operator_overloads] *)
Example test_operator_overloads : (
   let o0 := unwrap_parse (from_str SingleS (bytes "0x1p+0")) in
   let v1 := get junk o0 in
   let o2 := unwrap_parse (from_str SingleS (bytes "0x2p+0")) in
   let v3 := get junk o2 in
   let o4 := op_add SingleS v1 v1 in
   let v5 := snd (get (0, junk) o4) in
   let o6 := op_sub SingleS v3 v1 in
   let v7 := snd (get (0, junk) o6) in
   let o8 := op_mul SingleS v1 v3 in
   let v9 := snd (get (0, junk) o8) in
   let o10 := op_div SingleS v3 v3 in
   let v11 := snd (get (0, junk) o10) in
   all_true [
      returns o0;
      returns o2;
      returns o4;
      bitwise_eq v3 v5;
      returns o6;
      bitwise_eq v1 v7;
      returns o8;
      bitwise_eq v3 v9;
      returns o10;
      bitwise_eq v1 v11]) = true.
Proof. vm_compute. reflexivity. Qed.

(** ieee.rs:3213 [comparisons] *)
Example test_comparisons_1 : (
   let o0 := unwrap_parse (from_str SingleS (bytes "-0x1p+0")) in
   let o1 := unwrap_parse (from_str SingleS (bytes "0x1p+0")) in
   let v2 := neg (NAN SingleS) in
   let v3 := neg (NAN SingleS) in
   let o4 := partial_cmp v2 v3 in
   let v5 := get None o4 in
   let o6 := eq_f v2 v3 in
   let o7 := eq_f v2 v3 in
   let o8 := lt_f v2 v3 in
   let o9 := gt_f v2 v3 in
   let o10 := le_f v2 v3 in
   let o11 := ge_f v2 v3 in
   let v12 := neg (INFINITY SingleS) in
   let o13 := partial_cmp v2 v12 in
   let v14 := get None o13 in
   let o15 := eq_f v2 v12 in
   let o16 := eq_f v2 v12 in
   let o17 := lt_f v2 v12 in
   let o18 := gt_f v2 v12 in
   let o19 := le_f v2 v12 in
   let o20 := ge_f v2 v12 in
   let v21 := neg (largest SingleS) in
   let o22 := partial_cmp v2 v21 in
   let v23 := get None o22 in
   let o24 := eq_f v2 v21 in
   let o25 := eq_f v2 v21 in
   let o26 := lt_f v2 v21 in
   let o27 := gt_f v2 v21 in
   all_true [
      returns o0;
      returns o1;
      returns o4;
      ordering_is v5 None;
      returns o6;
      negb (get false o6);
      returns o7;
      negb (get false o7);
      returns o8;
      negb (get false o8);
      returns o9;
      negb (get false o9);
      returns o10;
      negb (get false o10);
      returns o11;
      negb (get false o11);
      returns o13;
      ordering_is v14 None;
      returns o15;
      negb (get false o15);
      returns o16;
      negb (get false o16);
      returns o17;
      negb (get false o17);
      returns o18;
      negb (get false o18);
      returns o19;
      negb (get false o19);
      returns o20;
      negb (get false o20);
      returns o22;
      ordering_is v23 None;
      returns o24;
      negb (get false o24);
      returns o25;
      negb (get false o25);
      returns o26;
      negb (get false o26);
      returns o27;
      negb (get false o27)]) = true.
Proof. vm_compute. reflexivity. Qed.

Example test_comparisons_2 : (
   let o0 := unwrap_parse (from_str SingleS (bytes "-0x1p+0")) in
   let v1 := get junk o0 in
   let v2 := neg (NAN SingleS) in
   let v3 := neg (largest SingleS) in
   let o4 := le_f v2 v3 in
   let o5 := ge_f v2 v3 in
   let o6 := partial_cmp v2 v1 in
   let v7 := get None o6 in
   let o8 := eq_f v2 v1 in
   let o9 := eq_f v2 v1 in
   let o10 := lt_f v2 v1 in
   let o11 := gt_f v2 v1 in
   let o12 := le_f v2 v1 in
   let o13 := ge_f v2 v1 in
   let v14 := neg (ZERO SingleS) in
   let o15 := partial_cmp v2 v14 in
   let v16 := get None o15 in
   let o17 := eq_f v2 v14 in
   let o18 := eq_f v2 v14 in
   let o19 := lt_f v2 v14 in
   let o20 := gt_f v2 v14 in
   let o21 := le_f v2 v14 in
   let o22 := ge_f v2 v14 in
   let v23 := ZERO SingleS in
   let o24 := partial_cmp v2 v23 in
   let v25 := get None o24 in
   let o26 := eq_f v2 v23 in
   let o27 := eq_f v2 v23 in
   let o28 := lt_f v2 v23 in
   all_true [
      returns o4;
      negb (get false o4);
      returns o5;
      negb (get false o5);
      returns o6;
      ordering_is v7 None;
      returns o8;
      negb (get false o8);
      returns o9;
      negb (get false o9);
      returns o10;
      negb (get false o10);
      returns o11;
      negb (get false o11);
      returns o12;
      negb (get false o12);
      returns o13;
      negb (get false o13);
      returns o15;
      ordering_is v16 None;
      returns o17;
      negb (get false o17);
      returns o18;
      negb (get false o18);
      returns o19;
      negb (get false o19);
      returns o20;
      negb (get false o20);
      returns o21;
      negb (get false o21);
      returns o22;
      negb (get false o22);
      returns o24;
      ordering_is v25 None;
      returns o26;
      negb (get false o26);
      returns o27;
      negb (get false o27);
      returns o28;
      negb (get false o28)]) = true.
Proof. vm_compute. reflexivity. Qed.

Example test_comparisons_3 : (
   let o0 := unwrap_parse (from_str SingleS (bytes "0x1p+0")) in
   let v1 := get junk o0 in
   let v2 := neg (NAN SingleS) in
   let v3 := ZERO SingleS in
   let o4 := gt_f v2 v3 in
   let o5 := le_f v2 v3 in
   let o6 := ge_f v2 v3 in
   let o7 := partial_cmp v2 v1 in
   let v8 := get None o7 in
   let o9 := eq_f v2 v1 in
   let o10 := eq_f v2 v1 in
   let o11 := lt_f v2 v1 in
   let o12 := gt_f v2 v1 in
   let o13 := le_f v2 v1 in
   let o14 := ge_f v2 v1 in
   let v15 := largest SingleS in
   let o16 := partial_cmp v2 v15 in
   let v17 := get None o16 in
   let o18 := eq_f v2 v15 in
   let o19 := eq_f v2 v15 in
   let o20 := lt_f v2 v15 in
   let o21 := gt_f v2 v15 in
   let o22 := le_f v2 v15 in
   let o23 := ge_f v2 v15 in
   let v24 := INFINITY SingleS in
   let o25 := partial_cmp v2 v24 in
   let v26 := get None o25 in
   let o27 := eq_f v2 v24 in
   let o28 := eq_f v2 v24 in
   all_true [
      returns o4;
      negb (get false o4);
      returns o5;
      negb (get false o5);
      returns o6;
      negb (get false o6);
      returns o7;
      ordering_is v8 None;
      returns o9;
      negb (get false o9);
      returns o10;
      negb (get false o10);
      returns o11;
      negb (get false o11);
      returns o12;
      negb (get false o12);
      returns o13;
      negb (get false o13);
      returns o14;
      negb (get false o14);
      returns o16;
      ordering_is v17 None;
      returns o18;
      negb (get false o18);
      returns o19;
      negb (get false o19);
      returns o20;
      negb (get false o20);
      returns o21;
      negb (get false o21);
      returns o22;
      negb (get false o22);
      returns o23;
      negb (get false o23);
      returns o25;
      ordering_is v26 None;
      returns o27;
      negb (get false o27);
      returns o28;
      negb (get false o28)]) = true.
Proof. vm_compute. reflexivity. Qed.

Example test_comparisons_4 : (
   let v0 := Some Eq in
   let v1 := neg (NAN SingleS) in
   let v2 := INFINITY SingleS in
   let o3 := lt_f v1 v2 in
   let o4 := gt_f v1 v2 in
   let o5 := le_f v1 v2 in
   let o6 := ge_f v1 v2 in
   let v7 := NAN SingleS in
   let o8 := partial_cmp v1 v7 in
   let v9 := get None o8 in
   let o10 := eq_f v1 v7 in
   let o11 := eq_f v1 v7 in
   let o12 := lt_f v1 v7 in
   let o13 := gt_f v1 v7 in
   let o14 := le_f v1 v7 in
   let o15 := ge_f v1 v7 in
   let v16 := neg (INFINITY SingleS) in
   let v17 := neg (NAN SingleS) in
   let o18 := partial_cmp v16 v17 in
   let v19 := get None o18 in
   let o20 := eq_f v16 v17 in
   let o21 := eq_f v16 v17 in
   let o22 := lt_f v16 v17 in
   let o23 := gt_f v16 v17 in
   let o24 := le_f v16 v17 in
   let o25 := ge_f v16 v17 in
   let v26 := neg (INFINITY SingleS) in
   let o27 := partial_cmp v16 v26 in
   let v28 := get None o27 in
   let o29 := eq_f v16 v26 in
   all_true [
      returns o3;
      negb (get false o3);
      returns o4;
      negb (get false o4);
      returns o5;
      negb (get false o5);
      returns o6;
      negb (get false o6);
      returns o8;
      ordering_is v9 None;
      returns o10;
      negb (get false o10);
      returns o11;
      negb (get false o11);
      returns o12;
      negb (get false o12);
      returns o13;
      negb (get false o13);
      returns o14;
      negb (get false o14);
      returns o15;
      negb (get false o15);
      returns o18;
      ordering_is v19 None;
      returns o20;
      negb (get false o20);
      returns o21;
      negb (get false o21);
      returns o22;
      negb (get false o22);
      returns o23;
      negb (get false o23);
      returns o24;
      negb (get false o24);
      returns o25;
      negb (get false o25);
      returns o27;
      ordering_is v28 v0;
      returns o29;
      get false o29]) = true.
Proof. vm_compute. reflexivity. Qed.

Example test_comparisons_5 : (
   let o0 := unwrap_parse (from_str SingleS (bytes "-0x1p+0")) in
   let v1 := get junk o0 in
   let v2 := Some Lt in
   let v3 := neg (INFINITY SingleS) in
   let v4 := neg (INFINITY SingleS) in
   let o5 := eq_f v3 v4 in
   let o6 := lt_f v3 v4 in
   let o7 := gt_f v3 v4 in
   let o8 := le_f v3 v4 in
   let o9 := ge_f v3 v4 in
   let v10 := neg (largest SingleS) in
   let o11 := partial_cmp v3 v10 in
   let v12 := get None o11 in
   let o13 := eq_f v3 v10 in
   let o14 := eq_f v3 v10 in
   let o15 := lt_f v3 v10 in
   let o16 := gt_f v3 v10 in
   let o17 := le_f v3 v10 in
   let o18 := ge_f v3 v10 in
   let o19 := partial_cmp v3 v1 in
   let v20 := get None o19 in
   let o21 := eq_f v3 v1 in
   let o22 := eq_f v3 v1 in
   let o23 := lt_f v3 v1 in
   let o24 := gt_f v3 v1 in
   let o25 := le_f v3 v1 in
   let o26 := ge_f v3 v1 in
   let v27 := neg (ZERO SingleS) in
   let o28 := partial_cmp v3 v27 in
   let v29 := get None o28 in
   all_true [
      returns o5;
      negb (negb (get false o5));
      returns o6;
      negb (get false o6);
      returns o7;
      negb (get false o7);
      returns o8;
      get false o8;
      returns o9;
      get false o9;
      returns o11;
      ordering_is v12 v2;
      returns o13;
      negb (get false o13);
      returns o14;
      negb (get false o14);
      returns o15;
      get false o15;
      returns o16;
      negb (get false o16);
      returns o17;
      get false o17;
      returns o18;
      negb (get false o18);
      returns o19;
      ordering_is v20 v2;
      returns o21;
      negb (get false o21);
      returns o22;
      negb (get false o22);
      returns o23;
      get false o23;
      returns o24;
      negb (get false o24);
      returns o25;
      get false o25;
      returns o26;
      negb (get false o26);
      returns o28;
      ordering_is v29 v2]) = true.
Proof. vm_compute. reflexivity. Qed.

Example test_comparisons_6 : (
   let o0 := unwrap_parse (from_str SingleS (bytes "0x1p+0")) in
   let v1 := get junk o0 in
   let v2 := Some Lt in
   let v3 := neg (INFINITY SingleS) in
   let v4 := neg (ZERO SingleS) in
   let o5 := eq_f v3 v4 in
   let o6 := eq_f v3 v4 in
   let o7 := lt_f v3 v4 in
   let o8 := gt_f v3 v4 in
   let o9 := le_f v3 v4 in
   let o10 := ge_f v3 v4 in
   let v11 := ZERO SingleS in
   let o12 := partial_cmp v3 v11 in
   let v13 := get None o12 in
   let o14 := eq_f v3 v11 in
   let o15 := eq_f v3 v11 in
   let o16 := lt_f v3 v11 in
   let o17 := gt_f v3 v11 in
   let o18 := le_f v3 v11 in
   let o19 := ge_f v3 v11 in
   let o20 := partial_cmp v3 v1 in
   let v21 := get None o20 in
   let o22 := eq_f v3 v1 in
   let o23 := eq_f v3 v1 in
   let o24 := lt_f v3 v1 in
   let o25 := gt_f v3 v1 in
   let o26 := le_f v3 v1 in
   let o27 := ge_f v3 v1 in
   all_true [
      returns o5;
      negb (get false o5);
      returns o6;
      negb (get false o6);
      returns o7;
      get false o7;
      returns o8;
      negb (get false o8);
      returns o9;
      get false o9;
      returns o10;
      negb (get false o10);
      returns o12;
      ordering_is v13 v2;
      returns o14;
      negb (get false o14);
      returns o15;
      negb (get false o15);
      returns o16;
      get false o16;
      returns o17;
      negb (get false o17);
      returns o18;
      get false o18;
      returns o19;
      negb (get false o19);
      returns o20;
      ordering_is v21 v2;
      returns o22;
      negb (get false o22);
      returns o23;
      negb (get false o23);
      returns o24;
      get false o24;
      returns o25;
      negb (get false o25);
      returns o26;
      get false o26;
      returns o27;
      negb (get false o27)]) = true.
Proof. vm_compute. reflexivity. Qed.

Example test_comparisons_7 : (
   let v0 := Some Lt in
   let v1 := neg (INFINITY SingleS) in
   let v2 := largest SingleS in
   let o3 := partial_cmp v1 v2 in
   let v4 := get None o3 in
   let o5 := eq_f v1 v2 in
   let o6 := eq_f v1 v2 in
   let o7 := lt_f v1 v2 in
   let o8 := gt_f v1 v2 in
   let o9 := le_f v1 v2 in
   let o10 := ge_f v1 v2 in
   let v11 := INFINITY SingleS in
   let o12 := partial_cmp v1 v11 in
   let v13 := get None o12 in
   let o14 := eq_f v1 v11 in
   let o15 := eq_f v1 v11 in
   let o16 := lt_f v1 v11 in
   let o17 := gt_f v1 v11 in
   let o18 := le_f v1 v11 in
   let o19 := ge_f v1 v11 in
   let v20 := NAN SingleS in
   let o21 := partial_cmp v1 v20 in
   let v22 := get None o21 in
   let o23 := eq_f v1 v20 in
   let o24 := eq_f v1 v20 in
   let o25 := lt_f v1 v20 in
   let o26 := gt_f v1 v20 in
   let o27 := le_f v1 v20 in
   all_true [
      returns o3;
      ordering_is v4 v0;
      returns o5;
      negb (get false o5);
      returns o6;
      negb (get false o6);
      returns o7;
      get false o7;
      returns o8;
      negb (get false o8);
      returns o9;
      get false o9;
      returns o10;
      negb (get false o10);
      returns o12;
      ordering_is v13 v0;
      returns o14;
      negb (get false o14);
      returns o15;
      negb (get false o15);
      returns o16;
      get false o16;
      returns o17;
      negb (get false o17);
      returns o18;
      get false o18;
      returns o19;
      negb (get false o19);
      returns o21;
      ordering_is v22 None;
      returns o23;
      negb (get false o23);
      returns o24;
      negb (get false o24);
      returns o25;
      negb (get false o25);
      returns o26;
      negb (get false o26);
      returns o27;
      negb (get false o27)]) = true.
Proof. vm_compute. reflexivity. Qed.

Example test_comparisons_8 : (
   let v0 := Some Eq in
   let v1 := Some Gt in
   let v2 := neg (INFINITY SingleS) in
   let v3 := NAN SingleS in
   let o4 := ge_f v2 v3 in
   let v5 := neg (largest SingleS) in
   let v6 := neg (NAN SingleS) in
   let o7 := partial_cmp v5 v6 in
   let v8 := get None o7 in
   let o9 := eq_f v5 v6 in
   let o10 := eq_f v5 v6 in
   let o11 := lt_f v5 v6 in
   let o12 := gt_f v5 v6 in
   let o13 := le_f v5 v6 in
   let o14 := ge_f v5 v6 in
   let v15 := neg (INFINITY SingleS) in
   let o16 := partial_cmp v5 v15 in
   let v17 := get None o16 in
   let o18 := eq_f v5 v15 in
   let o19 := eq_f v5 v15 in
   let o20 := lt_f v5 v15 in
   let o21 := gt_f v5 v15 in
   let o22 := le_f v5 v15 in
   let o23 := ge_f v5 v15 in
   let v24 := neg (largest SingleS) in
   let o25 := partial_cmp v5 v24 in
   let v26 := get None o25 in
   let o27 := eq_f v5 v24 in
   let o28 := eq_f v5 v24 in
   let o29 := lt_f v5 v24 in
   let o30 := gt_f v5 v24 in
   all_true [
      returns o4;
      negb (get false o4);
      returns o7;
      ordering_is v8 None;
      returns o9;
      negb (get false o9);
      returns o10;
      negb (get false o10);
      returns o11;
      negb (get false o11);
      returns o12;
      negb (get false o12);
      returns o13;
      negb (get false o13);
      returns o14;
      negb (get false o14);
      returns o16;
      ordering_is v17 v1;
      returns o18;
      negb (get false o18);
      returns o19;
      negb (get false o19);
      returns o20;
      negb (get false o20);
      returns o21;
      get false o21;
      returns o22;
      negb (get false o22);
      returns o23;
      get false o23;
      returns o25;
      ordering_is v26 v0;
      returns o27;
      get false o27;
      returns o28;
      negb (negb (get false o28));
      returns o29;
      negb (get false o29);
      returns o30;
      negb (get false o30)]) = true.
Proof. vm_compute. reflexivity. Qed.

Example test_comparisons_9 : (
   let o0 := unwrap_parse (from_str SingleS (bytes "-0x1p+0")) in
   let v1 := get junk o0 in
   let v2 := Some Lt in
   let v3 := neg (largest SingleS) in
   let v4 := neg (largest SingleS) in
   let o5 := le_f v3 v4 in
   let o6 := ge_f v3 v4 in
   let o7 := partial_cmp v3 v1 in
   let v8 := get None o7 in
   let o9 := eq_f v3 v1 in
   let o10 := eq_f v3 v1 in
   let o11 := lt_f v3 v1 in
   let o12 := gt_f v3 v1 in
   let o13 := le_f v3 v1 in
   let o14 := ge_f v3 v1 in
   let v15 := neg (ZERO SingleS) in
   let o16 := partial_cmp v3 v15 in
   let v17 := get None o16 in
   let o18 := eq_f v3 v15 in
   let o19 := eq_f v3 v15 in
   let o20 := lt_f v3 v15 in
   let o21 := gt_f v3 v15 in
   let o22 := le_f v3 v15 in
   let o23 := ge_f v3 v15 in
   let v24 := ZERO SingleS in
   let o25 := partial_cmp v3 v24 in
   let v26 := get None o25 in
   let o27 := eq_f v3 v24 in
   let o28 := eq_f v3 v24 in
   let o29 := lt_f v3 v24 in
   all_true [
      returns o5;
      get false o5;
      returns o6;
      get false o6;
      returns o7;
      ordering_is v8 v2;
      returns o9;
      negb (get false o9);
      returns o10;
      negb (get false o10);
      returns o11;
      get false o11;
      returns o12;
      negb (get false o12);
      returns o13;
      get false o13;
      returns o14;
      negb (get false o14);
      returns o16;
      ordering_is v17 v2;
      returns o18;
      negb (get false o18);
      returns o19;
      negb (get false o19);
      returns o20;
      get false o20;
      returns o21;
      negb (get false o21);
      returns o22;
      get false o22;
      returns o23;
      negb (get false o23);
      returns o25;
      ordering_is v26 v2;
      returns o27;
      negb (get false o27);
      returns o28;
      negb (get false o28);
      returns o29;
      get false o29]) = true.
Proof. vm_compute. reflexivity. Qed.

Example test_comparisons_10 : (
   let o0 := unwrap_parse (from_str SingleS (bytes "0x1p+0")) in
   let v1 := get junk o0 in
   let v2 := Some Lt in
   let v3 := neg (largest SingleS) in
   let v4 := ZERO SingleS in
   let o5 := gt_f v3 v4 in
   let o6 := le_f v3 v4 in
   let o7 := ge_f v3 v4 in
   let o8 := partial_cmp v3 v1 in
   let v9 := get None o8 in
   let o10 := eq_f v3 v1 in
   let o11 := eq_f v3 v1 in
   let o12 := lt_f v3 v1 in
   let o13 := gt_f v3 v1 in
   let o14 := le_f v3 v1 in
   let o15 := ge_f v3 v1 in
   let v16 := largest SingleS in
   let o17 := partial_cmp v3 v16 in
   let v18 := get None o17 in
   let o19 := eq_f v3 v16 in
   let o20 := eq_f v3 v16 in
   let o21 := lt_f v3 v16 in
   let o22 := gt_f v3 v16 in
   let o23 := le_f v3 v16 in
   let o24 := ge_f v3 v16 in
   let v25 := INFINITY SingleS in
   let o26 := partial_cmp v3 v25 in
   let v27 := get None o26 in
   let o28 := eq_f v3 v25 in
   let o29 := eq_f v3 v25 in
   all_true [
      returns o5;
      negb (get false o5);
      returns o6;
      get false o6;
      returns o7;
      negb (get false o7);
      returns o8;
      ordering_is v9 v2;
      returns o10;
      negb (get false o10);
      returns o11;
      negb (get false o11);
      returns o12;
      get false o12;
      returns o13;
      negb (get false o13);
      returns o14;
      get false o14;
      returns o15;
      negb (get false o15);
      returns o17;
      ordering_is v18 v2;
      returns o19;
      negb (get false o19);
      returns o20;
      negb (get false o20);
      returns o21;
      get false o21;
      returns o22;
      negb (get false o22);
      returns o23;
      get false o23;
      returns o24;
      negb (get false o24);
      returns o26;
      ordering_is v27 v2;
      returns o28;
      negb (get false o28);
      returns o29;
      negb (get false o29)]) = true.
Proof. vm_compute. reflexivity. Qed.

Example test_comparisons_11 : (
   let o0 := unwrap_parse (from_str SingleS (bytes "-0x1p+0")) in
   let v1 := get junk o0 in
   let v2 := Some Gt in
   let v3 := neg (largest SingleS) in
   let v4 := INFINITY SingleS in
   let o5 := lt_f v3 v4 in
   let o6 := gt_f v3 v4 in
   let o7 := le_f v3 v4 in
   let o8 := ge_f v3 v4 in
   let v9 := NAN SingleS in
   let o10 := partial_cmp v3 v9 in
   let v11 := get None o10 in
   let o12 := eq_f v3 v9 in
   let o13 := eq_f v3 v9 in
   let o14 := lt_f v3 v9 in
   let o15 := gt_f v3 v9 in
   let o16 := le_f v3 v9 in
   let o17 := ge_f v3 v9 in
   let v18 := neg (NAN SingleS) in
   let o19 := partial_cmp v1 v18 in
   let v20 := get None o19 in
   let o21 := eq_f v1 v18 in
   let o22 := eq_f v1 v18 in
   let o23 := lt_f v1 v18 in
   let o24 := gt_f v1 v18 in
   let o25 := le_f v1 v18 in
   let o26 := ge_f v1 v18 in
   let v27 := neg (INFINITY SingleS) in
   let o28 := partial_cmp v1 v27 in
   let v29 := get None o28 in
   let o30 := eq_f v1 v27 in
   all_true [
      returns o5;
      get false o5;
      returns o6;
      negb (get false o6);
      returns o7;
      get false o7;
      returns o8;
      negb (get false o8);
      returns o10;
      ordering_is v11 None;
      returns o12;
      negb (get false o12);
      returns o13;
      negb (get false o13);
      returns o14;
      negb (get false o14);
      returns o15;
      negb (get false o15);
      returns o16;
      negb (get false o16);
      returns o17;
      negb (get false o17);
      returns o19;
      ordering_is v20 None;
      returns o21;
      negb (get false o21);
      returns o22;
      negb (get false o22);
      returns o23;
      negb (get false o23);
      returns o24;
      negb (get false o24);
      returns o25;
      negb (get false o25);
      returns o26;
      negb (get false o26);
      returns o28;
      ordering_is v29 v2;
      returns o30;
      negb (get false o30)]) = true.
Proof. vm_compute. reflexivity. Qed.

Example test_comparisons_12 : (
   let o0 := unwrap_parse (from_str SingleS (bytes "-0x1p+0")) in
   let v1 := get junk o0 in
   let v2 := Some Lt in
   let v3 := Some Eq in
   let v4 := Some Gt in
   let v5 := neg (INFINITY SingleS) in
   let o6 := eq_f v1 v5 in
   let o7 := lt_f v1 v5 in
   let o8 := gt_f v1 v5 in
   let o9 := le_f v1 v5 in
   let o10 := ge_f v1 v5 in
   let v11 := neg (largest SingleS) in
   let o12 := partial_cmp v1 v11 in
   let v13 := get None o12 in
   let o14 := eq_f v1 v11 in
   let o15 := eq_f v1 v11 in
   let o16 := lt_f v1 v11 in
   let o17 := gt_f v1 v11 in
   let o18 := le_f v1 v11 in
   let o19 := ge_f v1 v11 in
   let o20 := partial_cmp v1 v1 in
   let v21 := get None o20 in
   let o22 := eq_f v1 v1 in
   let o23 := eq_f v1 v1 in
   let o24 := lt_f v1 v1 in
   let o25 := gt_f v1 v1 in
   let o26 := le_f v1 v1 in
   let o27 := ge_f v1 v1 in
   let v28 := neg (ZERO SingleS) in
   let o29 := partial_cmp v1 v28 in
   let v30 := get None o29 in
   all_true [
      returns o6;
      negb (get false o6);
      returns o7;
      negb (get false o7);
      returns o8;
      get false o8;
      returns o9;
      negb (get false o9);
      returns o10;
      get false o10;
      returns o12;
      ordering_is v13 v4;
      returns o14;
      negb (get false o14);
      returns o15;
      negb (get false o15);
      returns o16;
      negb (get false o16);
      returns o17;
      get false o17;
      returns o18;
      negb (get false o18);
      returns o19;
      get false o19;
      returns o20;
      ordering_is v21 v3;
      returns o22;
      get false o22;
      returns o23;
      negb (negb (get false o23));
      returns o24;
      negb (get false o24);
      returns o25;
      negb (get false o25);
      returns o26;
      get false o26;
      returns o27;
      get false o27;
      returns o29;
      ordering_is v30 v2]) = true.
Proof. vm_compute. reflexivity. Qed.

Example test_comparisons_13 : (
   let o0 := unwrap_parse (from_str SingleS (bytes "-0x1p+0")) in
   let v1 := get junk o0 in
   let o2 := unwrap_parse (from_str SingleS (bytes "0x1p+0")) in
   let v3 := get junk o2 in
   let v4 := Some Lt in
   let v5 := neg (ZERO SingleS) in
   let o6 := eq_f v1 v5 in
   let o7 := eq_f v1 v5 in
   let o8 := lt_f v1 v5 in
   let o9 := gt_f v1 v5 in
   let o10 := le_f v1 v5 in
   let o11 := ge_f v1 v5 in
   let v12 := ZERO SingleS in
   let o13 := partial_cmp v1 v12 in
   let v14 := get None o13 in
   let o15 := eq_f v1 v12 in
   let o16 := eq_f v1 v12 in
   let o17 := lt_f v1 v12 in
   let o18 := gt_f v1 v12 in
   let o19 := le_f v1 v12 in
   let o20 := ge_f v1 v12 in
   let o21 := partial_cmp v1 v3 in
   let v22 := get None o21 in
   let o23 := eq_f v1 v3 in
   let o24 := eq_f v1 v3 in
   let o25 := lt_f v1 v3 in
   let o26 := gt_f v1 v3 in
   let o27 := le_f v1 v3 in
   let o28 := ge_f v1 v3 in
   all_true [
      returns o6;
      negb (get false o6);
      returns o7;
      negb (get false o7);
      returns o8;
      get false o8;
      returns o9;
      negb (get false o9);
      returns o10;
      get false o10;
      returns o11;
      negb (get false o11);
      returns o13;
      ordering_is v14 v4;
      returns o15;
      negb (get false o15);
      returns o16;
      negb (get false o16);
      returns o17;
      get false o17;
      returns o18;
      negb (get false o18);
      returns o19;
      get false o19;
      returns o20;
      negb (get false o20);
      returns o21;
      ordering_is v22 v4;
      returns o23;
      negb (get false o23);
      returns o24;
      negb (get false o24);
      returns o25;
      get false o25;
      returns o26;
      negb (get false o26);
      returns o27;
      get false o27;
      returns o28;
      negb (get false o28)]) = true.
Proof. vm_compute. reflexivity. Qed.

Example test_comparisons_14 : (
   let o0 := unwrap_parse (from_str SingleS (bytes "-0x1p+0")) in
   let v1 := get junk o0 in
   let v2 := Some Lt in
   let v3 := largest SingleS in
   let o4 := partial_cmp v1 v3 in
   let v5 := get None o4 in
   let o6 := eq_f v1 v3 in
   let o7 := eq_f v1 v3 in
   let o8 := lt_f v1 v3 in
   let o9 := gt_f v1 v3 in
   let o10 := le_f v1 v3 in
   let o11 := ge_f v1 v3 in
   let v12 := INFINITY SingleS in
   let o13 := partial_cmp v1 v12 in
   let v14 := get None o13 in
   let o15 := eq_f v1 v12 in
   let o16 := eq_f v1 v12 in
   let o17 := lt_f v1 v12 in
   let o18 := gt_f v1 v12 in
   let o19 := le_f v1 v12 in
   let o20 := ge_f v1 v12 in
   let v21 := NAN SingleS in
   let o22 := partial_cmp v1 v21 in
   let v23 := get None o22 in
   let o24 := eq_f v1 v21 in
   let o25 := eq_f v1 v21 in
   let o26 := lt_f v1 v21 in
   let o27 := gt_f v1 v21 in
   let o28 := le_f v1 v21 in
   all_true [
      returns o4;
      ordering_is v5 v2;
      returns o6;
      negb (get false o6);
      returns o7;
      negb (get false o7);
      returns o8;
      get false o8;
      returns o9;
      negb (get false o9);
      returns o10;
      get false o10;
      returns o11;
      negb (get false o11);
      returns o13;
      ordering_is v14 v2;
      returns o15;
      negb (get false o15);
      returns o16;
      negb (get false o16);
      returns o17;
      get false o17;
      returns o18;
      negb (get false o18);
      returns o19;
      get false o19;
      returns o20;
      negb (get false o20);
      returns o22;
      ordering_is v23 None;
      returns o24;
      negb (get false o24);
      returns o25;
      negb (get false o25);
      returns o26;
      negb (get false o26);
      returns o27;
      negb (get false o27);
      returns o28;
      negb (get false o28)]) = true.
Proof. vm_compute. reflexivity. Qed.

Example test_comparisons_15 : (
   let o0 := unwrap_parse (from_str SingleS (bytes "-0x1p+0")) in
   let v1 := get junk o0 in
   let v2 := Some Gt in
   let v3 := NAN SingleS in
   let o4 := ge_f v1 v3 in
   let v5 := neg (ZERO SingleS) in
   let v6 := neg (NAN SingleS) in
   let o7 := partial_cmp v5 v6 in
   let v8 := get None o7 in
   let o9 := eq_f v5 v6 in
   let o10 := eq_f v5 v6 in
   let o11 := lt_f v5 v6 in
   let o12 := gt_f v5 v6 in
   let o13 := le_f v5 v6 in
   let o14 := ge_f v5 v6 in
   let v15 := neg (INFINITY SingleS) in
   let o16 := partial_cmp v5 v15 in
   let v17 := get None o16 in
   let o18 := eq_f v5 v15 in
   let o19 := eq_f v5 v15 in
   let o20 := lt_f v5 v15 in
   let o21 := gt_f v5 v15 in
   let o22 := le_f v5 v15 in
   let o23 := ge_f v5 v15 in
   let v24 := neg (largest SingleS) in
   let o25 := partial_cmp v5 v24 in
   let v26 := get None o25 in
   let o27 := eq_f v5 v24 in
   let o28 := eq_f v5 v24 in
   let o29 := lt_f v5 v24 in
   let o30 := gt_f v5 v24 in
   all_true [
      returns o4;
      negb (get false o4);
      returns o7;
      ordering_is v8 None;
      returns o9;
      negb (get false o9);
      returns o10;
      negb (get false o10);
      returns o11;
      negb (get false o11);
      returns o12;
      negb (get false o12);
      returns o13;
      negb (get false o13);
      returns o14;
      negb (get false o14);
      returns o16;
      ordering_is v17 v2;
      returns o18;
      negb (get false o18);
      returns o19;
      negb (get false o19);
      returns o20;
      negb (get false o20);
      returns o21;
      get false o21;
      returns o22;
      negb (get false o22);
      returns o23;
      get false o23;
      returns o25;
      ordering_is v26 v2;
      returns o27;
      negb (get false o27);
      returns o28;
      negb (get false o28);
      returns o29;
      negb (get false o29);
      returns o30;
      get false o30]) = true.
Proof. vm_compute. reflexivity. Qed.

Example test_comparisons_16 : (
   let o0 := unwrap_parse (from_str SingleS (bytes "-0x1p+0")) in
   let v1 := get junk o0 in
   let v2 := Some Eq in
   let v3 := Some Gt in
   let v4 := neg (ZERO SingleS) in
   let v5 := neg (largest SingleS) in
   let o6 := le_f v4 v5 in
   let o7 := ge_f v4 v5 in
   let o8 := partial_cmp v4 v1 in
   let v9 := get None o8 in
   let o10 := eq_f v4 v1 in
   let o11 := eq_f v4 v1 in
   let o12 := lt_f v4 v1 in
   let o13 := gt_f v4 v1 in
   let o14 := le_f v4 v1 in
   let o15 := ge_f v4 v1 in
   let v16 := neg (ZERO SingleS) in
   let o17 := partial_cmp v4 v16 in
   let v18 := get None o17 in
   let o19 := eq_f v4 v16 in
   let o20 := eq_f v4 v16 in
   let o21 := lt_f v4 v16 in
   let o22 := gt_f v4 v16 in
   let o23 := le_f v4 v16 in
   let o24 := ge_f v4 v16 in
   let v25 := ZERO SingleS in
   let o26 := partial_cmp v4 v25 in
   let v27 := get None o26 in
   let o28 := eq_f v4 v25 in
   let o29 := eq_f v4 v25 in
   let o30 := lt_f v4 v25 in
   all_true [
      returns o6;
      negb (get false o6);
      returns o7;
      get false o7;
      returns o8;
      ordering_is v9 v3;
      returns o10;
      negb (get false o10);
      returns o11;
      negb (get false o11);
      returns o12;
      negb (get false o12);
      returns o13;
      get false o13;
      returns o14;
      negb (get false o14);
      returns o15;
      get false o15;
      returns o17;
      ordering_is v18 v2;
      returns o19;
      get false o19;
      returns o20;
      negb (negb (get false o20));
      returns o21;
      negb (get false o21);
      returns o22;
      negb (get false o22);
      returns o23;
      get false o23;
      returns o24;
      get false o24;
      returns o26;
      ordering_is v27 v2;
      returns o28;
      get false o28;
      returns o29;
      negb (negb (get false o29));
      returns o30;
      negb (get false o30)]) = true.
Proof. vm_compute. reflexivity. Qed.

Example test_comparisons_17 : (
   let o0 := unwrap_parse (from_str SingleS (bytes "0x1p+0")) in
   let v1 := get junk o0 in
   let v2 := Some Lt in
   let v3 := neg (ZERO SingleS) in
   let v4 := ZERO SingleS in
   let o5 := gt_f v3 v4 in
   let o6 := le_f v3 v4 in
   let o7 := ge_f v3 v4 in
   let o8 := partial_cmp v3 v1 in
   let v9 := get None o8 in
   let o10 := eq_f v3 v1 in
   let o11 := eq_f v3 v1 in
   let o12 := lt_f v3 v1 in
   let o13 := gt_f v3 v1 in
   let o14 := le_f v3 v1 in
   let o15 := ge_f v3 v1 in
   let v16 := largest SingleS in
   let o17 := partial_cmp v3 v16 in
   let v18 := get None o17 in
   let o19 := eq_f v3 v16 in
   let o20 := eq_f v3 v16 in
   let o21 := lt_f v3 v16 in
   let o22 := gt_f v3 v16 in
   let o23 := le_f v3 v16 in
   let o24 := ge_f v3 v16 in
   let v25 := INFINITY SingleS in
   let o26 := partial_cmp v3 v25 in
   let v27 := get None o26 in
   let o28 := eq_f v3 v25 in
   let o29 := eq_f v3 v25 in
   all_true [
      returns o5;
      negb (get false o5);
      returns o6;
      get false o6;
      returns o7;
      get false o7;
      returns o8;
      ordering_is v9 v2;
      returns o10;
      negb (get false o10);
      returns o11;
      negb (get false o11);
      returns o12;
      get false o12;
      returns o13;
      negb (get false o13);
      returns o14;
      get false o14;
      returns o15;
      negb (get false o15);
      returns o17;
      ordering_is v18 v2;
      returns o19;
      negb (get false o19);
      returns o20;
      negb (get false o20);
      returns o21;
      get false o21;
      returns o22;
      negb (get false o22);
      returns o23;
      get false o23;
      returns o24;
      negb (get false o24);
      returns o26;
      ordering_is v27 v2;
      returns o28;
      negb (get false o28);
      returns o29;
      negb (get false o29)]) = true.
Proof. vm_compute. reflexivity. Qed.

Example test_comparisons_18 : (
   let v0 := Some Gt in
   let v1 := neg (ZERO SingleS) in
   let v2 := INFINITY SingleS in
   let o3 := lt_f v1 v2 in
   let o4 := gt_f v1 v2 in
   let o5 := le_f v1 v2 in
   let o6 := ge_f v1 v2 in
   let v7 := NAN SingleS in
   let o8 := partial_cmp v1 v7 in
   let v9 := get None o8 in
   let o10 := eq_f v1 v7 in
   let o11 := eq_f v1 v7 in
   let o12 := lt_f v1 v7 in
   let o13 := gt_f v1 v7 in
   let o14 := le_f v1 v7 in
   let o15 := ge_f v1 v7 in
   let v16 := ZERO SingleS in
   let v17 := neg (NAN SingleS) in
   let o18 := partial_cmp v16 v17 in
   let v19 := get None o18 in
   let o20 := eq_f v16 v17 in
   let o21 := eq_f v16 v17 in
   let o22 := lt_f v16 v17 in
   let o23 := gt_f v16 v17 in
   let o24 := le_f v16 v17 in
   let o25 := ge_f v16 v17 in
   let v26 := neg (INFINITY SingleS) in
   let o27 := partial_cmp v16 v26 in
   let v28 := get None o27 in
   let o29 := eq_f v16 v26 in
   all_true [
      returns o3;
      get false o3;
      returns o4;
      negb (get false o4);
      returns o5;
      get false o5;
      returns o6;
      negb (get false o6);
      returns o8;
      ordering_is v9 None;
      returns o10;
      negb (get false o10);
      returns o11;
      negb (get false o11);
      returns o12;
      negb (get false o12);
      returns o13;
      negb (get false o13);
      returns o14;
      negb (get false o14);
      returns o15;
      negb (get false o15);
      returns o18;
      ordering_is v19 None;
      returns o20;
      negb (get false o20);
      returns o21;
      negb (get false o21);
      returns o22;
      negb (get false o22);
      returns o23;
      negb (get false o23);
      returns o24;
      negb (get false o24);
      returns o25;
      negb (get false o25);
      returns o27;
      ordering_is v28 v0;
      returns o29;
      negb (get false o29)]) = true.
Proof. vm_compute. reflexivity. Qed.

Example test_comparisons_19 : (
   let o0 := unwrap_parse (from_str SingleS (bytes "-0x1p+0")) in
   let v1 := get junk o0 in
   let v2 := Some Eq in
   let v3 := Some Gt in
   let v4 := ZERO SingleS in
   let v5 := neg (INFINITY SingleS) in
   let o6 := eq_f v4 v5 in
   let o7 := lt_f v4 v5 in
   let o8 := gt_f v4 v5 in
   let o9 := le_f v4 v5 in
   let o10 := ge_f v4 v5 in
   let v11 := neg (largest SingleS) in
   let o12 := partial_cmp v4 v11 in
   let v13 := get None o12 in
   let o14 := eq_f v4 v11 in
   let o15 := eq_f v4 v11 in
   let o16 := lt_f v4 v11 in
   let o17 := gt_f v4 v11 in
   let o18 := le_f v4 v11 in
   let o19 := ge_f v4 v11 in
   let o20 := partial_cmp v4 v1 in
   let v21 := get None o20 in
   let o22 := eq_f v4 v1 in
   let o23 := eq_f v4 v1 in
   let o24 := lt_f v4 v1 in
   let o25 := gt_f v4 v1 in
   let o26 := le_f v4 v1 in
   let o27 := ge_f v4 v1 in
   let v28 := neg (ZERO SingleS) in
   let o29 := partial_cmp v4 v28 in
   let v30 := get None o29 in
   all_true [
      returns o6;
      negb (get false o6);
      returns o7;
      negb (get false o7);
      returns o8;
      get false o8;
      returns o9;
      negb (get false o9);
      returns o10;
      get false o10;
      returns o12;
      ordering_is v13 v3;
      returns o14;
      negb (get false o14);
      returns o15;
      negb (get false o15);
      returns o16;
      negb (get false o16);
      returns o17;
      get false o17;
      returns o18;
      negb (get false o18);
      returns o19;
      get false o19;
      returns o20;
      ordering_is v21 v3;
      returns o22;
      negb (get false o22);
      returns o23;
      negb (get false o23);
      returns o24;
      negb (get false o24);
      returns o25;
      get false o25;
      returns o26;
      negb (get false o26);
      returns o27;
      get false o27;
      returns o29;
      ordering_is v30 v2]) = true.
Proof. vm_compute. reflexivity. Qed.

Example test_comparisons_20 : (
   let o0 := unwrap_parse (from_str SingleS (bytes "0x1p+0")) in
   let v1 := get junk o0 in
   let v2 := Some Lt in
   let v3 := Some Eq in
   let v4 := ZERO SingleS in
   let v5 := neg (ZERO SingleS) in
   let o6 := eq_f v4 v5 in
   let o7 := eq_f v4 v5 in
   let o8 := lt_f v4 v5 in
   let o9 := gt_f v4 v5 in
   let o10 := le_f v4 v5 in
   let o11 := ge_f v4 v5 in
   let v12 := ZERO SingleS in
   let o13 := partial_cmp v4 v12 in
   let v14 := get None o13 in
   let o15 := eq_f v4 v12 in
   let o16 := eq_f v4 v12 in
   let o17 := lt_f v4 v12 in
   let o18 := gt_f v4 v12 in
   let o19 := le_f v4 v12 in
   let o20 := ge_f v4 v12 in
   let o21 := partial_cmp v4 v1 in
   let v22 := get None o21 in
   let o23 := eq_f v4 v1 in
   let o24 := eq_f v4 v1 in
   let o25 := lt_f v4 v1 in
   let o26 := gt_f v4 v1 in
   let o27 := le_f v4 v1 in
   let o28 := ge_f v4 v1 in
   all_true [
      returns o6;
      get false o6;
      returns o7;
      negb (negb (get false o7));
      returns o8;
      negb (get false o8);
      returns o9;
      negb (get false o9);
      returns o10;
      get false o10;
      returns o11;
      get false o11;
      returns o13;
      ordering_is v14 v3;
      returns o15;
      get false o15;
      returns o16;
      negb (negb (get false o16));
      returns o17;
      negb (get false o17);
      returns o18;
      negb (get false o18);
      returns o19;
      get false o19;
      returns o20;
      get false o20;
      returns o21;
      ordering_is v22 v2;
      returns o23;
      negb (get false o23);
      returns o24;
      negb (get false o24);
      returns o25;
      get false o25;
      returns o26;
      negb (get false o26);
      returns o27;
      get false o27;
      returns o28;
      negb (get false o28)]) = true.
Proof. vm_compute. reflexivity. Qed.

Example test_comparisons_21 : (
   let v0 := Some Lt in
   let v1 := ZERO SingleS in
   let v2 := largest SingleS in
   let o3 := partial_cmp v1 v2 in
   let v4 := get None o3 in
   let o5 := eq_f v1 v2 in
   let o6 := eq_f v1 v2 in
   let o7 := lt_f v1 v2 in
   let o8 := gt_f v1 v2 in
   let o9 := le_f v1 v2 in
   let o10 := ge_f v1 v2 in
   let v11 := INFINITY SingleS in
   let o12 := partial_cmp v1 v11 in
   let v13 := get None o12 in
   let o14 := eq_f v1 v11 in
   let o15 := eq_f v1 v11 in
   let o16 := lt_f v1 v11 in
   let o17 := gt_f v1 v11 in
   let o18 := le_f v1 v11 in
   let o19 := ge_f v1 v11 in
   let v20 := NAN SingleS in
   let o21 := partial_cmp v1 v20 in
   let v22 := get None o21 in
   let o23 := eq_f v1 v20 in
   let o24 := eq_f v1 v20 in
   let o25 := lt_f v1 v20 in
   let o26 := gt_f v1 v20 in
   let o27 := le_f v1 v20 in
   all_true [
      returns o3;
      ordering_is v4 v0;
      returns o5;
      negb (get false o5);
      returns o6;
      negb (get false o6);
      returns o7;
      get false o7;
      returns o8;
      negb (get false o8);
      returns o9;
      get false o9;
      returns o10;
      negb (get false o10);
      returns o12;
      ordering_is v13 v0;
      returns o14;
      negb (get false o14);
      returns o15;
      negb (get false o15);
      returns o16;
      get false o16;
      returns o17;
      negb (get false o17);
      returns o18;
      get false o18;
      returns o19;
      negb (get false o19);
      returns o21;
      ordering_is v22 None;
      returns o23;
      negb (get false o23);
      returns o24;
      negb (get false o24);
      returns o25;
      negb (get false o25);
      returns o26;
      negb (get false o26);
      returns o27;
      negb (get false o27)]) = true.
Proof. vm_compute. reflexivity. Qed.

Example test_comparisons_22 : (
   let o0 := unwrap_parse (from_str SingleS (bytes "0x1p+0")) in
   let v1 := get junk o0 in
   let v2 := Some Gt in
   let v3 := ZERO SingleS in
   let v4 := NAN SingleS in
   let o5 := ge_f v3 v4 in
   let v6 := neg (NAN SingleS) in
   let o7 := partial_cmp v1 v6 in
   let v8 := get None o7 in
   let o9 := eq_f v1 v6 in
   let o10 := eq_f v1 v6 in
   let o11 := lt_f v1 v6 in
   let o12 := gt_f v1 v6 in
   let o13 := le_f v1 v6 in
   let o14 := ge_f v1 v6 in
   let v15 := neg (INFINITY SingleS) in
   let o16 := partial_cmp v1 v15 in
   let v17 := get None o16 in
   let o18 := eq_f v1 v15 in
   let o19 := eq_f v1 v15 in
   let o20 := lt_f v1 v15 in
   let o21 := gt_f v1 v15 in
   let o22 := le_f v1 v15 in
   let o23 := ge_f v1 v15 in
   let v24 := neg (largest SingleS) in
   let o25 := partial_cmp v1 v24 in
   let v26 := get None o25 in
   let o27 := eq_f v1 v24 in
   let o28 := eq_f v1 v24 in
   let o29 := lt_f v1 v24 in
   let o30 := gt_f v1 v24 in
   all_true [
      returns o5;
      negb (get false o5);
      returns o7;
      ordering_is v8 None;
      returns o9;
      negb (get false o9);
      returns o10;
      negb (get false o10);
      returns o11;
      negb (get false o11);
      returns o12;
      negb (get false o12);
      returns o13;
      negb (get false o13);
      returns o14;
      negb (get false o14);
      returns o16;
      ordering_is v17 v2;
      returns o18;
      negb (get false o18);
      returns o19;
      negb (get false o19);
      returns o20;
      negb (get false o20);
      returns o21;
      get false o21;
      returns o22;
      negb (get false o22);
      returns o23;
      get false o23;
      returns o25;
      ordering_is v26 v2;
      returns o27;
      negb (get false o27);
      returns o28;
      negb (get false o28);
      returns o29;
      negb (get false o29);
      returns o30;
      get false o30]) = true.
Proof. vm_compute. reflexivity. Qed.

Example test_comparisons_23 : (
   let o0 := unwrap_parse (from_str SingleS (bytes "-0x1p+0")) in
   let v1 := get junk o0 in
   let o2 := unwrap_parse (from_str SingleS (bytes "0x1p+0")) in
   let v3 := get junk o2 in
   let v4 := Some Gt in
   let v5 := neg (largest SingleS) in
   let o6 := le_f v3 v5 in
   let o7 := ge_f v3 v5 in
   let o8 := partial_cmp v3 v1 in
   let v9 := get None o8 in
   let o10 := eq_f v3 v1 in
   let o11 := eq_f v3 v1 in
   let o12 := lt_f v3 v1 in
   let o13 := gt_f v3 v1 in
   let o14 := le_f v3 v1 in
   let o15 := ge_f v3 v1 in
   let v16 := neg (ZERO SingleS) in
   let o17 := partial_cmp v3 v16 in
   let v18 := get None o17 in
   let o19 := eq_f v3 v16 in
   let o20 := eq_f v3 v16 in
   let o21 := lt_f v3 v16 in
   let o22 := gt_f v3 v16 in
   let o23 := le_f v3 v16 in
   let o24 := ge_f v3 v16 in
   let v25 := ZERO SingleS in
   let o26 := partial_cmp v3 v25 in
   let v27 := get None o26 in
   let o28 := eq_f v3 v25 in
   let o29 := eq_f v3 v25 in
   let o30 := lt_f v3 v25 in
   all_true [
      returns o6;
      negb (get false o6);
      returns o7;
      get false o7;
      returns o8;
      ordering_is v9 v4;
      returns o10;
      negb (get false o10);
      returns o11;
      negb (get false o11);
      returns o12;
      negb (get false o12);
      returns o13;
      get false o13;
      returns o14;
      negb (get false o14);
      returns o15;
      get false o15;
      returns o17;
      ordering_is v18 v4;
      returns o19;
      negb (get false o19);
      returns o20;
      negb (get false o20);
      returns o21;
      negb (get false o21);
      returns o22;
      get false o22;
      returns o23;
      negb (get false o23);
      returns o24;
      get false o24;
      returns o26;
      ordering_is v27 v4;
      returns o28;
      negb (get false o28);
      returns o29;
      negb (get false o29);
      returns o30;
      negb (get false o30)]) = true.
Proof. vm_compute. reflexivity. Qed.

Example test_comparisons_24 : (
   let o0 := unwrap_parse (from_str SingleS (bytes "0x1p+0")) in
   let v1 := get junk o0 in
   let v2 := Some Lt in
   let v3 := Some Eq in
   let v4 := ZERO SingleS in
   let o5 := gt_f v1 v4 in
   let o6 := le_f v1 v4 in
   let o7 := ge_f v1 v4 in
   let o8 := partial_cmp v1 v1 in
   let v9 := get None o8 in
   let o10 := eq_f v1 v1 in
   let o11 := eq_f v1 v1 in
   let o12 := lt_f v1 v1 in
   let o13 := gt_f v1 v1 in
   let o14 := le_f v1 v1 in
   let o15 := ge_f v1 v1 in
   let v16 := largest SingleS in
   let o17 := partial_cmp v1 v16 in
   let v18 := get None o17 in
   let o19 := eq_f v1 v16 in
   let o20 := eq_f v1 v16 in
   let o21 := lt_f v1 v16 in
   let o22 := gt_f v1 v16 in
   let o23 := le_f v1 v16 in
   let o24 := ge_f v1 v16 in
   let v25 := INFINITY SingleS in
   let o26 := partial_cmp v1 v25 in
   let v27 := get None o26 in
   let o28 := eq_f v1 v25 in
   let o29 := eq_f v1 v25 in
   all_true [
      returns o5;
      get false o5;
      returns o6;
      negb (get false o6);
      returns o7;
      get false o7;
      returns o8;
      ordering_is v9 v3;
      returns o10;
      get false o10;
      returns o11;
      negb (negb (get false o11));
      returns o12;
      negb (get false o12);
      returns o13;
      negb (get false o13);
      returns o14;
      get false o14;
      returns o15;
      get false o15;
      returns o17;
      ordering_is v18 v2;
      returns o19;
      negb (get false o19);
      returns o20;
      negb (get false o20);
      returns o21;
      get false o21;
      returns o22;
      negb (get false o22);
      returns o23;
      get false o23;
      returns o24;
      negb (get false o24);
      returns o26;
      ordering_is v27 v2;
      returns o28;
      negb (get false o28);
      returns o29;
      negb (get false o29)]) = true.
Proof. vm_compute. reflexivity. Qed.

Example test_comparisons_25 : (
   let o0 := unwrap_parse (from_str SingleS (bytes "0x1p+0")) in
   let v1 := get junk o0 in
   let v2 := Some Gt in
   let v3 := INFINITY SingleS in
   let o4 := lt_f v1 v3 in
   let o5 := gt_f v1 v3 in
   let o6 := le_f v1 v3 in
   let o7 := ge_f v1 v3 in
   let v8 := NAN SingleS in
   let o9 := partial_cmp v1 v8 in
   let v10 := get None o9 in
   let o11 := eq_f v1 v8 in
   let o12 := eq_f v1 v8 in
   let o13 := lt_f v1 v8 in
   let o14 := gt_f v1 v8 in
   let o15 := le_f v1 v8 in
   let o16 := ge_f v1 v8 in
   let v17 := largest SingleS in
   let v18 := neg (NAN SingleS) in
   let o19 := partial_cmp v17 v18 in
   let v20 := get None o19 in
   let o21 := eq_f v17 v18 in
   let o22 := eq_f v17 v18 in
   let o23 := lt_f v17 v18 in
   let o24 := gt_f v17 v18 in
   let o25 := le_f v17 v18 in
   let o26 := ge_f v17 v18 in
   let v27 := neg (INFINITY SingleS) in
   let o28 := partial_cmp v17 v27 in
   let v29 := get None o28 in
   let o30 := eq_f v17 v27 in
   all_true [
      returns o4;
      get false o4;
      returns o5;
      negb (get false o5);
      returns o6;
      get false o6;
      returns o7;
      negb (get false o7);
      returns o9;
      ordering_is v10 None;
      returns o11;
      negb (get false o11);
      returns o12;
      negb (get false o12);
      returns o13;
      negb (get false o13);
      returns o14;
      negb (get false o14);
      returns o15;
      negb (get false o15);
      returns o16;
      negb (get false o16);
      returns o19;
      ordering_is v20 None;
      returns o21;
      negb (get false o21);
      returns o22;
      negb (get false o22);
      returns o23;
      negb (get false o23);
      returns o24;
      negb (get false o24);
      returns o25;
      negb (get false o25);
      returns o26;
      negb (get false o26);
      returns o28;
      ordering_is v29 v2;
      returns o30;
      negb (get false o30)]) = true.
Proof. vm_compute. reflexivity. Qed.

Example test_comparisons_26 : (
   let o0 := unwrap_parse (from_str SingleS (bytes "-0x1p+0")) in
   let v1 := get junk o0 in
   let v2 := Some Gt in
   let v3 := largest SingleS in
   let v4 := neg (INFINITY SingleS) in
   let o5 := eq_f v3 v4 in
   let o6 := lt_f v3 v4 in
   let o7 := gt_f v3 v4 in
   let o8 := le_f v3 v4 in
   let o9 := ge_f v3 v4 in
   let v10 := neg (largest SingleS) in
   let o11 := partial_cmp v3 v10 in
   let v12 := get None o11 in
   let o13 := eq_f v3 v10 in
   let o14 := eq_f v3 v10 in
   let o15 := lt_f v3 v10 in
   let o16 := gt_f v3 v10 in
   let o17 := le_f v3 v10 in
   let o18 := ge_f v3 v10 in
   let o19 := partial_cmp v3 v1 in
   let v20 := get None o19 in
   let o21 := eq_f v3 v1 in
   let o22 := eq_f v3 v1 in
   let o23 := lt_f v3 v1 in
   let o24 := gt_f v3 v1 in
   let o25 := le_f v3 v1 in
   let o26 := ge_f v3 v1 in
   let v27 := neg (ZERO SingleS) in
   let o28 := partial_cmp v3 v27 in
   let v29 := get None o28 in
   all_true [
      returns o5;
      negb (get false o5);
      returns o6;
      negb (get false o6);
      returns o7;
      get false o7;
      returns o8;
      negb (get false o8);
      returns o9;
      get false o9;
      returns o11;
      ordering_is v12 v2;
      returns o13;
      negb (get false o13);
      returns o14;
      negb (get false o14);
      returns o15;
      negb (get false o15);
      returns o16;
      get false o16;
      returns o17;
      negb (get false o17);
      returns o18;
      get false o18;
      returns o19;
      ordering_is v20 v2;
      returns o21;
      negb (get false o21);
      returns o22;
      negb (get false o22);
      returns o23;
      negb (get false o23);
      returns o24;
      get false o24;
      returns o25;
      negb (get false o25);
      returns o26;
      get false o26;
      returns o28;
      ordering_is v29 v2]) = true.
Proof. vm_compute. reflexivity. Qed.

Example test_comparisons_27 : (
   let o0 := unwrap_parse (from_str SingleS (bytes "0x1p+0")) in
   let v1 := get junk o0 in
   let v2 := Some Gt in
   let v3 := largest SingleS in
   let v4 := neg (ZERO SingleS) in
   let o5 := eq_f v3 v4 in
   let o6 := eq_f v3 v4 in
   let o7 := lt_f v3 v4 in
   let o8 := gt_f v3 v4 in
   let o9 := le_f v3 v4 in
   let o10 := ge_f v3 v4 in
   let v11 := ZERO SingleS in
   let o12 := partial_cmp v3 v11 in
   let v13 := get None o12 in
   let o14 := eq_f v3 v11 in
   let o15 := eq_f v3 v11 in
   let o16 := lt_f v3 v11 in
   let o17 := gt_f v3 v11 in
   let o18 := le_f v3 v11 in
   let o19 := ge_f v3 v11 in
   let o20 := partial_cmp v3 v1 in
   let v21 := get None o20 in
   let o22 := eq_f v3 v1 in
   let o23 := eq_f v3 v1 in
   let o24 := lt_f v3 v1 in
   let o25 := gt_f v3 v1 in
   let o26 := le_f v3 v1 in
   let o27 := ge_f v3 v1 in
   all_true [
      returns o5;
      negb (get false o5);
      returns o6;
      negb (get false o6);
      returns o7;
      negb (get false o7);
      returns o8;
      get false o8;
      returns o9;
      negb (get false o9);
      returns o10;
      get false o10;
      returns o12;
      ordering_is v13 v2;
      returns o14;
      negb (get false o14);
      returns o15;
      negb (get false o15);
      returns o16;
      negb (get false o16);
      returns o17;
      get false o17;
      returns o18;
      negb (get false o18);
      returns o19;
      get false o19;
      returns o20;
      ordering_is v21 v2;
      returns o22;
      negb (get false o22);
      returns o23;
      negb (get false o23);
      returns o24;
      negb (get false o24);
      returns o25;
      get false o25;
      returns o26;
      negb (get false o26);
      returns o27;
      get false o27]) = true.
Proof. vm_compute. reflexivity. Qed.

Example test_comparisons_28 : (
   let v0 := Some Lt in
   let v1 := Some Eq in
   let v2 := largest SingleS in
   let v3 := largest SingleS in
   let o4 := partial_cmp v2 v3 in
   let v5 := get None o4 in
   let o6 := eq_f v2 v3 in
   let o7 := eq_f v2 v3 in
   let o8 := lt_f v2 v3 in
   let o9 := gt_f v2 v3 in
   let o10 := le_f v2 v3 in
   let o11 := ge_f v2 v3 in
   let v12 := INFINITY SingleS in
   let o13 := partial_cmp v2 v12 in
   let v14 := get None o13 in
   let o15 := eq_f v2 v12 in
   let o16 := eq_f v2 v12 in
   let o17 := lt_f v2 v12 in
   let o18 := gt_f v2 v12 in
   let o19 := le_f v2 v12 in
   let o20 := ge_f v2 v12 in
   let v21 := NAN SingleS in
   let o22 := partial_cmp v2 v21 in
   let v23 := get None o22 in
   let o24 := eq_f v2 v21 in
   let o25 := eq_f v2 v21 in
   let o26 := lt_f v2 v21 in
   let o27 := gt_f v2 v21 in
   let o28 := le_f v2 v21 in
   all_true [
      returns o4;
      ordering_is v5 v1;
      returns o6;
      get false o6;
      returns o7;
      negb (negb (get false o7));
      returns o8;
      negb (get false o8);
      returns o9;
      negb (get false o9);
      returns o10;
      get false o10;
      returns o11;
      get false o11;
      returns o13;
      ordering_is v14 v0;
      returns o15;
      negb (get false o15);
      returns o16;
      negb (get false o16);
      returns o17;
      get false o17;
      returns o18;
      negb (get false o18);
      returns o19;
      get false o19;
      returns o20;
      negb (get false o20);
      returns o22;
      ordering_is v23 None;
      returns o24;
      negb (get false o24);
      returns o25;
      negb (get false o25);
      returns o26;
      negb (get false o26);
      returns o27;
      negb (get false o27);
      returns o28;
      negb (get false o28)]) = true.
Proof. vm_compute. reflexivity. Qed.

Example test_comparisons_29 : (
   let v0 := Some Gt in
   let v1 := largest SingleS in
   let v2 := NAN SingleS in
   let o3 := ge_f v1 v2 in
   let v4 := INFINITY SingleS in
   let v5 := neg (NAN SingleS) in
   let o6 := partial_cmp v4 v5 in
   let v7 := get None o6 in
   let o8 := eq_f v4 v5 in
   let o9 := eq_f v4 v5 in
   let o10 := lt_f v4 v5 in
   let o11 := gt_f v4 v5 in
   let o12 := le_f v4 v5 in
   let o13 := ge_f v4 v5 in
   let v14 := neg (INFINITY SingleS) in
   let o15 := partial_cmp v4 v14 in
   let v16 := get None o15 in
   let o17 := eq_f v4 v14 in
   let o18 := eq_f v4 v14 in
   let o19 := lt_f v4 v14 in
   let o20 := gt_f v4 v14 in
   let o21 := le_f v4 v14 in
   let o22 := ge_f v4 v14 in
   let v23 := neg (largest SingleS) in
   let o24 := partial_cmp v4 v23 in
   let v25 := get None o24 in
   let o26 := eq_f v4 v23 in
   let o27 := eq_f v4 v23 in
   let o28 := lt_f v4 v23 in
   let o29 := gt_f v4 v23 in
   all_true [
      returns o3;
      negb (get false o3);
      returns o6;
      ordering_is v7 None;
      returns o8;
      negb (get false o8);
      returns o9;
      negb (get false o9);
      returns o10;
      negb (get false o10);
      returns o11;
      negb (get false o11);
      returns o12;
      negb (get false o12);
      returns o13;
      negb (get false o13);
      returns o15;
      ordering_is v16 v0;
      returns o17;
      negb (get false o17);
      returns o18;
      negb (get false o18);
      returns o19;
      negb (get false o19);
      returns o20;
      get false o20;
      returns o21;
      negb (get false o21);
      returns o22;
      get false o22;
      returns o24;
      ordering_is v25 v0;
      returns o26;
      negb (get false o26);
      returns o27;
      negb (get false o27);
      returns o28;
      negb (get false o28);
      returns o29;
      get false o29]) = true.
Proof. vm_compute. reflexivity. Qed.

Example test_comparisons_30 : (
   let o0 := unwrap_parse (from_str SingleS (bytes "-0x1p+0")) in
   let v1 := get junk o0 in
   let v2 := Some Gt in
   let v3 := INFINITY SingleS in
   let v4 := neg (largest SingleS) in
   let o5 := le_f v3 v4 in
   let o6 := ge_f v3 v4 in
   let o7 := partial_cmp v3 v1 in
   let v8 := get None o7 in
   let o9 := eq_f v3 v1 in
   let o10 := eq_f v3 v1 in
   let o11 := lt_f v3 v1 in
   let o12 := gt_f v3 v1 in
   let o13 := le_f v3 v1 in
   let o14 := ge_f v3 v1 in
   let v15 := neg (ZERO SingleS) in
   let o16 := partial_cmp v3 v15 in
   let v17 := get None o16 in
   let o18 := eq_f v3 v15 in
   let o19 := eq_f v3 v15 in
   let o20 := lt_f v3 v15 in
   let o21 := gt_f v3 v15 in
   let o22 := le_f v3 v15 in
   let o23 := ge_f v3 v15 in
   let v24 := ZERO SingleS in
   let o25 := partial_cmp v3 v24 in
   let v26 := get None o25 in
   let o27 := eq_f v3 v24 in
   let o28 := eq_f v3 v24 in
   let o29 := lt_f v3 v24 in
   all_true [
      returns o5;
      negb (get false o5);
      returns o6;
      get false o6;
      returns o7;
      ordering_is v8 v2;
      returns o9;
      negb (get false o9);
      returns o10;
      negb (get false o10);
      returns o11;
      negb (get false o11);
      returns o12;
      get false o12;
      returns o13;
      negb (get false o13);
      returns o14;
      get false o14;
      returns o16;
      ordering_is v17 v2;
      returns o18;
      negb (get false o18);
      returns o19;
      negb (get false o19);
      returns o20;
      negb (get false o20);
      returns o21;
      get false o21;
      returns o22;
      negb (get false o22);
      returns o23;
      get false o23;
      returns o25;
      ordering_is v26 v2;
      returns o27;
      negb (get false o27);
      returns o28;
      negb (get false o28);
      returns o29;
      negb (get false o29)]) = true.
Proof. vm_compute. reflexivity. Qed.

Example test_comparisons_31 : (
   let o0 := unwrap_parse (from_str SingleS (bytes "0x1p+0")) in
   let v1 := get junk o0 in
   let v2 := Some Eq in
   let v3 := Some Gt in
   let v4 := INFINITY SingleS in
   let v5 := ZERO SingleS in
   let o6 := gt_f v4 v5 in
   let o7 := le_f v4 v5 in
   let o8 := ge_f v4 v5 in
   let o9 := partial_cmp v4 v1 in
   let v10 := get None o9 in
   let o11 := eq_f v4 v1 in
   let o12 := eq_f v4 v1 in
   let o13 := lt_f v4 v1 in
   let o14 := gt_f v4 v1 in
   let o15 := le_f v4 v1 in
   let o16 := ge_f v4 v1 in
   let v17 := largest SingleS in
   let o18 := partial_cmp v4 v17 in
   let v19 := get None o18 in
   let o20 := eq_f v4 v17 in
   let o21 := eq_f v4 v17 in
   let o22 := lt_f v4 v17 in
   let o23 := gt_f v4 v17 in
   let o24 := le_f v4 v17 in
   let o25 := ge_f v4 v17 in
   let v26 := INFINITY SingleS in
   let o27 := partial_cmp v4 v26 in
   let v28 := get None o27 in
   let o29 := eq_f v4 v26 in
   let o30 := eq_f v4 v26 in
   all_true [
      returns o6;
      get false o6;
      returns o7;
      negb (get false o7);
      returns o8;
      get false o8;
      returns o9;
      ordering_is v10 v3;
      returns o11;
      negb (get false o11);
      returns o12;
      negb (get false o12);
      returns o13;
      negb (get false o13);
      returns o14;
      get false o14;
      returns o15;
      negb (get false o15);
      returns o16;
      get false o16;
      returns o18;
      ordering_is v19 v3;
      returns o20;
      negb (get false o20);
      returns o21;
      negb (get false o21);
      returns o22;
      negb (get false o22);
      returns o23;
      get false o23;
      returns o24;
      negb (get false o24);
      returns o25;
      get false o25;
      returns o27;
      ordering_is v28 v2;
      returns o29;
      get false o29;
      returns o30;
      negb (negb (get false o30))]) = true.
Proof. vm_compute. reflexivity. Qed.

Example test_comparisons_32 : (
   let v0 := INFINITY SingleS in
   let v1 := INFINITY SingleS in
   let o2 := lt_f v0 v1 in
   let o3 := gt_f v0 v1 in
   let o4 := le_f v0 v1 in
   let o5 := ge_f v0 v1 in
   let v6 := NAN SingleS in
   let o7 := partial_cmp v0 v6 in
   let v8 := get None o7 in
   let o9 := eq_f v0 v6 in
   let o10 := eq_f v0 v6 in
   let o11 := lt_f v0 v6 in
   let o12 := gt_f v0 v6 in
   let o13 := le_f v0 v6 in
   let o14 := ge_f v0 v6 in
   let v15 := NAN SingleS in
   let v16 := neg (NAN SingleS) in
   let o17 := partial_cmp v15 v16 in
   let v18 := get None o17 in
   let o19 := eq_f v15 v16 in
   let o20 := eq_f v15 v16 in
   let o21 := lt_f v15 v16 in
   let o22 := gt_f v15 v16 in
   let o23 := le_f v15 v16 in
   let o24 := ge_f v15 v16 in
   let v25 := neg (INFINITY SingleS) in
   let o26 := partial_cmp v15 v25 in
   let v27 := get None o26 in
   let o28 := eq_f v15 v25 in
   all_true [
      returns o2;
      negb (get false o2);
      returns o3;
      negb (get false o3);
      returns o4;
      get false o4;
      returns o5;
      get false o5;
      returns o7;
      ordering_is v8 None;
      returns o9;
      negb (get false o9);
      returns o10;
      negb (get false o10);
      returns o11;
      negb (get false o11);
      returns o12;
      negb (get false o12);
      returns o13;
      negb (get false o13);
      returns o14;
      negb (get false o14);
      returns o17;
      ordering_is v18 None;
      returns o19;
      negb (get false o19);
      returns o20;
      negb (get false o20);
      returns o21;
      negb (get false o21);
      returns o22;
      negb (get false o22);
      returns o23;
      negb (get false o23);
      returns o24;
      negb (get false o24);
      returns o26;
      ordering_is v27 None;
      returns o28;
      negb (get false o28)]) = true.
Proof. vm_compute. reflexivity. Qed.

Example test_comparisons_33 : (
   let o0 := unwrap_parse (from_str SingleS (bytes "-0x1p+0")) in
   let v1 := get junk o0 in
   let v2 := NAN SingleS in
   let v3 := neg (INFINITY SingleS) in
   let o4 := eq_f v2 v3 in
   let o5 := lt_f v2 v3 in
   let o6 := gt_f v2 v3 in
   let o7 := le_f v2 v3 in
   let o8 := ge_f v2 v3 in
   let v9 := neg (largest SingleS) in
   let o10 := partial_cmp v2 v9 in
   let v11 := get None o10 in
   let o12 := eq_f v2 v9 in
   let o13 := eq_f v2 v9 in
   let o14 := lt_f v2 v9 in
   let o15 := gt_f v2 v9 in
   let o16 := le_f v2 v9 in
   let o17 := ge_f v2 v9 in
   let o18 := partial_cmp v2 v1 in
   let v19 := get None o18 in
   let o20 := eq_f v2 v1 in
   let o21 := eq_f v2 v1 in
   let o22 := lt_f v2 v1 in
   let o23 := gt_f v2 v1 in
   let o24 := le_f v2 v1 in
   let o25 := ge_f v2 v1 in
   let v26 := neg (ZERO SingleS) in
   let o27 := partial_cmp v2 v26 in
   let v28 := get None o27 in
   all_true [
      returns o4;
      negb (get false o4);
      returns o5;
      negb (get false o5);
      returns o6;
      negb (get false o6);
      returns o7;
      negb (get false o7);
      returns o8;
      negb (get false o8);
      returns o10;
      ordering_is v11 None;
      returns o12;
      negb (get false o12);
      returns o13;
      negb (get false o13);
      returns o14;
      negb (get false o14);
      returns o15;
      negb (get false o15);
      returns o16;
      negb (get false o16);
      returns o17;
      negb (get false o17);
      returns o18;
      ordering_is v19 None;
      returns o20;
      negb (get false o20);
      returns o21;
      negb (get false o21);
      returns o22;
      negb (get false o22);
      returns o23;
      negb (get false o23);
      returns o24;
      negb (get false o24);
      returns o25;
      negb (get false o25);
      returns o27;
      ordering_is v28 None]) = true.
Proof. vm_compute. reflexivity. Qed.

Example test_comparisons_34 : (
   let o0 := unwrap_parse (from_str SingleS (bytes "0x1p+0")) in
   let v1 := get junk o0 in
   let v2 := NAN SingleS in
   let v3 := neg (ZERO SingleS) in
   let o4 := eq_f v2 v3 in
   let o5 := eq_f v2 v3 in
   let o6 := lt_f v2 v3 in
   let o7 := gt_f v2 v3 in
   let o8 := le_f v2 v3 in
   let o9 := ge_f v2 v3 in
   let v10 := ZERO SingleS in
   let o11 := partial_cmp v2 v10 in
   let v12 := get None o11 in
   let o13 := eq_f v2 v10 in
   let o14 := eq_f v2 v10 in
   let o15 := lt_f v2 v10 in
   let o16 := gt_f v2 v10 in
   let o17 := le_f v2 v10 in
   let o18 := ge_f v2 v10 in
   let o19 := partial_cmp v2 v1 in
   let v20 := get None o19 in
   let o21 := eq_f v2 v1 in
   let o22 := eq_f v2 v1 in
   let o23 := lt_f v2 v1 in
   let o24 := gt_f v2 v1 in
   let o25 := le_f v2 v1 in
   let o26 := ge_f v2 v1 in
   all_true [
      returns o4;
      negb (get false o4);
      returns o5;
      negb (get false o5);
      returns o6;
      negb (get false o6);
      returns o7;
      negb (get false o7);
      returns o8;
      negb (get false o8);
      returns o9;
      negb (get false o9);
      returns o11;
      ordering_is v12 None;
      returns o13;
      negb (get false o13);
      returns o14;
      negb (get false o14);
      returns o15;
      negb (get false o15);
      returns o16;
      negb (get false o16);
      returns o17;
      negb (get false o17);
      returns o18;
      negb (get false o18);
      returns o19;
      ordering_is v20 None;
      returns o21;
      negb (get false o21);
      returns o22;
      negb (get false o22);
      returns o23;
      negb (get false o23);
      returns o24;
      negb (get false o24);
      returns o25;
      negb (get false o25);
      returns o26;
      negb (get false o26)]) = true.
Proof. vm_compute. reflexivity. Qed.

Example test_comparisons_35 : (
   let v0 := NAN SingleS in
   let v1 := largest SingleS in
   let o2 := partial_cmp v0 v1 in
   let v3 := get None o2 in
   let o4 := eq_f v0 v1 in
   let o5 := eq_f v0 v1 in
   let o6 := lt_f v0 v1 in
   let o7 := gt_f v0 v1 in
   let o8 := le_f v0 v1 in
   let o9 := ge_f v0 v1 in
   let v10 := INFINITY SingleS in
   let o11 := partial_cmp v0 v10 in
   let v12 := get None o11 in
   let o13 := eq_f v0 v10 in
   let o14 := eq_f v0 v10 in
   let o15 := lt_f v0 v10 in
   let o16 := gt_f v0 v10 in
   let o17 := le_f v0 v10 in
   let o18 := ge_f v0 v10 in
   let v19 := NAN SingleS in
   let o20 := partial_cmp v0 v19 in
   let v21 := get None o20 in
   let o22 := eq_f v0 v19 in
   let o23 := eq_f v0 v19 in
   let o24 := lt_f v0 v19 in
   let o25 := gt_f v0 v19 in
   let o26 := le_f v0 v19 in
   all_true [
      returns o2;
      ordering_is v3 None;
      returns o4;
      negb (get false o4);
      returns o5;
      negb (get false o5);
      returns o6;
      negb (get false o6);
      returns o7;
      negb (get false o7);
      returns o8;
      negb (get false o8);
      returns o9;
      negb (get false o9);
      returns o11;
      ordering_is v12 None;
      returns o13;
      negb (get false o13);
      returns o14;
      negb (get false o14);
      returns o15;
      negb (get false o15);
      returns o16;
      negb (get false o16);
      returns o17;
      negb (get false o17);
      returns o18;
      negb (get false o18);
      returns o20;
      ordering_is v21 None;
      returns o22;
      negb (get false o22);
      returns o23;
      negb (get false o23);
      returns o24;
      negb (get false o24);
      returns o25;
      negb (get false o25);
      returns o26;
      negb (get false o26)]) = true.
Proof. vm_compute. reflexivity. Qed.

Example test_comparisons_36 : (
   let v0 := NAN SingleS in
   let v1 := NAN SingleS in
   let o2 := ge_f v0 v1 in
   all_true [
      returns o2;
      negb (get false o2)]) = true.
Proof. vm_compute. reflexivity. Qed.

(** ieee.rs:3294 [abs] *)
Example test_abs : (
   let v0 := INFINITY SingleS in
   let v1 := neg (INFINITY SingleS) in
   let v2 := ZERO SingleS in
   let v3 := neg (ZERO SingleS) in
   let v4 := NAN SingleS in
   let v5 := neg (NAN SingleS) in
   let v6 := snan SingleS None in
   let v7 := neg (snan SingleS None) in
   let o8 := unwrap_parse (from_str SingleS (bytes "0x1p+0")) in
   let v9 := get junk o8 in
   let o10 := unwrap_parse (from_str SingleS (bytes "-0x1p+0")) in
   let v11 := get junk o10 in
   let v12 := largest SingleS in
   let v13 := neg (largest SingleS) in
   let v14 := SMALLEST SingleS in
   let v15 := neg (SMALLEST SingleS) in
   let v16 := smallest_normalized SingleS in
   let v17 := neg (smallest_normalized SingleS) in
   all_true [
      returns o8;
      returns o10;
      bitwise_eq v0 (abs v0);
      bitwise_eq v0 (abs v1);
      bitwise_eq v2 (abs v2);
      bitwise_eq v2 (abs v3);
      bitwise_eq v4 (abs v4);
      bitwise_eq v4 (abs v5);
      bitwise_eq v6 (abs v6);
      bitwise_eq v6 (abs v7);
      bitwise_eq v9 (abs v9);
      bitwise_eq v9 (abs v11);
      bitwise_eq v12 (abs v12);
      bitwise_eq v12 (abs v13);
      bitwise_eq v14 (abs v14);
      bitwise_eq v14 (abs v15);
      bitwise_eq v16 (abs v16);
      bitwise_eq v16 (abs v17)]) = true.
Proof. vm_compute. reflexivity. Qed.

(** ieee.rs:3331 [neg] *)
Example test_neg : (
   let o0 := unwrap_parse (from_str SingleS (bytes "1.0")) in
   let v1 := get junk o0 in
   let o2 := unwrap_parse (from_str SingleS (bytes "-1.0")) in
   let v3 := get junk o2 in
   let v4 := ZERO SingleS in
   let v5 := neg (ZERO SingleS) in
   let v6 := INFINITY SingleS in
   let v7 := neg (INFINITY SingleS) in
   let v8 := NAN SingleS in
   let v9 := neg (NAN SingleS) in
   all_true [
      returns o0;
      returns o2;
      bitwise_eq v3 (neg v1);
      bitwise_eq v1 (neg v3);
      bitwise_eq v5 (neg v4);
      bitwise_eq v4 (neg v5);
      bitwise_eq v7 (neg v6);
      bitwise_eq v6 (neg v7);
      bitwise_eq v9 (neg v8);
      bitwise_eq v8 (neg v9)]) = true.
Proof. vm_compute. reflexivity. Qed.

(** ieee.rs:3354 [ilogb] *)
Example test_ilogb_1 : (
   let o0 := ilogb DoubleS (SMALLEST DoubleS) in
   let o1 := ilogb DoubleS (neg (SMALLEST DoubleS)) in
   let o2 := unwrap_parse (from_str DoubleS (bytes "0x1.ffffffffffffep-1024")) in
   let v3 := get junk o2 in
   let o4 := ilogb DoubleS v3 in
   let o5 := unwrap_parse (from_str DoubleS (bytes "0x1.ffffffffffffep-1023")) in
   let v6 := get junk o5 in
   let o7 := ilogb DoubleS v6 in
   let o8 := unwrap_parse (from_str DoubleS (bytes "-0x1.ffffffffffffep-1023")) in
   let v9 := get junk o8 in
   let o10 := ilogb DoubleS v9 in
   let o11 := unwrap_parse (from_str DoubleS (bytes "0x1p-51")) in
   let v12 := get junk o11 in
   let o13 := ilogb DoubleS v12 in
   let o14 := unwrap_parse (from_str DoubleS (bytes "0x1.c60f120d9f87cp-1023")) in
   let v15 := get junk o14 in
   let o16 := ilogb DoubleS v15 in
   let o17 := unwrap_parse (from_str DoubleS (bytes "0x0.ffffp-1")) in
   let v18 := get junk o17 in
   let o19 := ilogb DoubleS v18 in
   let o20 := unwrap_parse (from_str DoubleS (bytes "0x1.fffep-1023")) in
   let v21 := get junk o20 in
   let o22 := ilogb DoubleS v21 in
   let o23 := ilogb DoubleS (largest DoubleS) in
   let o24 := ilogb DoubleS (neg (largest DoubleS)) in
   let o25 := unwrap_parse (from_str SingleS (bytes "0x1p+0")) in
   let v26 := get junk o25 in
   let o27 := ilogb SingleS v26 in
   let o28 := unwrap_parse (from_str SingleS (bytes "-0x1p+0")) in
   let v29 := get junk o28 in
   let o30 := ilogb SingleS v29 in
   let o31 := unwrap_parse (from_str SingleS (bytes "0x1p+42")) in
   let v32 := get junk o31 in
   let o33 := ilogb SingleS v32 in
   let o34 := unwrap_parse (from_str SingleS (bytes "0x1p-42")) in
   let v35 := get junk o34 in
   let o36 := ilogb SingleS v35 in
   all_true [
      returns o0;
      (get 0 o0) =? (-1074);
      returns o1;
      (get 0 o1) =? (-1074);
      returns o2;
      returns o4;
      (get 0 o4) =? (-1023);
      returns o5;
      returns o7;
      (get 0 o7) =? (-1023);
      returns o8;
      returns o10;
      (get 0 o10) =? (-1023);
      returns o11;
      returns o13;
      (get 0 o13) =? (-51);
      returns o14;
      returns o16;
      (get 0 o16) =? (-1023);
      returns o17;
      returns o19;
      (get 0 o19) =? (-2);
      returns o20;
      returns o22;
      (get 0 o22) =? (-1023);
      returns o23;
      (get 0 o23) =? 1023;
      returns o24;
      (get 0 o24) =? 1023;
      returns o25;
      returns o27;
      (get 0 o27) =? 0;
      returns o28;
      returns o30;
      (get 0 o30) =? 0;
      returns o31;
      returns o33;
      (get 0 o33) =? 42;
      returns o34;
      returns o36]) = true.
Proof. vm_compute. reflexivity. Qed.

Example test_ilogb_2 : (
   let o0 := unwrap_parse (from_str SingleS (bytes "0x1p-42")) in
   let v1 := get junk o0 in
   let o2 := ilogb SingleS v1 in
   let o3 := ilogb SingleS (INFINITY SingleS) in
   let o4 := ilogb SingleS (neg (INFINITY SingleS)) in
   let o5 := ilogb SingleS (ZERO SingleS) in
   let o6 := ilogb SingleS (neg (ZERO SingleS)) in
   let o7 := ilogb SingleS (NAN SingleS) in
   let o8 := ilogb SingleS (snan SingleS None) in
   let o9 := ilogb SingleS (largest SingleS) in
   let o10 := ilogb SingleS (neg (largest SingleS)) in
   let o11 := ilogb SingleS (SMALLEST SingleS) in
   let o12 := ilogb SingleS (neg (SMALLEST SingleS)) in
   let o13 := ilogb SingleS (smallest_normalized SingleS) in
   let o14 := ilogb SingleS (neg (smallest_normalized SingleS)) in
   all_true [
      (get 0 o2) =? (-42);
      returns o3;
      IEK_INF =? (get 0 o3);
      returns o4;
      IEK_INF =? (get 0 o4);
      returns o5;
      IEK_ZERO =? (get 0 o5);
      returns o6;
      IEK_ZERO =? (get 0 o6);
      returns o7;
      IEK_NAN =? (get 0 o7);
      returns o8;
      IEK_NAN =? (get 0 o8);
      returns o9;
      (get 0 o9) =? 127;
      returns o10;
      (get 0 o10) =? 127;
      returns o11;
      (get 0 o11) =? (-149);
      returns o12;
      (get 0 o12) =? (-149);
      returns o13;
      (get 0 o13) =? (-126);
      returns o14;
      (get 0 o14) =? (-126)]) = true.
Proof. vm_compute. reflexivity. Qed.

(** ieee.rs:3389 [scalbn] *)
Example test_scalbn_1 : (
   let o0 := unwrap_parse (from_str SingleS (bytes "0x1p+0")) in
   let v1 := get junk o0 in
   let o2 := unwrap_parse (from_str SingleS (bytes "0x1p+0")) in
   let v3 := get junk o2 in
   let o4 := scalbn SingleS v3 0 in
   let o5 := unwrap_parse (from_str SingleS (bytes "0x1p+42")) in
   let v6 := get junk o5 in
   let o7 := unwrap_parse (from_str SingleS (bytes "0x1p+0")) in
   let v8 := get junk o7 in
   let o9 := scalbn SingleS v8 42 in
   let o10 := unwrap_parse (from_str SingleS (bytes "0x1p-42")) in
   let v11 := get junk o10 in
   let o12 := unwrap_parse (from_str SingleS (bytes "0x1p+0")) in
   let v13 := get junk o12 in
   let o14 := scalbn SingleS v13 (-42) in
   let v15 := INFINITY SingleS in
   let v16 := neg (INFINITY SingleS) in
   let v17 := ZERO SingleS in
   let v18 := neg (ZERO SingleS) in
   let v19 := NAN SingleS in
   let v20 := neg (NAN SingleS) in
   let v21 := snan SingleS None in
   let o22 := scalbn SingleS v15 0 in
   let o23 := scalbn SingleS v16 0 in
   let o24 := scalbn SingleS v17 0 in
   let o25 := scalbn SingleS v18 0 in
   let o26 := scalbn SingleS v19 0 in
   let o27 := scalbn SingleS v20 0 in
   let o28 := scalbn SingleS v21 0 in
   let o29 := scalbn SingleS v21 1 in
   let v30 := get junk o29 in
   let v31 := snan DoubleS (Some 1694149849907201) in
   let o32 := scalbn DoubleS v31 1 in
   let v33 := get junk o32 in
   let o34 := to_bits DoubleS v33 in
   let o35 := unwrap_parse (from_str SingleS (bytes "0x1p+0")) in
   let v36 := get junk o35 in
   let o37 := scalbn SingleS v36 128 in
   let o38 := unwrap_parse (from_str SingleS (bytes "-0x1p+0")) in
   let v39 := get junk o38 in
   let o40 := scalbn SingleS v39 128 in
   let o41 := unwrap_parse (from_str SingleS (bytes "0x1p+127")) in
   let v42 := get junk o41 in
   let o43 := scalbn SingleS v42 1 in
   all_true [
      returns o0;
      returns o2;
      returns o4;
      bitwise_eq v1 (get junk o4);
      returns o5;
      returns o7;
      returns o9;
      bitwise_eq v6 (get junk o9);
      returns o10;
      returns o12;
      returns o14;
      bitwise_eq v11 (get junk o14);
      returns o22;
      bitwise_eq v15 (get junk o22);
      returns o23;
      bitwise_eq v16 (get junk o23);
      returns o24;
      bitwise_eq v17 (get junk o24);
      returns o25;
      bitwise_eq v18 (get junk o25);
      returns o26;
      bitwise_eq v19 (get junk o26);
      returns o27;
      bitwise_eq v20 (get junk o27);
      returns o28;
      negb (is_signaling SingleS (get junk o28));
      returns o29;
      andb (is_nan v30) (negb (is_signaling SingleS v30));
      returns o32;
      andb (is_nan v33) (negb (is_signaling DoubleS v33));
      returns o34;
      (Z.land (get 0 o34) 2251799813685247) =? 1694149849907201;
      returns o35;
      returns o37;
      bitwise_eq v15 (get junk o37);
      returns o38;
      returns o40;
      bitwise_eq v16 (get junk o40);
      returns o41;
      returns o43]) = true.
Proof. vm_compute. reflexivity. Qed.

Example test_scalbn_2 : (
   let v0 := INFINITY SingleS in
   let v1 := ZERO SingleS in
   let v2 := neg (ZERO SingleS) in
   let o3 := unwrap_parse (from_str SingleS (bytes "0x1p+127")) in
   let v4 := get junk o3 in
   let o5 := scalbn SingleS v4 1 in
   let o6 := unwrap_parse (from_str SingleS (bytes "0x1p-127")) in
   let v7 := get junk o6 in
   let o8 := scalbn SingleS v7 (-127) in
   let o9 := unwrap_parse (from_str SingleS (bytes "-0x1p-127")) in
   let v10 := get junk o9 in
   let o11 := scalbn SingleS v10 (-127) in
   let o12 := unwrap_parse (from_str SingleS (bytes "-0x1p-149")) in
   let v13 := get junk o12 in
   let o14 := unwrap_parse (from_str SingleS (bytes "-0x1p-127")) in
   let v15 := get junk o14 in
   let o16 := scalbn SingleS v15 (-22) in
   let o17 := unwrap_parse (from_str SingleS (bytes "0x1p-126")) in
   let v18 := get junk o17 in
   let o19 := scalbn SingleS v18 (-24) in
   let v20 := SMALLEST DoubleS in
   let v21 := neg (SMALLEST DoubleS) in
   let o22 := unwrap_parse (from_str DoubleS (bytes "0x1.ffffffffffffep-1023")) in
   let o23 := unwrap_parse (from_str DoubleS (bytes "-0x1.ffffffffffffep-1023")) in
   let o24 := unwrap_parse (from_str DoubleS (bytes "0x1p-1074")) in
   let v25 := get junk o24 in
   let o26 := scalbn DoubleS v25 0 in
   let o27 := unwrap_parse (from_str DoubleS (bytes "-0x1p-1074")) in
   let v28 := get junk o27 in
   let o29 := scalbn DoubleS v28 0 in
   let o30 := unwrap_parse (from_str DoubleS (bytes "0x1p+1023")) in
   let v31 := get junk o30 in
   let o32 := scalbn DoubleS v20 2097 in
   let o33 := scalbn DoubleS v20 (-2097) in
   let o34 := scalbn DoubleS v20 (-2098) in
   let o35 := scalbn DoubleS v20 (-2099) in
   let o36 := unwrap_parse (from_str DoubleS (bytes "0x1p+1022")) in
   let v37 := get junk o36 in
   let o38 := scalbn DoubleS v20 2096 in
   let o39 := unwrap_parse (from_str DoubleS (bytes "0x1p+1023")) in
   let v40 := get junk o39 in
   let o41 := scalbn DoubleS v20 2097 in
   let o42 := scalbn DoubleS v20 2098 in
   let o43 := scalbn DoubleS v20 2099 in
   all_true [
      bitwise_eq v0 (get junk o5);
      returns o6;
      returns o8;
      bitwise_eq v1 (get junk o8);
      returns o9;
      returns o11;
      bitwise_eq v2 (get junk o11);
      returns o12;
      returns o14;
      returns o16;
      bitwise_eq v13 (get junk o16);
      returns o17;
      returns o19;
      bitwise_eq v1 (get junk o19);
      returns o22;
      returns o23;
      returns o24;
      returns o26;
      bitwise_eq v20 (get junk o26);
      returns o27;
      returns o29;
      bitwise_eq v21 (get junk o29);
      returns o30;
      returns o32;
      bitwise_eq v31 (get junk o32);
      returns o33;
      is_pos_zero (get junk o33);
      returns o34;
      is_pos_zero (get junk o34);
      returns o35;
      is_pos_zero (get junk o35);
      returns o36;
      returns o38;
      bitwise_eq v37 (get junk o38);
      returns o39;
      returns o41;
      bitwise_eq v40 (get junk o41);
      returns o42;
      is_infinite (get junk o42);
      returns o43]) = true.
Proof. vm_compute. reflexivity. Qed.

Example test_scalbn_3 : (
   let v0 := SMALLEST DoubleS in
   let v1 := largest DoubleS in
   let o2 := unwrap_parse (from_str DoubleS (bytes "0x1.ffffffffffffep-1023")) in
   let v3 := get junk o2 in
   let o4 := unwrap_parse (from_str DoubleS (bytes "-0x1.ffffffffffffep-1023")) in
   let v5 := get junk o4 in
   let o6 := scalbn DoubleS v0 2099 in
   let o7 := scalbn DoubleS v0 (-2147483647) in
   let o8 := scalbn DoubleS v1 2147483647 in
   let o9 := scalbn DoubleS v3 0 in
   let o10 := scalbn DoubleS v5 0 in
   let o11 := unwrap_parse (from_str DoubleS (bytes "0x1.ffffffffffffep-1022")) in
   let v12 := get junk o11 in
   let o13 := scalbn DoubleS v3 1 in
   let o14 := unwrap_parse (from_str DoubleS (bytes "-0x1.ffffffffffffep-1021")) in
   let v15 := get junk o14 in
   let o16 := scalbn DoubleS v5 2 in
   let o17 := unwrap_parse (from_str DoubleS (bytes "0x1.ffffffffffffep+1")) in
   let v18 := get junk o17 in
   let o19 := scalbn DoubleS v3 1024 in
   let o20 := scalbn DoubleS v3 (-1023) in
   let o21 := scalbn DoubleS v3 (-1024) in
   let o22 := scalbn DoubleS v3 (-2048) in
   let o23 := scalbn DoubleS v3 2047 in
   let o24 := scalbn DoubleS v3 2098 in
   let o25 := scalbn DoubleS v3 2099 in
   let o26 := unwrap_parse (from_str DoubleS (bytes "0x1.ffffffffffffep-2")) in
   let v27 := get junk o26 in
   let o28 := scalbn DoubleS v3 1021 in
   let o29 := unwrap_parse (from_str DoubleS (bytes "0x1.ffffffffffffep-1")) in
   let v30 := get junk o29 in
   let o31 := scalbn DoubleS v3 1022 in
   let o32 := unwrap_parse (from_str DoubleS (bytes "0x1.ffffffffffffep+0")) in
   let v33 := get junk o32 in
   let o34 := scalbn DoubleS v3 1023 in
   let o35 := unwrap_parse (from_str DoubleS (bytes "0x1.ffffffffffffep+1023")) in
   all_true [
      is_infinite (get junk o6);
      returns o7;
      is_pos_zero (get junk o7);
      returns o8;
      is_infinite (get junk o8);
      returns o9;
      bitwise_eq v3 (get junk o9);
      returns o10;
      bitwise_eq v5 (get junk o10);
      returns o11;
      returns o13;
      bitwise_eq v12 (get junk o13);
      returns o14;
      returns o16;
      bitwise_eq v15 (get junk o16);
      returns o17;
      returns o19;
      bitwise_eq v18 (get junk o19);
      returns o20;
      is_pos_zero (get junk o20);
      returns o21;
      is_pos_zero (get junk o21);
      returns o22;
      is_pos_zero (get junk o22);
      returns o23;
      is_infinite (get junk o23);
      returns o24;
      is_infinite (get junk o24);
      returns o25;
      is_infinite (get junk o25);
      returns o26;
      returns o28;
      bitwise_eq v27 (get junk o28);
      returns o29;
      returns o31;
      bitwise_eq v30 (get junk o31);
      returns o32;
      returns o34;
      bitwise_eq v33 (get junk o34);
      returns o35]) = true.
Proof. vm_compute. reflexivity. Qed.

Example test_scalbn_4 : (
   let v0 := SMALLEST DoubleS in
   let v1 := largest DoubleS in
   let v2 := neg (largest DoubleS) in
   let o3 := unwrap_parse (from_str DoubleS (bytes "0x1.ffffffffffffep-1023")) in
   let v4 := get junk o3 in
   let o5 := unwrap_parse (from_str DoubleS (bytes "0x1.ffffffffffffep+1023")) in
   let v6 := get junk o5 in
   let o7 := scalbn DoubleS v4 2046 in
   let o8 := unwrap_parse (from_str DoubleS (bytes "0x1p+974")) in
   let v9 := get junk o8 in
   let o10 := scalbn DoubleS v0 2048 in
   let o11 := unwrap_parse (from_str DoubleS (bytes "0x1.c60f120d9f87cp+51")) in
   let v12 := get junk o11 in
   let o13 := unwrap_parse (from_str DoubleS (bytes "0x1.c60f120d9f87cp-972")) in
   let v14 := get junk o13 in
   let o15 := scalbn DoubleS v12 (-1023) in
   let o16 := unwrap_parse (from_str DoubleS (bytes "0x1.c60f120d9f87cp-1")) in
   let v17 := get junk o16 in
   let o18 := scalbn DoubleS v12 (-52) in
   let o19 := unwrap_parse (from_str DoubleS (bytes "0x1.c60f120d9f87cp-2")) in
   let v20 := get junk o19 in
   let o21 := scalbn DoubleS v12 (-53) in
   let o22 := unwrap_parse (from_str DoubleS (bytes "0x1.c60f120d9f87cp+0")) in
   let v23 := get junk o22 in
   let o24 := scalbn DoubleS v12 (-51) in
   let o25 := scalbn DoubleS v12 (-2097) in
   let o26 := scalbn DoubleS v12 (-2090) in
   let o27 := unwrap_parse (from_str DoubleS (bytes "-0x1p-1073")) in
   let v28 := get junk o27 in
   let o29 := scalbn DoubleS v2 (-2097) in
   let o30 := unwrap_parse (from_str DoubleS (bytes "-0x1p-1024")) in
   let v31 := get junk o30 in
   let o32 := scalbn DoubleS v2 (-2048) in
   let o33 := unwrap_parse (from_str DoubleS (bytes "0x1p-1073")) in
   let v34 := get junk o33 in
   let o35 := scalbn DoubleS v1 (-2097) in
   let o36 := unwrap_parse (from_str DoubleS (bytes "0x1p-1074")) in
   let v37 := get junk o36 in
   let o38 := scalbn DoubleS v1 (-2098) in
   let o39 := unwrap_parse (from_str DoubleS (bytes "-0x1p-1074")) in
   let v40 := get junk o39 in
   let o41 := scalbn DoubleS v2 (-2098) in
   let o42 := scalbn DoubleS v2 (-2099) in
   let o43 := scalbn DoubleS v1 1 in
   all_true [
      returns o7;
      bitwise_eq v6 (get junk o7);
      returns o8;
      returns o10;
      bitwise_eq v9 (get junk o10);
      returns o11;
      returns o13;
      returns o15;
      bitwise_eq v14 (get junk o15);
      returns o16;
      returns o18;
      bitwise_eq v17 (get junk o18);
      returns o19;
      returns o21;
      bitwise_eq v20 (get junk o21);
      returns o22;
      returns o24;
      bitwise_eq v23 (get junk o24);
      returns o25;
      is_pos_zero (get junk o25);
      returns o26;
      is_pos_zero (get junk o26);
      returns o27;
      returns o29;
      bitwise_eq v28 (get junk o29);
      returns o30;
      returns o32;
      bitwise_eq v31 (get junk o32);
      returns o33;
      returns o35;
      bitwise_eq v34 (get junk o35);
      returns o36;
      returns o38;
      bitwise_eq v37 (get junk o38);
      returns o39;
      returns o41;
      bitwise_eq v40 (get junk o41);
      returns o42;
      is_neg_zero (get junk o42);
      returns o43]) = true.
Proof. vm_compute. reflexivity. Qed.

Example test_scalbn_5 : (
   let v0 := largest DoubleS in
   let o1 := scalbn DoubleS v0 1 in
   let o2 := unwrap_parse (from_str DoubleS (bytes "0x1p+0")) in
   let v3 := get junk o2 in
   let o4 := unwrap_parse (from_str DoubleS (bytes "0x1p+52")) in
   let v5 := get junk o4 in
   let o6 := scalbn DoubleS v5 (-52) in
   let o7 := unwrap_parse (from_str DoubleS (bytes "0x1p-103")) in
   let v8 := get junk o7 in
   let o9 := unwrap_parse (from_str DoubleS (bytes "0x1p-51")) in
   let v10 := get junk o9 in
   let o11 := scalbn DoubleS v10 (-52) in
   all_true [
      is_infinite (get junk o1);
      returns o2;
      returns o4;
      returns o6;
      bitwise_eq v3 (get junk o6);
      returns o7;
      returns o9;
      returns o11;
      bitwise_eq v8 (get junk o11)]) = true.
Proof. vm_compute. reflexivity. Qed.

(** ieee.rs:3579 [frexp] *)
Example test_frexp_1 : (
   let v0 := ZERO DoubleS in
   let v1 := neg (ZERO DoubleS) in
   let o2 := from_bits DoubleS 4607182418800017408 in
   let v3 := get junk o2 in
   let o4 := from_bits DoubleS 13830554455654793216 in
   let v5 := get junk o4 in
   let o6 := unwrap_parse (from_str DoubleS (bytes "0x1.ffffffffffffep-1023")) in
   let v7 := get junk o6 in
   let o8 := unwrap_parse (from_str DoubleS (bytes "-0x1.ffffffffffffep-1023")) in
   let v9 := get junk o8 in
   let v10 := SMALLEST DoubleS in
   let v11 := neg (SMALLEST DoubleS) in
   let v12 := largest DoubleS in
   let v13 := neg (largest DoubleS) in
   let o14 := frexp DoubleS v0 in
   let v15 := get (junk, 0) o14 in
   let v16 := snd v15 in
   let v17 := fst v15 in
   let o18 := frexp DoubleS v1 in
   let v19 := get (junk, 0) o18 in
   let v20 := snd v19 in
   let v21 := fst v19 in
   let o22 := frexp DoubleS v3 in
   let v23 := get (junk, 0) o22 in
   let v24 := snd v23 in
   let v25 := fst v23 in
   let o26 := unwrap_parse (from_str DoubleS (bytes "0x1p-1")) in
   let v27 := get junk o26 in
   let o28 := frexp DoubleS v5 in
   let v29 := get (junk, 0) o28 in
   let v30 := snd v29 in
   let v31 := fst v29 in
   let o32 := unwrap_parse (from_str DoubleS (bytes "-0x1p-1")) in
   let v33 := get junk o32 in
   let o34 := frexp DoubleS v7 in
   let v35 := get (junk, 0) o34 in
   let v36 := snd v35 in
   let v37 := fst v35 in
   let o38 := unwrap_parse (from_str DoubleS (bytes "0x1.ffffffffffffep-1")) in
   let v39 := get junk o38 in
   let o40 := frexp DoubleS v9 in
   let v41 := get (junk, 0) o40 in
   let v42 := snd v41 in
   let v43 := fst v41 in
   let o44 := unwrap_parse (from_str DoubleS (bytes "-0x1.ffffffffffffep-1")) in
   let v45 := get junk o44 in
   let o46 := frexp DoubleS v10 in
   let v47 := get (junk, 0) o46 in
   let v48 := snd v47 in
   let v49 := fst v47 in
   let o50 := unwrap_parse (from_str DoubleS (bytes "0x1p-1")) in
   let v51 := get junk o50 in
   let o52 := frexp DoubleS v11 in
   let v53 := get (junk, 0) o52 in
   let v54 := snd v53 in
   let v55 := fst v53 in
   let o56 := unwrap_parse (from_str DoubleS (bytes "-0x1p-1")) in
   let v57 := get junk o56 in
   let o58 := frexp DoubleS v12 in
   let v59 := get (junk, 0) o58 in
   let v60 := snd v59 in
   let v61 := fst v59 in
   let o62 := unwrap_parse (from_str DoubleS (bytes "0x1.fffffffffffffp-1")) in
   let v63 := get junk o62 in
   let o64 := frexp DoubleS v13 in
   let v65 := get (junk, 0) o64 in
   let v66 := snd v65 in
   all_true [
      returns o2;
      returns o4;
      returns o6;
      returns o8;
      returns o14;
      v16 =? 0;
      is_pos_zero v17;
      returns o18;
      v20 =? 0;
      is_neg_zero v21;
      returns o22;
      v24 =? 1;
      returns o26;
      bitwise_eq v27 v25;
      returns o28;
      v30 =? 1;
      returns o32;
      bitwise_eq v33 v31;
      returns o34;
      v36 =? (-1022);
      returns o38;
      bitwise_eq v39 v37;
      returns o40;
      v42 =? (-1022);
      returns o44;
      bitwise_eq v45 v43;
      returns o46;
      v48 =? (-1073);
      returns o50;
      bitwise_eq v51 v49;
      returns o52;
      v54 =? (-1073);
      returns o56;
      bitwise_eq v57 v55;
      returns o58;
      v60 =? 1024;
      returns o62;
      bitwise_eq v63 v61;
      returns o64;
      v66 =? 1024]) = true.
Proof. vm_compute. reflexivity. Qed.

Example test_frexp_2 : (
   let v0 := neg (largest DoubleS) in
   let v1 := INFINITY DoubleS in
   let v2 := neg (INFINITY DoubleS) in
   let v3 := NAN DoubleS in
   let v4 := neg (NAN DoubleS) in
   let v5 := snan DoubleS None in
   let v6 := snan DoubleS (Some 1694149849907201) in
   let o7 := frexp DoubleS v0 in
   let v8 := get (junk, 0) o7 in
   let v9 := fst v8 in
   let o10 := unwrap_parse (from_str DoubleS (bytes "-0x1.fffffffffffffp-1")) in
   let v11 := get junk o10 in
   let o12 := frexp DoubleS v1 in
   let v13 := get (junk, 0) o12 in
   let v14 := snd v13 in
   let v15 := fst v13 in
   let o16 := frexp DoubleS v2 in
   let v17 := get (junk, 0) o16 in
   let v18 := snd v17 in
   let v19 := fst v17 in
   let o20 := frexp DoubleS v3 in
   let v21 := get (junk, 0) o20 in
   let v22 := snd v21 in
   let v23 := fst v21 in
   let o24 := frexp DoubleS v4 in
   let v25 := get (junk, 0) o24 in
   let v26 := snd v25 in
   let v27 := fst v25 in
   let o28 := frexp DoubleS v5 in
   let v29 := get (junk, 0) o28 in
   let v30 := snd v29 in
   let v31 := fst v29 in
   let o32 := frexp DoubleS v6 in
   let v33 := get (junk, 0) o32 in
   let v34 := snd v33 in
   let v35 := fst v33 in
   let o36 := to_bits DoubleS v35 in
   let o37 := unwrap_parse (from_str DoubleS (bytes "0x0.ffffp-1")) in
   let v38 := get junk o37 in
   let o39 := frexp DoubleS v38 in
   let v40 := get (junk, 0) o39 in
   let v41 := snd v40 in
   let v42 := fst v40 in
   let o43 := unwrap_parse (from_str DoubleS (bytes "0x1.fffep-1")) in
   let v44 := get junk o43 in
   let o45 := unwrap_parse (from_str DoubleS (bytes "0x1p-51")) in
   let v46 := get junk o45 in
   let o47 := frexp DoubleS v46 in
   let v48 := get (junk, 0) o47 in
   let v49 := snd v48 in
   let v50 := fst v48 in
   let o51 := unwrap_parse (from_str DoubleS (bytes "0x1p-1")) in
   let v52 := get junk o51 in
   let o53 := unwrap_parse (from_str DoubleS (bytes "0x1.c60f120d9f87cp+51")) in
   let v54 := get junk o53 in
   let o55 := frexp DoubleS v54 in
   let v56 := get (junk, 0) o55 in
   let v57 := snd v56 in
   let v58 := fst v56 in
   let o59 := unwrap_parse (from_str DoubleS (bytes "0x1.c60f120d9f87cp-1")) in
   let v60 := get junk o59 in
   all_true [
      returns o10;
      bitwise_eq v11 v9;
      returns o12;
      IEK_INF =? v14;
      andb (is_infinite v15) (negb (is_negative v15));
      returns o16;
      IEK_INF =? v18;
      andb (is_infinite v19) (is_negative v19);
      returns o20;
      IEK_NAN =? v22;
      is_nan v23;
      returns o24;
      IEK_NAN =? v26;
      is_nan v27;
      returns o28;
      IEK_NAN =? v30;
      andb (is_nan v31) (negb (is_signaling DoubleS v31));
      returns o32;
      IEK_NAN =? v34;
      andb (is_nan v35) (negb (is_signaling DoubleS v35));
      returns o36;
      (Z.land (get 0 o36) 2251799813685247) =? 1694149849907201;
      returns o37;
      returns o39;
      v41 =? (-1);
      returns o43;
      bitwise_eq v44 v42;
      returns o45;
      returns o47;
      v49 =? (-50);
      returns o51;
      bitwise_eq v52 v50;
      returns o53;
      returns o55;
      v57 =? 52;
      returns o59;
      bitwise_eq v60 v58]) = true.
Proof. vm_compute. reflexivity. Qed.

(** ieee.rs:3687 [modulo] *)
Example test_modulo_1 : (
   let o0 := unwrap_parse (from_str DoubleS (bytes "1.5")) in
   let v1 := get junk o0 in
   let o2 := unwrap_parse (from_str DoubleS (bytes "1.0")) in
   let v3 := get junk o2 in
   let o4 := unwrap_parse (from_str DoubleS (bytes "0.5")) in
   let v5 := get junk o4 in
   let o6 := op_rem DoubleS v1 v3 in
   let v7 := get (0, junk) o6 in
   let v8 := fst v7 in
   let v9 := snd v7 in
   let o10 := unwrap_parse (from_str DoubleS (bytes "0.5")) in
   let v11 := get junk o10 in
   let o12 := unwrap_parse (from_str DoubleS (bytes "1.0")) in
   let v13 := get junk o12 in
   let o14 := unwrap_parse (from_str DoubleS (bytes "0.5")) in
   let v15 := get junk o14 in
   let o16 := op_rem DoubleS v11 v13 in
   let v17 := get (0, junk) o16 in
   let v18 := fst v17 in
   let v19 := snd v17 in
   let o20 := unwrap_parse (from_str DoubleS (bytes "0x1.3333333333333p-2")) in
   let v21 := get junk o20 in
   let o22 := unwrap_parse (from_str DoubleS (bytes "0x1.47ae147ae147bp-7")) in
   let v23 := get junk o22 in
   let o24 := unwrap_parse (from_str DoubleS (bytes "0x1.47ae147ae1471p-7")) in
   let v25 := get junk o24 in
   let o26 := op_rem DoubleS v21 v23 in
   let v27 := get (0, junk) o26 in
   let v28 := fst v27 in
   let v29 := snd v27 in
   let o30 := unwrap_parse (from_str DoubleS (bytes "0x1p64")) in
   let v31 := get junk o30 in
   let o32 := unwrap_parse (from_str DoubleS (bytes "1.5")) in
   let v33 := get junk o32 in
   let o34 := unwrap_parse (from_str DoubleS (bytes "1.0")) in
   let v35 := get junk o34 in
   let o36 := op_rem DoubleS v31 v33 in
   let v37 := get (0, junk) o36 in
   let v38 := fst v37 in
   let v39 := snd v37 in
   let o40 := unwrap_parse (from_str DoubleS (bytes "0x1p1000")) in
   let v41 := get junk o40 in
   let o42 := unwrap_parse (from_str DoubleS (bytes "0x1p-1000")) in
   let v43 := get junk o42 in
   let o44 := unwrap_parse (from_str DoubleS (bytes "0.0")) in
   let v45 := get junk o44 in
   let o46 := op_rem DoubleS v41 v43 in
   let v47 := get (0, junk) o46 in
   let v48 := fst v47 in
   let v49 := snd v47 in
   let o50 := unwrap_parse (from_str DoubleS (bytes "0.0")) in
   let v51 := get junk o50 in
   let o52 := unwrap_parse (from_str DoubleS (bytes "1.0")) in
   let v53 := get junk o52 in
   let o54 := unwrap_parse (from_str DoubleS (bytes "0.0")) in
   let v55 := get junk o54 in
   let o56 := op_rem DoubleS v51 v53 in
   let v57 := get (0, junk) o56 in
   let v58 := fst v57 in
   let v59 := snd v57 in
   let o60 := unwrap_parse (from_str DoubleS (bytes "1.0")) in
   let v61 := get junk o60 in
   let o62 := unwrap_parse (from_str DoubleS (bytes "0.0")) in
   let v63 := get junk o62 in
   let o64 := op_rem DoubleS v61 v63 in
   let v65 := get (0, junk) o64 in
   let v66 := snd v65 in
   all_true [
      returns o0;
      returns o2;
      returns o4;
      returns o6;
      bitwise_eq v9 v5;
      v8 =? OK;
      returns o10;
      returns o12;
      returns o14;
      returns o16;
      bitwise_eq v19 v15;
      v18 =? OK;
      returns o20;
      returns o22;
      returns o24;
      returns o26;
      bitwise_eq v29 v25;
      v28 =? OK;
      returns o30;
      returns o32;
      returns o34;
      returns o36;
      bitwise_eq v39 v35;
      v38 =? OK;
      returns o40;
      returns o42;
      returns o44;
      returns o46;
      bitwise_eq v49 v45;
      v48 =? OK;
      returns o50;
      returns o52;
      returns o54;
      returns o56;
      bitwise_eq v59 v55;
      v58 =? OK;
      returns o60;
      returns o62;
      returns o64;
      is_nan v66]) = true.
Proof. vm_compute. reflexivity. Qed.

Example test_modulo_2 : (
   let o0 := unwrap_parse (from_str DoubleS (bytes "1.0")) in
   let v1 := get junk o0 in
   let o2 := unwrap_parse (from_str DoubleS (bytes "0.0")) in
   let v3 := get junk o2 in
   let o4 := op_rem DoubleS v1 v3 in
   let v5 := get (0, junk) o4 in
   let v6 := fst v5 in
   let o7 := unwrap_parse (from_str DoubleS (bytes "0.0")) in
   let v8 := get junk o7 in
   let o9 := unwrap_parse (from_str DoubleS (bytes "0.0")) in
   let v10 := get junk o9 in
   let o11 := op_rem DoubleS v8 v10 in
   let v12 := get (0, junk) o11 in
   let v13 := fst v12 in
   let v14 := snd v12 in
   let v15 := INFINITY DoubleS in
   let o16 := unwrap_parse (from_str DoubleS (bytes "1.0")) in
   let v17 := get junk o16 in
   let o18 := op_rem DoubleS v15 v17 in
   let v19 := get (0, junk) o18 in
   let v20 := fst v19 in
   let v21 := snd v19 in
   let o22 := unwrap_parse (from_str DoubleS (bytes "-4.0")) in
   let v23 := get junk o22 in
   let o24 := unwrap_parse (from_str DoubleS (bytes "-2.0")) in
   let v25 := get junk o24 in
   let o26 := unwrap_parse (from_str DoubleS (bytes "-0.0")) in
   let v27 := get junk o26 in
   let o28 := op_rem DoubleS v23 v25 in
   let v29 := get (0, junk) o28 in
   let v30 := fst v29 in
   let v31 := snd v29 in
   let o32 := unwrap_parse (from_str DoubleS (bytes "-4.0")) in
   let v33 := get junk o32 in
   let o34 := unwrap_parse (from_str DoubleS (bytes "2.0")) in
   let v35 := get junk o34 in
   let o36 := unwrap_parse (from_str DoubleS (bytes "-0.0")) in
   let v37 := get junk o36 in
   let o38 := op_rem DoubleS v33 v35 in
   let v39 := get (0, junk) o38 in
   let v40 := fst v39 in
   let v41 := snd v39 in
   let o42 := unwrap_parse (from_str Float8E4M3FNS (bytes "0x1p8")) in
   let v43 := get junk o42 in
   let o44 := unwrap_parse (from_str Float8E4M3FNS (bytes "0x1.ep-6")) in
   let v45 := get junk o44 in
   let o46 := unwrap_parse (from_str Float8E4M3FNS (bytes "0x1p-8")) in
   let v47 := get junk o46 in
   let o48 := op_rem Float8E4M3FNS v43 v45 in
   let v49 := get (0, junk) o48 in
   let v50 := fst v49 in
   let v51 := snd v49 in
   all_true [
      v6 =? INVALID_OP;
      returns o7;
      returns o9;
      returns o11;
      is_nan v14;
      v13 =? INVALID_OP;
      returns o16;
      returns o18;
      is_nan v21;
      v20 =? INVALID_OP;
      returns o22;
      returns o24;
      returns o26;
      returns o28;
      bitwise_eq v31 v27;
      v30 =? OK;
      returns o32;
      returns o34;
      returns o36;
      returns o38;
      bitwise_eq v41 v37;
      v40 =? OK;
      returns o42;
      returns o44;
      returns o46;
      returns o48;
      bitwise_eq v51 v47;
      v50 =? OK]) = true.
Proof. vm_compute. reflexivity. Qed.

(** ieee.rs:4204 [x87_largest] *)
Example test_x87_largest : (
   all_true [
      is_largest X87DoubleExtendedS (largest X87DoubleExtendedS)]) = true.
Proof. vm_compute. reflexivity. Qed.

(** ieee.rs:4209 [x87_next] *)
Example test_x87_next : (
   let o0 := unwrap_parse (from_str X87DoubleExtendedS (bytes "-1.0")) in
   let v1 := get junk o0 in
   let o2 := next_up X87DoubleExtendedS v1 in
   let v3 := snd (get (0, junk) o2) in
   let o4 := ilogb X87DoubleExtendedS v3 in
   all_true [
      returns o0;
      returns o2;
      returns o4;
      (get 0 o4) =? (-1)]) = true.
Proof. vm_compute. reflexivity. Qed.

(** ieee.rs:4214 [convert_e4m3fn_to_e5m2] *)
Example test_convert_e4m3fn_to_e5m2_1 : (
   let o0 := unwrap_parse (from_str Float8E4M3FNS (bytes "1.0")) in
   let v1 := get junk o0 in
   let o2 := convert Float8E4M3FNS Float8E5M2S v1 in
   let v3 := get (0, junk, false) o2 in
   let v4 := snd v3 in
   let v5 := fst v3 in
   let v6 := fst v5 in
   let v7 := snd v5 in
   let o8 := lossless Float8E5M2S SingleS v7 in
   let o9 := from_bits SingleS 1065353216 in
   let o10 := eq_f (get junk o8) (get junk o9) in
   let o11 := unwrap_parse (from_str Float8E4M3FNS (bytes "0.0")) in
   let v12 := get junk o11 in
   let o13 := convert Float8E4M3FNS Float8E5M2S v12 in
   let v14 := get (0, junk, false) o13 in
   let v15 := snd v14 in
   let v16 := fst v14 in
   let v17 := fst v16 in
   let v18 := snd v16 in
   let o19 := lossless Float8E5M2S SingleS v18 in
   let o20 := from_bits SingleS 0 in
   let o21 := eq_f (get junk o19) (get junk o20) in
   let o22 := unwrap_parse (from_str Float8E4M3FNS (bytes "0x1.2p0")) in
   let v23 := get junk o22 in
   let o24 := convert Float8E4M3FNS Float8E5M2S v23 in
   let v25 := get (0, junk, false) o24 in
   let v26 := snd v25 in
   let v27 := fst v25 in
   let v28 := fst v27 in
   let v29 := snd v27 in
   let o30 := lossless Float8E5M2S SingleS v29 in
   let o31 := from_bits SingleS 1065353216 in
   let o32 := eq_f (get junk o30) (get junk o31) in
   let o33 := unwrap_parse (from_str Float8E4M3FNS (bytes "0x1.6p0")) in
   let v34 := get junk o33 in
   let o35 := convert Float8E4M3FNS Float8E5M2S v34 in
   let v36 := get (0, junk, false) o35 in
   let v37 := snd v36 in
   let v38 := fst v36 in
   let v39 := fst v38 in
   let v40 := snd v38 in
   let o41 := lossless Float8E5M2S SingleS v40 in
   let o42 := from_bits SingleS 1069547520 in
   let o43 := eq_f (get junk o41) (get junk o42) in
   let o44 := unwrap_parse (from_str Float8E4M3FNS (bytes "0x1.Cp-7")) in
   let v45 := get junk o44 in
   let o46 := convert Float8E4M3FNS Float8E5M2S v45 in
   let v47 := get (0, junk, false) o46 in
   let v48 := snd v47 in
   let v49 := fst v47 in
   let v50 := fst v49 in
   let v51 := snd v49 in
   let o52 := lossless Float8E5M2S SingleS v51 in
   let o53 := from_bits SingleS 1012924416 in
   let o54 := eq_f (get junk o52) (get junk o53) in
   all_true [
      returns o0;
      returns o2;
      returns o8;
      returns o9;
      returns o10;
      get false o10;
      negb v4;
      v6 =? OK;
      returns o11;
      returns o13;
      returns o19;
      returns o20;
      returns o21;
      get false o21;
      negb v15;
      v17 =? OK;
      returns o22;
      returns o24;
      returns o30;
      returns o31;
      returns o32;
      get false o32;
      v26;
      v28 =? INEXACT;
      returns o33;
      returns o35;
      returns o41;
      returns o42;
      returns o43;
      get false o43;
      v37;
      v39 =? INEXACT;
      returns o44;
      returns o46;
      returns o52;
      returns o53;
      returns o54;
      get false o54;
      negb v48;
      v50 =? OK]) = true.
Proof. vm_compute. reflexivity. Qed.

Example test_convert_e4m3fn_to_e5m2_2 : (
   let o0 := unwrap_parse (from_str Float8E4M3FNS (bytes "nan")) in
   let v1 := get junk o0 in
   let o2 := convert Float8E4M3FNS Float8E5M2S v1 in
   let v3 := get (0, junk, false) o2 in
   let v4 := snd v3 in
   let v5 := fst v3 in
   let v6 := fst v5 in
   let v7 := snd v5 in
   let o8 := lossless Float8E5M2S SingleS v7 in
   all_true [
      returns o0;
      returns o2;
      returns o8;
      is_nan (get junk o8);
      negb v4;
      v6 =? OK]) = true.
Proof. vm_compute. reflexivity. Qed.

(** ieee.rs:4259 [convert_e5m2_to_e4m3fn] *)
Example test_convert_e5m2_to_e4m3fn_1 : (
   let o0 := unwrap_parse (from_str Float8E5M2S (bytes "1.0")) in
   let v1 := get junk o0 in
   let o2 := convert Float8E5M2S Float8E4M3FNS v1 in
   let v3 := get (0, junk, false) o2 in
   let v4 := snd v3 in
   let v5 := fst v3 in
   let v6 := fst v5 in
   let v7 := snd v5 in
   let o8 := lossless Float8E4M3FNS SingleS v7 in
   let o9 := from_bits SingleS 1065353216 in
   let o10 := eq_f (get junk o8) (get junk o9) in
   let o11 := unwrap_parse (from_str Float8E5M2S (bytes "0.0")) in
   let v12 := get junk o11 in
   let o13 := convert Float8E5M2S Float8E4M3FNS v12 in
   let v14 := get (0, junk, false) o13 in
   let v15 := snd v14 in
   let v16 := fst v14 in
   let v17 := fst v16 in
   let v18 := snd v16 in
   let o19 := lossless Float8E4M3FNS SingleS v18 in
   let o20 := from_bits SingleS 0 in
   let o21 := eq_f (get junk o19) (get junk o20) in
   let o22 := unwrap_parse (from_str Float8E5M2S (bytes "0x1.Cp8")) in
   let v23 := get junk o22 in
   let o24 := convert Float8E5M2S Float8E4M3FNS v23 in
   let v25 := get (0, junk, false) o24 in
   let v26 := snd v25 in
   let v27 := fst v25 in
   let v28 := fst v27 in
   let v29 := snd v27 in
   let o30 := lossless Float8E4M3FNS SingleS v29 in
   let o31 := from_bits SingleS 1138753536 in
   let o32 := eq_f (get junk o30) (get junk o31) in
   let o33 := unwrap_parse (from_str Float8E5M2S (bytes "0x1.0p9")) in
   let v34 := get junk o33 in
   let o35 := convert Float8E5M2S Float8E4M3FNS v34 in
   let v36 := get (0, junk, false) o35 in
   let v37 := snd v36 in
   let v38 := fst v36 in
   let v39 := fst v38 in
   let v40 := snd v38 in
   let o41 := lossless Float8E4M3FNS SingleS v40 in
   let o42 := unwrap_parse (from_str Float8E5M2S (bytes "0x1.0p-10")) in
   let v43 := get junk o42 in
   let o44 := convert Float8E5M2S Float8E4M3FNS v43 in
   let v45 := get (0, junk, false) o44 in
   let v46 := snd v45 in
   let v47 := fst v45 in
   let v48 := fst v47 in
   let v49 := snd v47 in
   let o50 := lossless Float8E4M3FNS SingleS v49 in
   let o51 := from_bits SingleS 0 in
   let o52 := eq_f (get junk o50) (get junk o51) in
   let o53 := unwrap_parse (from_str Float8E5M2S (bytes "0x1.8p-10")) in
   let v54 := get junk o53 in
   let o55 := convert Float8E5M2S Float8E4M3FNS v54 in
   all_true [
      returns o0;
      returns o2;
      returns o8;
      returns o9;
      returns o10;
      get false o10;
      negb v4;
      v6 =? OK;
      returns o11;
      returns o13;
      returns o19;
      returns o20;
      returns o21;
      get false o21;
      negb v15;
      v17 =? OK;
      returns o22;
      returns o24;
      returns o30;
      returns o31;
      returns o32;
      get false o32;
      negb v26;
      v28 =? OK;
      returns o33;
      returns o35;
      returns o41;
      is_nan (get junk o41);
      v37;
      v39 =? (Z.lor OVERFLOW INEXACT);
      returns o42;
      returns o44;
      returns o50;
      returns o51;
      returns o52;
      get false o52;
      v46;
      v48 =? (Z.lor UNDERFLOW INEXACT);
      returns o53;
      returns o55]) = true.
Proof. vm_compute. reflexivity. Qed.

Example test_convert_e5m2_to_e4m3fn_2 : (
   let o0 := unwrap_parse (from_str Float8E5M2S (bytes "0x1.8p-10")) in
   let v1 := get junk o0 in
   let o2 := convert Float8E5M2S Float8E4M3FNS v1 in
   let v3 := get (0, junk, false) o2 in
   let v4 := snd v3 in
   let v5 := fst v3 in
   let v6 := fst v5 in
   let v7 := snd v5 in
   let o8 := lossless Float8E4M3FNS SingleS v7 in
   let o9 := from_bits SingleS 989855744 in
   let o10 := eq_f (get junk o8) (get junk o9) in
   let o11 := unwrap_parse (from_str Float8E5M2S (bytes "0x1.8p-9")) in
   let v12 := get junk o11 in
   let o13 := convert Float8E5M2S Float8E4M3FNS v12 in
   let v14 := get (0, junk, false) o13 in
   let v15 := snd v14 in
   let v16 := fst v14 in
   let v17 := fst v16 in
   let v18 := snd v16 in
   let o19 := lossless Float8E4M3FNS SingleS v18 in
   let o20 := from_bits SingleS 998244352 in
   let o21 := eq_f (get junk o19) (get junk o20) in
   let o22 := unwrap_parse (from_str Float8E4M3FNS (bytes "nan")) in
   let v23 := get junk o22 in
   let o24 := unwrap_parse (from_str Float8E5M2S (bytes "inf")) in
   let v25 := get junk o24 in
   let o26 := convert Float8E5M2S Float8E4M3FNS v25 in
   let v27 := get (0, junk, false) o26 in
   let v28 := snd v27 in
   let v29 := fst v27 in
   let v30 := fst v29 in
   let v31 := snd v29 in
   let o32 := lossless Float8E4M3FNS SingleS v31 in
   let o33 := unwrap_parse (from_str Float8E5M2S (bytes "nan")) in
   let v34 := get junk o33 in
   let o35 := convert Float8E5M2S Float8E4M3FNS v34 in
   let v36 := get (0, junk, false) o35 in
   let v37 := snd v36 in
   let v38 := fst v36 in
   let v39 := fst v38 in
   let v40 := snd v38 in
   let o41 := lossless Float8E4M3FNS SingleS v40 in
   let o42 := unwrap_parse (from_str Float8E5M2S (bytes "snan")) in
   let v43 := get junk o42 in
   let o44 := convert Float8E5M2S Float8E4M3FNS v43 in
   let v45 := get (0, junk, false) o44 in
   let v46 := snd v45 in
   let v47 := fst v45 in
   let v48 := fst v47 in
   let v49 := snd v47 in
   let o50 := lossless Float8E4M3FNS SingleS v49 in
   all_true [
      returns o8;
      returns o9;
      returns o10;
      get false o10;
      v4;
      v6 =? (Z.lor UNDERFLOW INEXACT);
      returns o11;
      returns o13;
      returns o19;
      returns o20;
      returns o21;
      get false o21;
      v15;
      v17 =? (Z.lor UNDERFLOW INEXACT);
      returns o22;
      returns o24;
      returns o26;
      returns o32;
      is_nan (get junk o32);
      v28;
      v30 =? INEXACT;
      bitwise_eq v31 v23;
      returns o33;
      returns o35;
      returns o41;
      is_nan (get junk o41);
      v37;
      v39 =? OK;
      bitwise_eq v40 v23;
      returns o42;
      returns o44;
      returns o50;
      is_nan (get junk o50);
      v46;
      v48 =? INVALID_OP;
      bitwise_eq v49 v23]) = true.
Proof. vm_compute. reflexivity. Qed.

(** ieee.rs:4337 [float8e4m3fn_infinity] *)
Example test_float8e4m3fn_infinity : (
   let v0 := INFINITY Float8E4M3FNS in
   all_true [
      is_nan v0;
      negb (is_infinite v0)]) = true.
Proof. vm_compute. reflexivity. Qed.

(** ieee.rs:4344 [float8e4m3fn_from_string] *)
Example test_float8e4m3fn_from_string : (
   let o0 := unwrap_parse (from_str Float8E4M3FNS (bytes "448")) in
   let v1 := get junk o0 in
   let o2 := lossless Float8E4M3FNS DoubleS v1 in
   let o3 := from_bits DoubleS 4646588915539509248 in
   let o4 := eq_f (get junk o2) (get junk o3) in
   let o5 := unwrap_parse (from_str Float8E4M3FNS (bytes "464")) in
   let v6 := get junk o5 in
   let o7 := lossless Float8E4M3FNS DoubleS v6 in
   let o8 := from_bits DoubleS 4646588915539509248 in
   let o9 := eq_f (get junk o7) (get junk o8) in
   let o10 := unwrap_parse (from_str Float8E4M3FNS (bytes "465")) in
   let v11 := get junk o10 in
   let o12 := unwrap_parse (from_str Float8E4M3FNS (bytes "480")) in
   let v13 := get junk o12 in
   let o14 := unwrap_parse (from_str Float8E4M3FNS (bytes "inf")) in
   let v15 := get junk o14 in
   let o16 := unwrap_parse (from_str Float8E4M3FNS (bytes "nan")) in
   let v17 := get junk o16 in
   all_true [
      returns o0;
      returns o2;
      returns o3;
      returns o4;
      get false o4;
      returns o5;
      returns o7;
      returns o8;
      returns o9;
      get false o9;
      returns o10;
      is_nan v11;
      returns o12;
      is_nan v13;
      returns o14;
      is_nan v15;
      returns o16;
      is_nan v17]) = true.
Proof. vm_compute. reflexivity. Qed.

(** ieee.rs:4360 [float8e4m3fn_add] *)
Example test_float8e4m3fn_add_1 : (
   let v0 := NAN Float8E4M3FNS in
   let o1 := unwrap_parse (from_str Float8E4M3FNS (bytes "448")) in
   let v2 := get junk o1 in
   let o3 := unwrap_parse (from_str Float8E4M3FNS (bytes "16")) in
   let v4 := get junk o3 in
   let o5 := unwrap_parse (from_str Float8E4M3FNS (bytes "448")) in
   let v6 := get junk o5 in
   let o7 := unwrap_parse (from_str Float8E4M3FNS (bytes "18")) in
   let v8 := get junk o7 in
   let o9 := unwrap_parse (from_str Float8E4M3FNS (bytes "448")) in
   let v10 := get junk o9 in
   let o11 := unwrap_parse (from_str Float8E4M3FNS (bytes "32")) in
   let v12 := get junk o11 in
   let o13 := unwrap_parse (from_str Float8E4M3FNS (bytes "-448")) in
   let v14 := get junk o13 in
   let o15 := unwrap_parse (from_str Float8E4M3FNS (bytes "-32")) in
   let v16 := get junk o15 in
   let o17 := unwrap_parse (from_str Float8E4M3FNS (bytes "-448")) in
   let v18 := get junk o17 in
   let o19 := unwrap_parse (from_str Float8E4M3FNS (bytes "448")) in
   let o20 := unwrap_parse (from_str Float8E4M3FNS (bytes "-32")) in
   let o21 := unwrap_parse (from_str Float8E4M3FNS (bytes "448")) in
   let o22 := unwrap_parse (from_str Float8E4M3FNS (bytes "0")) in
   let o23 := unwrap_parse (from_str Float8E4M3FNS (bytes "448")) in
   let o24 := unwrap_parse (from_str Float8E4M3FNS (bytes "32")) in
   let o25 := unwrap_parse (from_str Float8E4M3FNS (bytes "448")) in
   let o26 := unwrap_parse (from_str Float8E4M3FNS (bytes "448")) in
   let o27 := add_r Float8E4M3FNS v2 v4 NearestTiesToEven in
   let v28 := get (0, junk) o27 in
   let v29 := fst v28 in
   let v30 := snd v28 in
   let o31 := unwrap_parse (from_str Float8E4M3FNS (bytes "448")) in
   let v32 := get junk o31 in
   let v33 := Z.lor OVERFLOW INEXACT in
   let o34 := add_r Float8E4M3FNS v6 v8 NearestTiesToEven in
   let v35 := get (0, junk) o34 in
   let v36 := fst v35 in
   let v37 := snd v35 in
   let o38 := unwrap_parse (from_str Float8E4M3FNS (bytes "NaN")) in
   let v39 := get junk o38 in
   let v40 := Z.lor OVERFLOW INEXACT in
   let o41 := add_r Float8E4M3FNS v10 v12 NearestTiesToEven in
   let v42 := get (0, junk) o41 in
   let v43 := fst v42 in
   let v44 := snd v42 in
   let o45 := unwrap_parse (from_str Float8E4M3FNS (bytes "NaN")) in
   let v46 := get junk o45 in
   let v47 := Z.lor OVERFLOW INEXACT in
   let o48 := add_r Float8E4M3FNS v14 v16 NearestTiesToEven in
   let v49 := get (0, junk) o48 in
   let v50 := fst v49 in
   let v51 := snd v49 in
   let o52 := unwrap_parse (from_str Float8E4M3FNS (bytes "-NaN")) in
   let v53 := get junk o52 in
   let o54 := add_r Float8E4M3FNS v0 v18 NearestTiesToEven in
   let v55 := get (0, junk) o54 in
   let v56 := fst v55 in
   let v57 := snd v55 in
   all_true [
      returns o1;
      returns o3;
      returns o5;
      returns o7;
      returns o9;
      returns o11;
      returns o13;
      returns o15;
      returns o17;
      returns o19;
      returns o20;
      returns o21;
      returns o22;
      returns o23;
      returns o24;
      returns o25;
      returns o26;
      returns o27;
      INEXACT =? v29;
      category_eqb Normal (category v30);
      returns o31;
      bitwise_eq v30 v32;
      returns o34;
      v33 =? v36;
      category_eqb NaN (category v37);
      returns o38;
      bitwise_eq v37 v39;
      returns o41;
      v40 =? v43;
      category_eqb NaN (category v44);
      returns o45;
      bitwise_eq v44 v46;
      returns o48;
      v47 =? v50;
      category_eqb NaN (category v51);
      returns o52;
      bitwise_eq v51 v53;
      returns o54;
      OK =? v56;
      category_eqb NaN (category v57)]) = true.
Proof. vm_compute. reflexivity. Qed.

Example test_float8e4m3fn_add_2 : (
   let v0 := NAN Float8E4M3FNS in
   let o1 := unwrap_parse (from_str Float8E4M3FNS (bytes "-448")) in
   let v2 := get junk o1 in
   let o3 := unwrap_parse (from_str Float8E4M3FNS (bytes "448")) in
   let v4 := get junk o3 in
   let o5 := unwrap_parse (from_str Float8E4M3FNS (bytes "-32")) in
   let v6 := get junk o5 in
   let o7 := unwrap_parse (from_str Float8E4M3FNS (bytes "448")) in
   let v8 := get junk o7 in
   let o9 := unwrap_parse (from_str Float8E4M3FNS (bytes "0")) in
   let v10 := get junk o9 in
   let o11 := unwrap_parse (from_str Float8E4M3FNS (bytes "448")) in
   let v12 := get junk o11 in
   let o13 := unwrap_parse (from_str Float8E4M3FNS (bytes "32")) in
   let v14 := get junk o13 in
   let o15 := unwrap_parse (from_str Float8E4M3FNS (bytes "448")) in
   let v16 := get junk o15 in
   let o17 := unwrap_parse (from_str Float8E4M3FNS (bytes "448")) in
   let v18 := get junk o17 in
   let o19 := add_r Float8E4M3FNS v0 v2 NearestTiesToEven in
   let v20 := get (0, junk) o19 in
   let v21 := snd v20 in
   let o22 := unwrap_parse (from_str Float8E4M3FNS (bytes "NaN")) in
   let v23 := get junk o22 in
   let o24 := add_r Float8E4M3FNS v4 v6 NearestTiesToEven in
   let v25 := get (0, junk) o24 in
   let v26 := fst v25 in
   let v27 := snd v25 in
   let o28 := unwrap_parse (from_str Float8E4M3FNS (bytes "416")) in
   let v29 := get junk o28 in
   let o30 := add_r Float8E4M3FNS v8 v10 NearestTiesToEven in
   let v31 := get (0, junk) o30 in
   let v32 := fst v31 in
   let v33 := snd v31 in
   let o34 := unwrap_parse (from_str Float8E4M3FNS (bytes "448")) in
   let v35 := get junk o34 in
   let o36 := add_r Float8E4M3FNS v12 v14 TowardZero in
   let v37 := get (0, junk) o36 in
   let v38 := fst v37 in
   let v39 := snd v37 in
   let o40 := unwrap_parse (from_str Float8E4M3FNS (bytes "448")) in
   let v41 := get junk o40 in
   let o42 := add_r Float8E4M3FNS v16 v18 TowardZero in
   let v43 := get (0, junk) o42 in
   let v44 := fst v43 in
   let v45 := snd v43 in
   let o46 := unwrap_parse (from_str Float8E4M3FNS (bytes "448")) in
   let v47 := get junk o46 in
   all_true [
      returns o22;
      bitwise_eq v21 v23;
      returns o24;
      OK =? v26;
      category_eqb Normal (category v27);
      returns o28;
      bitwise_eq v27 v29;
      returns o30;
      OK =? v32;
      category_eqb Normal (category v33);
      returns o34;
      bitwise_eq v33 v35;
      returns o36;
      INEXACT =? v38;
      category_eqb Normal (category v39);
      returns o40;
      bitwise_eq v39 v41;
      returns o42;
      INEXACT =? v44;
      category_eqb Normal (category v45);
      returns o46;
      bitwise_eq v45 v47]) = true.
Proof. vm_compute. reflexivity. Qed.

(** ieee.rs:4410 [float8e4m3fn_divide_by_zero] *)
Example test_float8e4m3fn_divide_by_zero : (
   let o0 := unwrap_parse (from_str Float8E4M3FNS (bytes "1")) in
   let v1 := get junk o0 in
   let o2 := unwrap_parse (from_str Float8E4M3FNS (bytes "0")) in
   let v3 := get junk o2 in
   let o4 := op_div Float8E4M3FNS v1 v3 in
   let v5 := get (0, junk) o4 in
   let v6 := fst v5 in
   let v7 := snd v5 in
   all_true [
      returns o0;
      returns o2;
      returns o4;
      is_nan v7;
      v6 =? DIV_BY_ZERO]) = true.
Proof. vm_compute. reflexivity. Qed.

(** ieee.rs:4601 [double_to_f64] *)
Example test_double_to_f64_1 : (
   let o0 := from_bits DoubleS 0 in
   let v1 := get junk o0 in
   let o2 := through_bits DoubleS v1 in
   let o3 := from_bits DoubleS 9223372036854775808 in
   let v4 := get junk o3 in
   let o5 := through_bits DoubleS v4 in
   let o6 := from_bits DoubleS 4607182418800017408 in
   let v7 := get junk o6 in
   let o8 := through_bits DoubleS v7 in
   let o9 := from_bits DoubleS 4607182418800017408 in
   let o10 := eq_f (get junk o8) (get junk o9) in
   let v11 := largest DoubleS in
   let o12 := through_bits DoubleS v11 in
   let o13 := from_bits DoubleS 9218868437227405311 in
   let o14 := eq_f (get junk o12) (get junk o13) in
   let v15 := neg (largest DoubleS) in
   let o16 := through_bits DoubleS v15 in
   let o17 := from_bits DoubleS 18442240474082181119 in
   let o18 := eq_f (get junk o16) (get junk o17) in
   let v19 := smallest_normalized DoubleS in
   let o20 := through_bits DoubleS v19 in
   let o21 := from_bits DoubleS 4503599627370496 in
   let o22 := eq_f (get junk o20) (get junk o21) in
   let v23 := neg (smallest_normalized DoubleS) in
   let o24 := through_bits DoubleS v23 in
   let o25 := from_bits DoubleS 9227875636482146304 in
   let o26 := eq_f (get junk o24) (get junk o25) in
   let v27 := SMALLEST DoubleS in
   let o28 := through_bits DoubleS v27 in
   let o29 := from_bits DoubleS 1 in
   let o30 := eq_f (get junk o28) (get junk o29) in
   let o31 := unwrap_parse (from_str DoubleS (bytes "0x0.FFFFFFFFFFFFFp-1022")) in
   let v32 := get junk o31 in
   let o33 := through_bits DoubleS v32 in
   let o34 := from_bits DoubleS 4503599627370495 in
   let o35 := eq_f (get junk o33) (get junk o34) in
   let v36 := INFINITY DoubleS in
   let o37 := through_bits DoubleS v36 in
   let o38 := from_bits DoubleS 9218868437227405312 in
   let o39 := eq_f (get junk o37) (get junk o38) in
   all_true [
      returns o0;
      returns o2;
      is_pos_zero (get junk o2);
      returns o3;
      returns o5;
      is_neg_zero (get junk o5);
      returns o6;
      returns o8;
      returns o9;
      returns o10;
      get false o10;
      returns o12;
      returns o13;
      returns o14;
      get false o14;
      returns o16;
      returns o17;
      returns o18;
      get false o18;
      returns o20;
      returns o21;
      returns o22;
      get false o22;
      returns o24;
      returns o25;
      returns o26;
      get false o26;
      returns o28;
      returns o29;
      returns o30;
      get false o30;
      returns o31;
      returns o33;
      returns o34;
      returns o35;
      get false o35;
      returns o37;
      returns o38;
      returns o39;
      get false o39]) = true.
Proof. vm_compute. reflexivity. Qed.

Example test_double_to_f64_2 : (
   let v0 := neg (INFINITY DoubleS) in
   let o1 := through_bits DoubleS v0 in
   let o2 := from_bits DoubleS 18442240474082181120 in
   let o3 := eq_f (get junk o1) (get junk o2) in
   let v4 := qnan DoubleS None in
   let o5 := through_bits DoubleS v4 in
   all_true [
      returns o1;
      returns o2;
      returns o3;
      get false o3;
      returns o5;
      is_nan (get junk o5)]) = true.
Proof. vm_compute. reflexivity. Qed.

(** ieee.rs:4632 [single_to_f64] *)
Example test_single_to_f64_1 : (
   let o0 := from_bits SingleS 0 in
   let v1 := get junk o0 in
   let o2 := lossless SingleS DoubleS v1 in
   let o3 := from_bits SingleS 2147483648 in
   let v4 := get junk o3 in
   let o5 := lossless SingleS DoubleS v4 in
   let o6 := from_bits SingleS 1065353216 in
   let v7 := get junk o6 in
   let o8 := lossless SingleS DoubleS v7 in
   let o9 := from_bits DoubleS 4607182418800017408 in
   let o10 := eq_f (get junk o8) (get junk o9) in
   let v11 := largest SingleS in
   let o12 := lossless SingleS DoubleS v11 in
   let o13 := from_bits DoubleS 5183643170566569984 in
   let o14 := eq_f (get junk o12) (get junk o13) in
   let v15 := neg (largest SingleS) in
   let o16 := lossless SingleS DoubleS v15 in
   let o17 := from_bits DoubleS 14407015207421345792 in
   let o18 := eq_f (get junk o16) (get junk o17) in
   let v19 := smallest_normalized SingleS in
   let o20 := lossless SingleS DoubleS v19 in
   let o21 := from_bits DoubleS 4039728865751334912 in
   let o22 := eq_f (get junk o20) (get junk o21) in
   let v23 := neg (smallest_normalized SingleS) in
   let o24 := lossless SingleS DoubleS v23 in
   let o25 := from_bits DoubleS 13263100902606110720 in
   let o26 := eq_f (get junk o24) (get junk o25) in
   let v27 := SMALLEST SingleS in
   let o28 := lossless SingleS DoubleS v27 in
   let o29 := from_bits DoubleS 3936146074321813504 in
   let o30 := eq_f (get junk o28) (get junk o29) in
   let o31 := unwrap_parse (from_str DoubleS (bytes "0x0.FFFFFEp-126")) in
   let v32 := get junk o31 in
   let o33 := through_bits DoubleS v32 in
   let o34 := from_bits DoubleS 4039728864677593088 in
   let o35 := eq_f (get junk o33) (get junk o34) in
   let v36 := INFINITY SingleS in
   let o37 := lossless SingleS DoubleS v36 in
   let o38 := from_bits DoubleS 9218868437227405312 in
   let o39 := eq_f (get junk o37) (get junk o38) in
   all_true [
      returns o0;
      returns o2;
      is_pos_zero (get junk o2);
      returns o3;
      returns o5;
      is_neg_zero (get junk o5);
      returns o6;
      returns o8;
      returns o9;
      returns o10;
      get false o10;
      returns o12;
      returns o13;
      returns o14;
      get false o14;
      returns o16;
      returns o17;
      returns o18;
      get false o18;
      returns o20;
      returns o21;
      returns o22;
      get false o22;
      returns o24;
      returns o25;
      returns o26;
      get false o26;
      returns o28;
      returns o29;
      returns o30;
      get false o30;
      returns o31;
      returns o33;
      returns o34;
      returns o35;
      get false o35;
      returns o37;
      returns o38;
      returns o39;
      get false o39]) = true.
Proof. vm_compute. reflexivity. Qed.

Example test_single_to_f64_2 : (
   let v0 := neg (INFINITY SingleS) in
   let o1 := lossless SingleS DoubleS v0 in
   let o2 := from_bits DoubleS 18442240474082181120 in
   let o3 := eq_f (get junk o1) (get junk o2) in
   let v4 := qnan SingleS None in
   let o5 := lossless SingleS DoubleS v4 in
   let v6 := ZERO HalfS in
   let o7 := lossless HalfS DoubleS v6 in
   let v8 := neg (ZERO HalfS) in
   let o9 := lossless HalfS DoubleS v8 in
   all_true [
      returns o1;
      returns o2;
      returns o3;
      get false o3;
      returns o5;
      is_nan (get junk o5);
      returns o7;
      is_pos_zero (get junk o7);
      returns o9;
      is_neg_zero (get junk o9)]) = true.
Proof. vm_compute. reflexivity. Qed.

(** ieee.rs:4668 [half_to_f64] *)
Example test_half_to_f64 : (
   let o0 := unwrap_parse (from_str HalfS (bytes "1.0")) in
   let v1 := get junk o0 in
   let o2 := lossless HalfS DoubleS v1 in
   let o3 := from_bits DoubleS 4607182418800017408 in
   let o4 := eq_f (get junk o2) (get junk o3) in
   let v5 := largest HalfS in
   let o6 := lossless HalfS DoubleS v5 in
   let o7 := from_bits DoubleS 4679235614791434240 in
   let o8 := eq_f (get junk o6) (get junk o7) in
   let v9 := neg (largest HalfS) in
   let o10 := lossless HalfS DoubleS v9 in
   let o11 := from_bits DoubleS 13902607651646210048 in
   let o12 := eq_f (get junk o10) (get junk o11) in
   let v13 := smallest_normalized HalfS in
   let o14 := lossless HalfS DoubleS v13 in
   let o15 := from_bits DoubleS 4544132024016830464 in
   let o16 := eq_f (get junk o14) (get junk o15) in
   let v17 := neg (smallest_normalized HalfS) in
   let o18 := lossless HalfS DoubleS v17 in
   let o19 := from_bits DoubleS 13767504060871606272 in
   let o20 := eq_f (get junk o18) (get junk o19) in
   let v21 := SMALLEST HalfS in
   let o22 := lossless HalfS DoubleS v21 in
   let o23 := from_bits DoubleS 4499096027743125504 in
   let o24 := eq_f (get junk o22) (get junk o23) in
   let o25 := unwrap_parse (from_str HalfS (bytes "0x1.FFCp-14")) in
   let v26 := get junk o25 in
   let o27 := lossless HalfS DoubleS v26 in
   let o28 := from_bits DoubleS 4548631225597689856 in
   let o29 := eq_f (get junk o27) (get junk o28) in
   let v30 := INFINITY HalfS in
   let o31 := lossless HalfS DoubleS v30 in
   let o32 := from_bits DoubleS 9218868437227405312 in
   let o33 := eq_f (get junk o31) (get junk o32) in
   let v34 := neg (INFINITY HalfS) in
   let o35 := lossless HalfS DoubleS v34 in
   let o36 := from_bits DoubleS 18442240474082181120 in
   let o37 := eq_f (get junk o35) (get junk o36) in
   let v38 := qnan HalfS None in
   let o39 := lossless HalfS DoubleS v38 in
   all_true [
      returns o0;
      returns o2;
      returns o3;
      returns o4;
      get false o4;
      returns o6;
      returns o7;
      returns o8;
      get false o8;
      returns o10;
      returns o11;
      returns o12;
      get false o12;
      returns o14;
      returns o15;
      returns o16;
      get false o16;
      returns o18;
      returns o19;
      returns o20;
      get false o20;
      returns o22;
      returns o23;
      returns o24;
      get false o24;
      returns o25;
      returns o27;
      returns o28;
      returns o29;
      get false o29;
      returns o31;
      returns o32;
      returns o33;
      get false o33;
      returns o35;
      returns o36;
      returns o37;
      get false o37;
      returns o39;
      is_nan (get junk o39)]) = true.
Proof. vm_compute. reflexivity. Qed.

(** ieee.rs:4694 [bfloat_to_f64] *)
Example test_bfloat_to_f64_1 : (
   let v0 := ZERO HalfS in
   let o1 := lossless HalfS DoubleS v0 in
   let v2 := neg (ZERO HalfS) in
   let o3 := lossless HalfS DoubleS v2 in
   let o4 := unwrap_parse (from_str BFloatS (bytes "1.0")) in
   let v5 := get junk o4 in
   let o6 := lossless BFloatS DoubleS v5 in
   let o7 := from_bits DoubleS 4607182418800017408 in
   let o8 := eq_f (get junk o6) (get junk o7) in
   let v9 := largest BFloatS in
   let o10 := lossless BFloatS DoubleS v9 in
   let o11 := from_bits DoubleS 5183607986731352064 in
   let o12 := eq_f (get junk o10) (get junk o11) in
   let v13 := neg (largest BFloatS) in
   let o14 := lossless BFloatS DoubleS v13 in
   let o15 := from_bits DoubleS 14406980023586127872 in
   let o16 := eq_f (get junk o14) (get junk o15) in
   let v17 := smallest_normalized BFloatS in
   let o18 := lossless BFloatS DoubleS v17 in
   let o19 := from_bits DoubleS 4039728865751334912 in
   let o20 := eq_f (get junk o18) (get junk o19) in
   let v21 := neg (smallest_normalized BFloatS) in
   let o22 := lossless BFloatS DoubleS v21 in
   let o23 := from_bits DoubleS 13263100902606110720 in
   let o24 := eq_f (get junk o22) (get junk o23) in
   let v25 := SMALLEST BFloatS in
   let o26 := lossless BFloatS DoubleS v25 in
   let o27 := from_bits DoubleS 4008203668359741440 in
   let o28 := eq_f (get junk o26) (get junk o27) in
   let o29 := unwrap_parse (from_str BFloatS (bytes "0x1.FCp-127")) in
   let v30 := get junk o29 in
   let o31 := lossless BFloatS DoubleS v30 in
   let o32 := from_bits DoubleS 4039658497007157248 in
   let o33 := eq_f (get junk o31) (get junk o32) in
   let v34 := INFINITY BFloatS in
   let o35 := lossless BFloatS DoubleS v34 in
   let o36 := from_bits DoubleS 9218868437227405312 in
   let o37 := eq_f (get junk o35) (get junk o36) in
   let v38 := neg (INFINITY BFloatS) in
   let o39 := lossless BFloatS DoubleS v38 in
   let o40 := from_bits DoubleS 18442240474082181120 in
   all_true [
      returns o1;
      is_pos_zero (get junk o1);
      returns o3;
      is_neg_zero (get junk o3);
      returns o4;
      returns o6;
      returns o7;
      returns o8;
      get false o8;
      returns o10;
      returns o11;
      returns o12;
      get false o12;
      returns o14;
      returns o15;
      returns o16;
      get false o16;
      returns o18;
      returns o19;
      returns o20;
      get false o20;
      returns o22;
      returns o23;
      returns o24;
      get false o24;
      returns o26;
      returns o27;
      returns o28;
      get false o28;
      returns o29;
      returns o31;
      returns o32;
      returns o33;
      get false o33;
      returns o35;
      returns o36;
      returns o37;
      get false o37;
      returns o39;
      returns o40]) = true.
Proof. vm_compute. reflexivity. Qed.

Example test_bfloat_to_f64_2 : (
   let v0 := neg (INFINITY BFloatS) in
   let o1 := lossless BFloatS DoubleS v0 in
   let o2 := from_bits DoubleS 18442240474082181120 in
   let o3 := eq_f (get junk o1) (get junk o2) in
   let v4 := qnan BFloatS None in
   let o5 := lossless BFloatS DoubleS v4 in
   all_true [
      returns o3;
      get false o3;
      returns o5;
      is_nan (get junk o5)]) = true.
Proof. vm_compute. reflexivity. Qed.

(** ieee.rs:4725 [float8e5m2_to_f64] *)
Example test_float8e5m2_to_f64_1 : (
   let o0 := unwrap_parse (from_str Float8E5M2S (bytes "1.0")) in
   let v1 := get junk o0 in
   let o2 := lossless Float8E5M2S DoubleS v1 in
   let o3 := from_bits DoubleS 4607182418800017408 in
   let o4 := eq_f (get junk o2) (get junk o3) in
   let o5 := unwrap_parse (from_str Float8E5M2S (bytes "2.0")) in
   let v6 := get junk o5 in
   let o7 := lossless Float8E5M2S DoubleS v6 in
   let o8 := from_bits DoubleS 4611686018427387904 in
   let o9 := eq_f (get junk o7) (get junk o8) in
   let v10 := largest Float8E5M2S in
   let o11 := lossless Float8E5M2S DoubleS v10 in
   let o12 := from_bits DoubleS 4678114112931102720 in
   let o13 := eq_f (get junk o11) (get junk o12) in
   let v14 := neg (largest Float8E5M2S) in
   let o15 := lossless Float8E5M2S DoubleS v14 in
   let o16 := from_bits DoubleS 13901486149785878528 in
   let o17 := eq_f (get junk o15) (get junk o16) in
   let v18 := smallest_normalized Float8E5M2S in
   let o19 := lossless Float8E5M2S DoubleS v18 in
   let o20 := from_bits DoubleS 4544132024016830464 in
   let o21 := eq_f (get junk o19) (get junk o20) in
   let v22 := neg (smallest_normalized Float8E5M2S) in
   let o23 := lossless Float8E5M2S DoubleS v22 in
   let o24 := from_bits DoubleS 13767504060871606272 in
   let o25 := eq_f (get junk o23) (get junk o24) in
   let v26 := SMALLEST Float8E5M2S in
   let o27 := is_denormal Float8E5M2S v26 in
   let o28 := lossless Float8E5M2S DoubleS v26 in
   let o29 := from_bits DoubleS 4535124824762089472 in
   let o30 := eq_f (get junk o28) (get junk o29) in
   let v31 := INFINITY Float8E5M2S in
   let o32 := lossless Float8E5M2S DoubleS v31 in
   let o33 := from_bits DoubleS 9218868437227405312 in
   let o34 := eq_f (get junk o32) (get junk o33) in
   let v35 := neg (INFINITY Float8E5M2S) in
   let o36 := lossless Float8E5M2S DoubleS v35 in
   let o37 := from_bits DoubleS 18442240474082181120 in
   let o38 := eq_f (get junk o36) (get junk o37) in
   all_true [
      returns o0;
      returns o2;
      returns o3;
      returns o4;
      get false o4;
      returns o5;
      returns o7;
      returns o8;
      returns o9;
      get false o9;
      returns o11;
      returns o12;
      returns o13;
      get false o13;
      returns o15;
      returns o16;
      returns o17;
      get false o17;
      returns o19;
      returns o20;
      returns o21;
      get false o21;
      returns o23;
      returns o24;
      returns o25;
      get false o25;
      returns o27;
      get false o27;
      returns o28;
      returns o29;
      returns o30;
      get false o30;
      returns o32;
      returns o33;
      returns o34;
      get false o34;
      returns o36;
      returns o37;
      returns o38;
      get false o38]) = true.
Proof. vm_compute. reflexivity. Qed.

Example test_float8e5m2_to_f64_2 : (
   let v0 := qnan Float8E5M2S None in
   let o1 := lossless Float8E5M2S DoubleS v0 in
   all_true [
      returns o1;
      is_nan (get junk o1)]) = true.
Proof. vm_compute. reflexivity. Qed.

(** ieee.rs:4752 [float8e4m3fn_to_f64] *)
Example test_float8e4m3fn_to_f64 : (
   let o0 := unwrap_parse (from_str Float8E4M3FNS (bytes "1.0")) in
   let v1 := get junk o0 in
   let o2 := lossless Float8E4M3FNS DoubleS v1 in
   let o3 := from_bits DoubleS 4607182418800017408 in
   let o4 := eq_f (get junk o2) (get junk o3) in
   let o5 := unwrap_parse (from_str Float8E4M3FNS (bytes "2.0")) in
   let v6 := get junk o5 in
   let o7 := lossless Float8E4M3FNS DoubleS v6 in
   let o8 := from_bits DoubleS 4611686018427387904 in
   let o9 := eq_f (get junk o7) (get junk o8) in
   let v10 := largest Float8E4M3FNS in
   let o11 := lossless Float8E4M3FNS DoubleS v10 in
   let o12 := from_bits DoubleS 4646588915539509248 in
   let o13 := eq_f (get junk o11) (get junk o12) in
   let v14 := neg (largest Float8E4M3FNS) in
   let o15 := lossless Float8E4M3FNS DoubleS v14 in
   let o16 := from_bits DoubleS 13869960952394285056 in
   let o17 := eq_f (get junk o15) (get junk o16) in
   let v18 := smallest_normalized Float8E4M3FNS in
   let o19 := lossless Float8E4M3FNS DoubleS v18 in
   let o20 := from_bits DoubleS 4580160821035794432 in
   let o21 := eq_f (get junk o19) (get junk o20) in
   let v22 := neg (smallest_normalized Float8E4M3FNS) in
   let o23 := lossless Float8E4M3FNS DoubleS v22 in
   let o24 := from_bits DoubleS 13803532857890570240 in
   let o25 := eq_f (get junk o23) (get junk o24) in
   let v26 := SMALLEST Float8E4M3FNS in
   let o27 := is_denormal Float8E4M3FNS v26 in
   let o28 := lossless Float8E4M3FNS DoubleS v26 in
   let o29 := from_bits DoubleS 4566650022153682944 in
   let o30 := eq_f (get junk o28) (get junk o29) in
   let v31 := qnan Float8E4M3FNS None in
   let o32 := lossless Float8E4M3FNS DoubleS v31 in
   all_true [
      returns o0;
      returns o2;
      returns o3;
      returns o4;
      get false o4;
      returns o5;
      returns o7;
      returns o8;
      returns o9;
      get false o9;
      returns o11;
      returns o12;
      returns o13;
      get false o13;
      returns o15;
      returns o16;
      returns o17;
      get false o17;
      returns o19;
      returns o20;
      returns o21;
      get false o21;
      returns o23;
      returns o24;
      returns o25;
      get false o25;
      returns o27;
      get false o27;
      returns o28;
      returns o29;
      returns o30;
      get false o30;
      returns o32;
      is_nan (get junk o32)]) = true.
Proof. vm_compute. reflexivity. Qed.

(** ieee.rs:4775 [single_to_f32] *)
Example test_single_to_f32_1 : (
   let o0 := from_bits SingleS 0 in
   let v1 := get junk o0 in
   let o2 := through_bits SingleS v1 in
   let o3 := from_bits SingleS 2147483648 in
   let v4 := get junk o3 in
   let o5 := through_bits SingleS v4 in
   let o6 := from_bits SingleS 1065353216 in
   let v7 := get junk o6 in
   let o8 := through_bits SingleS v7 in
   let o9 := from_bits SingleS 1065353216 in
   let o10 := eq_f (get junk o8) (get junk o9) in
   let v11 := largest SingleS in
   let o12 := through_bits SingleS v11 in
   let o13 := from_bits SingleS 2139095039 in
   let o14 := eq_f (get junk o12) (get junk o13) in
   let v15 := neg (largest SingleS) in
   let o16 := through_bits SingleS v15 in
   let o17 := from_bits SingleS 4286578687 in
   let o18 := eq_f (get junk o16) (get junk o17) in
   let v19 := smallest_normalized SingleS in
   let o20 := through_bits SingleS v19 in
   let o21 := from_bits SingleS 8388608 in
   let o22 := eq_f (get junk o20) (get junk o21) in
   let v23 := neg (smallest_normalized SingleS) in
   let o24 := through_bits SingleS v23 in
   let o25 := from_bits SingleS 2155872256 in
   let o26 := eq_f (get junk o24) (get junk o25) in
   let v27 := SMALLEST SingleS in
   let o28 := through_bits SingleS v27 in
   let o29 := from_bits SingleS 1 in
   let o30 := eq_f (get junk o28) (get junk o29) in
   let o31 := unwrap_parse (from_str SingleS (bytes "0x1.FFFFFEp-126")) in
   let v32 := get junk o31 in
   let o33 := through_bits SingleS v32 in
   let o34 := from_bits SingleS 16777215 in
   let o35 := eq_f (get junk o33) (get junk o34) in
   let v36 := INFINITY SingleS in
   let o37 := through_bits SingleS v36 in
   let o38 := from_bits SingleS 2139095040 in
   let o39 := eq_f (get junk o37) (get junk o38) in
   all_true [
      returns o0;
      returns o2;
      is_pos_zero (get junk o2);
      returns o3;
      returns o5;
      is_neg_zero (get junk o5);
      returns o6;
      returns o8;
      returns o9;
      returns o10;
      get false o10;
      returns o12;
      returns o13;
      returns o14;
      get false o14;
      returns o16;
      returns o17;
      returns o18;
      get false o18;
      returns o20;
      returns o21;
      returns o22;
      get false o22;
      returns o24;
      returns o25;
      returns o26;
      get false o26;
      returns o28;
      returns o29;
      returns o30;
      get false o30;
      returns o31;
      returns o33;
      returns o34;
      returns o35;
      get false o35;
      returns o37;
      returns o38;
      returns o39;
      get false o39]) = true.
Proof. vm_compute. reflexivity. Qed.

Example test_single_to_f32_2 : (
   let v0 := neg (INFINITY SingleS) in
   let o1 := through_bits SingleS v0 in
   let o2 := from_bits SingleS 4286578688 in
   let o3 := eq_f (get junk o1) (get junk o2) in
   let v4 := qnan SingleS None in
   let o5 := through_bits SingleS v4 in
   all_true [
      returns o1;
      returns o2;
      returns o3;
      get false o3;
      returns o5;
      is_nan (get junk o5)]) = true.
Proof. vm_compute. reflexivity. Qed.

(** ieee.rs:4806 [half_to_f32] *)
Example test_half_to_f32_1 : (
   let v0 := ZERO HalfS in
   let o1 := lossless HalfS SingleS v0 in
   let v2 := neg (ZERO HalfS) in
   let o3 := lossless HalfS SingleS v2 in
   let o4 := unwrap_parse (from_str HalfS (bytes "1.0")) in
   let v5 := get junk o4 in
   let o6 := lossless HalfS SingleS v5 in
   let o7 := from_bits SingleS 1065353216 in
   let o8 := eq_f (get junk o6) (get junk o7) in
   let v9 := largest HalfS in
   let o10 := lossless HalfS SingleS v9 in
   let o11 := from_bits SingleS 1199562752 in
   let o12 := eq_f (get junk o10) (get junk o11) in
   let v13 := neg (largest HalfS) in
   let o14 := lossless HalfS SingleS v13 in
   let o15 := from_bits SingleS 3347046400 in
   let o16 := eq_f (get junk o14) (get junk o15) in
   let v17 := smallest_normalized HalfS in
   let o18 := lossless HalfS SingleS v17 in
   let o19 := from_bits SingleS 947912704 in
   let o20 := eq_f (get junk o18) (get junk o19) in
   let v21 := neg (smallest_normalized HalfS) in
   let o22 := lossless HalfS SingleS v21 in
   let o23 := from_bits SingleS 3095396352 in
   let o24 := eq_f (get junk o22) (get junk o23) in
   let v25 := SMALLEST HalfS in
   let o26 := lossless HalfS SingleS v25 in
   let o27 := from_bits SingleS 864026624 in
   let o28 := eq_f (get junk o26) (get junk o27) in
   let o29 := unwrap_parse (from_str HalfS (bytes "0x1.FFCp-14")) in
   let v30 := get junk o29 in
   let o31 := lossless HalfS SingleS v30 in
   let o32 := from_bits SingleS 956293120 in
   let o33 := eq_f (get junk o31) (get junk o32) in
   let v34 := INFINITY HalfS in
   let o35 := lossless HalfS SingleS v34 in
   let o36 := from_bits SingleS 2139095040 in
   let o37 := eq_f (get junk o35) (get junk o36) in
   let v38 := neg (INFINITY HalfS) in
   let o39 := lossless HalfS SingleS v38 in
   let o40 := from_bits SingleS 4286578688 in
   all_true [
      returns o1;
      is_pos_zero (get junk o1);
      returns o3;
      is_neg_zero (get junk o3);
      returns o4;
      returns o6;
      returns o7;
      returns o8;
      get false o8;
      returns o10;
      returns o11;
      returns o12;
      get false o12;
      returns o14;
      returns o15;
      returns o16;
      get false o16;
      returns o18;
      returns o19;
      returns o20;
      get false o20;
      returns o22;
      returns o23;
      returns o24;
      get false o24;
      returns o26;
      returns o27;
      returns o28;
      get false o28;
      returns o29;
      returns o31;
      returns o32;
      returns o33;
      get false o33;
      returns o35;
      returns o36;
      returns o37;
      get false o37;
      returns o39;
      returns o40]) = true.
Proof. vm_compute. reflexivity. Qed.

Example test_half_to_f32_2 : (
   let v0 := neg (INFINITY HalfS) in
   let o1 := lossless HalfS SingleS v0 in
   let o2 := from_bits SingleS 4286578688 in
   let o3 := eq_f (get junk o1) (get junk o2) in
   let v4 := qnan HalfS None in
   let o5 := lossless HalfS SingleS v4 in
   all_true [
      returns o3;
      get false o3;
      returns o5;
      is_nan (get junk o5)]) = true.
Proof. vm_compute. reflexivity. Qed.

(** ieee.rs:4837 [bfloat_to_f32] *)
Example test_bfloat_to_f32_1 : (
   let v0 := ZERO BFloatS in
   let o1 := lossless BFloatS SingleS v0 in
   let v2 := neg (ZERO BFloatS) in
   let o3 := lossless BFloatS SingleS v2 in
   let o4 := unwrap_parse (from_str BFloatS (bytes "1.0")) in
   let v5 := get junk o4 in
   let o6 := lossless BFloatS SingleS v5 in
   let o7 := from_bits SingleS 1065353216 in
   let o8 := eq_f (get junk o6) (get junk o7) in
   let v9 := largest BFloatS in
   let o10 := lossless BFloatS SingleS v9 in
   let o11 := from_bits SingleS 2139029504 in
   let o12 := eq_f (get junk o10) (get junk o11) in
   let v13 := neg (largest BFloatS) in
   let o14 := lossless BFloatS SingleS v13 in
   let o15 := from_bits SingleS 4286513152 in
   let o16 := eq_f (get junk o14) (get junk o15) in
   let v17 := smallest_normalized BFloatS in
   let o18 := lossless BFloatS SingleS v17 in
   let o19 := from_bits SingleS 8388608 in
   let o20 := eq_f (get junk o18) (get junk o19) in
   let v21 := neg (smallest_normalized BFloatS) in
   let o22 := lossless BFloatS SingleS v21 in
   let o23 := from_bits SingleS 2155872256 in
   let o24 := eq_f (get junk o22) (get junk o23) in
   let v25 := SMALLEST BFloatS in
   let o26 := lossless BFloatS SingleS v25 in
   let o27 := from_bits SingleS 65536 in
   let o28 := eq_f (get junk o26) (get junk o27) in
   let o29 := unwrap_parse (from_str BFloatS (bytes "0x1.FCp-127")) in
   let v30 := get junk o29 in
   let o31 := lossless BFloatS SingleS v30 in
   let o32 := from_bits SingleS 8323072 in
   let o33 := eq_f (get junk o31) (get junk o32) in
   let v34 := INFINITY BFloatS in
   let o35 := lossless BFloatS SingleS v34 in
   let o36 := from_bits SingleS 2139095040 in
   let o37 := eq_f (get junk o35) (get junk o36) in
   let v38 := neg (INFINITY BFloatS) in
   let o39 := lossless BFloatS SingleS v38 in
   let o40 := from_bits SingleS 4286578688 in
   all_true [
      returns o1;
      is_pos_zero (get junk o1);
      returns o3;
      is_neg_zero (get junk o3);
      returns o4;
      returns o6;
      returns o7;
      returns o8;
      get false o8;
      returns o10;
      returns o11;
      returns o12;
      get false o12;
      returns o14;
      returns o15;
      returns o16;
      get false o16;
      returns o18;
      returns o19;
      returns o20;
      get false o20;
      returns o22;
      returns o23;
      returns o24;
      get false o24;
      returns o26;
      returns o27;
      returns o28;
      get false o28;
      returns o29;
      returns o31;
      returns o32;
      returns o33;
      get false o33;
      returns o35;
      returns o36;
      returns o37;
      get false o37;
      returns o39;
      returns o40]) = true.
Proof. vm_compute. reflexivity. Qed.

Example test_bfloat_to_f32_2 : (
   let v0 := neg (INFINITY BFloatS) in
   let o1 := lossless BFloatS SingleS v0 in
   let o2 := from_bits SingleS 4286578688 in
   let o3 := eq_f (get junk o1) (get junk o2) in
   let v4 := qnan BFloatS None in
   let o5 := lossless BFloatS SingleS v4 in
   all_true [
      returns o3;
      get false o3;
      returns o5;
      is_nan (get junk o5)]) = true.
Proof. vm_compute. reflexivity. Qed.

(** ieee.rs:4868 [float8e5m2_to_f32] *)
Example test_float8e5m2_to_f32_1 : (
   let v0 := ZERO Float8E5M2S in
   let o1 := lossless Float8E5M2S SingleS v0 in
   let v2 := neg (ZERO Float8E5M2S) in
   let o3 := lossless Float8E5M2S SingleS v2 in
   let o4 := unwrap_parse (from_str Float8E5M2S (bytes "1.0")) in
   let v5 := get junk o4 in
   let o6 := lossless Float8E5M2S SingleS v5 in
   let o7 := from_bits SingleS 1065353216 in
   let o8 := eq_f (get junk o6) (get junk o7) in
   let o9 := unwrap_parse (from_str Float8E5M2S (bytes "2.0")) in
   let v10 := get junk o9 in
   let o11 := lossless Float8E5M2S SingleS v10 in
   let o12 := from_bits SingleS 1073741824 in
   let o13 := eq_f (get junk o11) (get junk o12) in
   let v14 := largest Float8E5M2S in
   let o15 := lossless Float8E5M2S SingleS v14 in
   let o16 := from_bits SingleS 1197473792 in
   let o17 := eq_f (get junk o15) (get junk o16) in
   let v18 := neg (largest Float8E5M2S) in
   let o19 := lossless Float8E5M2S SingleS v18 in
   let o20 := from_bits SingleS 3344957440 in
   let o21 := eq_f (get junk o19) (get junk o20) in
   let v22 := smallest_normalized Float8E5M2S in
   let o23 := lossless Float8E5M2S SingleS v22 in
   let o24 := from_bits SingleS 947912704 in
   let o25 := eq_f (get junk o23) (get junk o24) in
   let v26 := neg (smallest_normalized Float8E5M2S) in
   let o27 := lossless Float8E5M2S SingleS v26 in
   let o28 := from_bits SingleS 3095396352 in
   let o29 := eq_f (get junk o27) (get junk o28) in
   let v30 := SMALLEST Float8E5M2S in
   let o31 := is_denormal Float8E5M2S v30 in
   let o32 := lossless Float8E5M2S SingleS v30 in
   let o33 := from_bits SingleS 931135488 in
   let o34 := eq_f (get junk o32) (get junk o33) in
   let v35 := INFINITY Float8E5M2S in
   let o36 := lossless Float8E5M2S SingleS v35 in
   let o37 := from_bits SingleS 2139095040 in
   let o38 := eq_f (get junk o36) (get junk o37) in
   all_true [
      returns o1;
      is_pos_zero (get junk o1);
      returns o3;
      is_neg_zero (get junk o3);
      returns o4;
      returns o6;
      returns o7;
      returns o8;
      get false o8;
      returns o9;
      returns o11;
      returns o12;
      returns o13;
      get false o13;
      returns o15;
      returns o16;
      returns o17;
      get false o17;
      returns o19;
      returns o20;
      returns o21;
      get false o21;
      returns o23;
      returns o24;
      returns o25;
      get false o25;
      returns o27;
      returns o28;
      returns o29;
      get false o29;
      returns o31;
      get false o31;
      returns o32;
      returns o33;
      returns o34;
      get false o34;
      returns o36;
      returns o37;
      returns o38;
      get false o38]) = true.
Proof. vm_compute. reflexivity. Qed.

Example test_float8e5m2_to_f32_2 : (
   let v0 := neg (INFINITY Float8E5M2S) in
   let o1 := lossless Float8E5M2S SingleS v0 in
   let o2 := from_bits SingleS 4286578688 in
   let o3 := eq_f (get junk o1) (get junk o2) in
   let v4 := qnan Float8E5M2S None in
   let o5 := lossless Float8E5M2S SingleS v4 in
   all_true [
      returns o1;
      returns o2;
      returns o3;
      get false o3;
      returns o5;
      is_nan (get junk o5)]) = true.
Proof. vm_compute. reflexivity. Qed.

(** ieee.rs:4901 [float8e4m3fn_to_f32] *)
Example test_float8e4m3fn_to_f32 : (
   let v0 := ZERO Float8E4M3FNS in
   let o1 := lossless Float8E4M3FNS SingleS v0 in
   let v2 := neg (ZERO Float8E4M3FNS) in
   let o3 := lossless Float8E4M3FNS SingleS v2 in
   let o4 := unwrap_parse (from_str Float8E4M3FNS (bytes "1.0")) in
   let v5 := get junk o4 in
   let o6 := lossless Float8E4M3FNS SingleS v5 in
   let o7 := from_bits SingleS 1065353216 in
   let o8 := eq_f (get junk o6) (get junk o7) in
   let o9 := unwrap_parse (from_str Float8E4M3FNS (bytes "2.0")) in
   let v10 := get junk o9 in
   let o11 := lossless Float8E4M3FNS SingleS v10 in
   let o12 := from_bits SingleS 1073741824 in
   let o13 := eq_f (get junk o11) (get junk o12) in
   let v14 := largest Float8E4M3FNS in
   let o15 := lossless Float8E4M3FNS SingleS v14 in
   let o16 := from_bits SingleS 1138753536 in
   let o17 := eq_f (get junk o15) (get junk o16) in
   let v18 := neg (largest Float8E4M3FNS) in
   let o19 := lossless Float8E4M3FNS SingleS v18 in
   let o20 := from_bits SingleS 3286237184 in
   let o21 := eq_f (get junk o19) (get junk o20) in
   let v22 := smallest_normalized Float8E4M3FNS in
   let o23 := lossless Float8E4M3FNS SingleS v22 in
   let o24 := from_bits SingleS 1015021568 in
   let o25 := eq_f (get junk o23) (get junk o24) in
   let v26 := neg (smallest_normalized Float8E4M3FNS) in
   let o27 := lossless Float8E4M3FNS SingleS v26 in
   let o28 := from_bits SingleS 3162505216 in
   let o29 := eq_f (get junk o27) (get junk o28) in
   let v30 := SMALLEST Float8E4M3FNS in
   let o31 := is_denormal Float8E4M3FNS v30 in
   let o32 := lossless Float8E4M3FNS SingleS v30 in
   let o33 := from_bits SingleS 989855744 in
   let o34 := eq_f (get junk o32) (get junk o33) in
   let v35 := qnan Float8E4M3FNS None in
   let o36 := lossless Float8E4M3FNS SingleS v35 in
   all_true [
      returns o1;
      is_pos_zero (get junk o1);
      returns o3;
      is_neg_zero (get junk o3);
      returns o4;
      returns o6;
      returns o7;
      returns o8;
      get false o8;
      returns o9;
      returns o11;
      returns o12;
      returns o13;
      get false o13;
      returns o15;
      returns o16;
      returns o17;
      get false o17;
      returns o19;
      returns o20;
      returns o21;
      get false o21;
      returns o23;
      returns o24;
      returns o25;
      get false o25;
      returns o27;
      returns o28;
      returns o29;
      get false o29;
      returns o31;
      get false o31;
      returns o32;
      returns o33;
      returns o34;
      get false o34;
      returns o36;
      is_nan (get junk o36)]) = true.
Proof. vm_compute. reflexivity. Qed.

(** ieee.rs:1046 [from_string_specials] *)
Definition payload_mask : Z := 2 ^ 51 - 1.
Definition nan_string_ok (row : list Z * bool * bool * option Z) : bool :=
  let '(s, signaling, negative, payload) := row in
  let o := unwrap_parse (from_str DoubleS s) in
  let f := get junk o in
  let b := to_bits DoubleS f in
  let d := to_bits DoubleS (snan DoubleS None) in
  all_true [returns o; returns b; returns d; is_nan f; Bool.eqb signaling (is_signaling DoubleS f);
    Bool.eqb negative (is_negative f);
    match payload with
    | Some p => p =? Z.land (get 0 b) payload_mask
    | None => Z.land (get 0 d) payload_mask =? Z.land (get 0 b) payload_mask
    end].
Example test_from_string_specials_nan : forallb nan_string_ok [
  (bytes "nan", false, false, (Some 0));
  (bytes "nan0", false, false, (Some 0));
  (bytes "nan0x0", false, false, (Some 0));
  (bytes "nan(0)", false, false, (Some 0));
  (bytes "nan(0x0)", false, false, (Some 0));
  (bytes "-nan", false, true, (Some 0));
  (bytes "-nan0", false, true, (Some 0));
  (bytes "-nan0x0", false, true, (Some 0));
  (bytes "-nan(0)", false, true, (Some 0));
  (bytes "-nan(0x0)", false, true, (Some 0));
  (bytes "nan1", false, false, (Some 1));
  (bytes "nan0x1", false, false, (Some 1));
  (bytes "nan(1)", false, false, (Some 1));
  (bytes "nan(0x1)", false, false, (Some 1));
  (bytes "-nan1", false, true, (Some 1));
  (bytes "-nan0x1", false, true, (Some 1));
  (bytes "-nan(1)", false, true, (Some 1));
  (bytes "-nan(0x1)", false, true, (Some 1));
  (bytes "nan123", false, false, (Some 123));
  (bytes "nan0x7b", false, false, (Some 123));
  (bytes "nan(123)", false, false, (Some 123));
  (bytes "nan(0x7b)", false, false, (Some 123));
  (bytes "-nan123", false, true, (Some 123));
  (bytes "-nan0x7b", false, true, (Some 123));
  (bytes "-nan(123)", false, true, (Some 123));
  (bytes "-nan(0x7b)", false, true, (Some 123));
  (bytes "nan3735928559", false, false, (Some 3735928559));
  (bytes "nan0xdeadbeef", false, false, (Some 3735928559));
  (bytes "nan(3735928559)", false, false, (Some 3735928559));
  (bytes "nan(0xdeadbeef)", false, false, (Some 3735928559));
  (bytes "-nan3735928559", false, true, (Some 3735928559));
  (bytes "-nan0xdeadbeef", false, true, (Some 3735928559));
  (bytes "-nan(3735928559)", false, true, (Some 3735928559));
  (bytes "-nan(0xdeadbeef)", false, true, (Some 3735928559));
  (bytes "nan340282366920938463463374607431768211454", false, false, (Some 2251799813685246));
  (bytes "nan0xfffffffffffffffffffffffffffffffe", false, false, (Some 2251799813685246));
  (bytes "nan(340282366920938463463374607431768211454)", false, false, (Some 2251799813685246));
  (bytes "nan(0xfffffffffffffffffffffffffffffffe)", false, false, (Some 2251799813685246));
  (bytes "-nan340282366920938463463374607431768211454", false, true, (Some 2251799813685246));
  (bytes "-nan0xfffffffffffffffffffffffffffffffe", false, true, (Some 2251799813685246));
  (bytes "-nan(340282366920938463463374607431768211454)", false, true, (Some 2251799813685246));
  (bytes "-nan(0xfffffffffffffffffffffffffffffffe)", false, true, (Some 2251799813685246));
  (bytes "nan", false, false, (Some 0));
  (bytes "nan2251799813685248", false, false, (Some 0));
  (bytes "nan0x8000000000000", false, false, (Some 0));
  (bytes "nan(2251799813685248)", false, false, (Some 0));
  (bytes "nan(0x8000000000000)", false, false, (Some 0));
  (bytes "-nan", false, true, (Some 0));
  (bytes "-nan2251799813685248", false, true, (Some 0));
  (bytes "-nan0x8000000000000", false, true, (Some 0));
  (bytes "-nan(2251799813685248)", false, true, (Some 0));
  (bytes "-nan(0x8000000000000)", false, true, (Some 0));
  (bytes "nan1125899906842624", false, false, (Some 1125899906842624));
  (bytes "nan0x4000000000000", false, false, (Some 1125899906842624));
  (bytes "nan(1125899906842624)", false, false, (Some 1125899906842624));
  (bytes "nan(0x4000000000000)", false, false, (Some 1125899906842624));
  (bytes "-nan1125899906842624", false, true, (Some 1125899906842624));
  (bytes "-nan0x4000000000000", false, true, (Some 1125899906842624));
  (bytes "-nan(1125899906842624)", false, true, (Some 1125899906842624));
  (bytes "-nan(0x4000000000000)", false, true, (Some 1125899906842624));
  (bytes "nan562949953421312", false, false, (Some 562949953421312));
  (bytes "nan0x2000000000000", false, false, (Some 562949953421312));
  (bytes "nan(562949953421312)", false, false, (Some 562949953421312));
  (bytes "nan(0x2000000000000)", false, false, (Some 562949953421312));
  (bytes "-nan562949953421312", false, true, (Some 562949953421312));
  (bytes "-nan0x2000000000000", false, true, (Some 562949953421312));
  (bytes "-nan(562949953421312)", false, true, (Some 562949953421312));
  (bytes "-nan(0x2000000000000)", false, true, (Some 562949953421312));
  (bytes "snan0", true, false, None);
  (bytes "snan0x0", true, false, None);
  (bytes "snan(0)", true, false, None);
  (bytes "snan(0x0)", true, false, None);
  (bytes "-snan0", true, true, None);
  (bytes "-snan0x0", true, true, None);
  (bytes "-snan(0)", true, true, None);
  (bytes "-snan(0x0)", true, true, None);
  (bytes "snan1", true, false, (Some 1));
  (bytes "snan0x1", true, false, (Some 1));
  (bytes "snan(1)", true, false, (Some 1));
  (bytes "snan(0x1)", true, false, (Some 1));
  (bytes "-snan1", true, true, (Some 1));
  (bytes "-snan0x1", true, true, (Some 1));
  (bytes "-snan(1)", true, true, (Some 1));
  (bytes "-snan(0x1)", true, true, (Some 1));
  (bytes "snan123", true, false, (Some 123));
  (bytes "snan0x7b", true, false, (Some 123));
  (bytes "snan(123)", true, false, (Some 123));
  (bytes "snan(0x7b)", true, false, (Some 123));
  (bytes "-snan123", true, true, (Some 123));
  (bytes "-snan0x7b", true, true, (Some 123));
  (bytes "-snan(123)", true, true, (Some 123));
  (bytes "-snan(0x7b)", true, true, (Some 123));
  (bytes "snan3735928559", true, false, (Some 3735928559));
  (bytes "snan0xdeadbeef", true, false, (Some 3735928559));
  (bytes "snan(3735928559)", true, false, (Some 3735928559));
  (bytes "snan(0xdeadbeef)", true, false, (Some 3735928559));
  (bytes "-snan3735928559", true, true, (Some 3735928559));
  (bytes "-snan0xdeadbeef", true, true, (Some 3735928559));
  (bytes "-snan(3735928559)", true, true, (Some 3735928559));
  (bytes "-snan(0xdeadbeef)", true, true, (Some 3735928559));
  (bytes "snan340282366920938463463374607431768211454", true, false, (Some 2251799813685246));
  (bytes "snan0xfffffffffffffffffffffffffffffffe", true, false, (Some 2251799813685246));
  (bytes "snan(340282366920938463463374607431768211454)", true, false, (Some 2251799813685246));
  (bytes "snan(0xfffffffffffffffffffffffffffffffe)", true, false, (Some 2251799813685246));
  (bytes "-snan340282366920938463463374607431768211454", true, true, (Some 2251799813685246));
  (bytes "-snan0xfffffffffffffffffffffffffffffffe", true, true, (Some 2251799813685246));
  (bytes "-snan(340282366920938463463374607431768211454)", true, true, (Some 2251799813685246));
  (bytes "-snan(0xfffffffffffffffffffffffffffffffe)", true, true, (Some 2251799813685246));
  (bytes "snan2251799813685248", true, false, None);
  (bytes "snan0x8000000000000", true, false, None);
  (bytes "snan(2251799813685248)", true, false, None);
  (bytes "snan(0x8000000000000)", true, false, None);
  (bytes "-snan2251799813685248", true, true, None);
  (bytes "-snan0x8000000000000", true, true, None);
  (bytes "-snan(2251799813685248)", true, true, None);
  (bytes "-snan(0x8000000000000)", true, true, None);
  (bytes "snan1125899906842624", true, false, (Some 1125899906842624));
  (bytes "snan0x4000000000000", true, false, (Some 1125899906842624));
  (bytes "snan(1125899906842624)", true, false, (Some 1125899906842624));
  (bytes "snan(0x4000000000000)", true, false, (Some 1125899906842624));
  (bytes "-snan1125899906842624", true, true, (Some 1125899906842624));
  (bytes "-snan0x4000000000000", true, true, (Some 1125899906842624));
  (bytes "-snan(1125899906842624)", true, true, (Some 1125899906842624));
  (bytes "-snan(0x4000000000000)", true, true, (Some 1125899906842624));
  (bytes "snan562949953421312", true, false, (Some 562949953421312));
  (bytes "snan0x2000000000000", true, false, (Some 562949953421312));
  (bytes "snan(562949953421312)", true, false, (Some 562949953421312));
  (bytes "snan(0x2000000000000)", true, false, (Some 562949953421312));
  (bytes "-snan562949953421312", true, true, (Some 562949953421312));
  (bytes "-snan0x2000000000000", true, true, (Some 562949953421312));
  (bytes "-snan(562949953421312)", true, true, (Some 562949953421312));
  (bytes "-snan(0x2000000000000)", true, true, (Some 562949953421312));
  (bytes "Snan0", true, false, None);
  (bytes "Snan0x0", true, false, None);
  (bytes "Snan(0)", true, false, None);
  (bytes "Snan(0x0)", true, false, None);
  (bytes "-Snan0", true, true, None);
  (bytes "-Snan0x0", true, true, None);
  (bytes "-Snan(0)", true, true, None);
  (bytes "-Snan(0x0)", true, true, None);
  (bytes "Snan1", true, false, (Some 1));
  (bytes "Snan0x1", true, false, (Some 1));
  (bytes "Snan(1)", true, false, (Some 1));
  (bytes "Snan(0x1)", true, false, (Some 1));
  (bytes "-Snan1", true, true, (Some 1));
  (bytes "-Snan0x1", true, true, (Some 1));
  (bytes "-Snan(1)", true, true, (Some 1));
  (bytes "-Snan(0x1)", true, true, (Some 1));
  (bytes "Snan123", true, false, (Some 123));
  (bytes "Snan0x7b", true, false, (Some 123));
  (bytes "Snan(123)", true, false, (Some 123));
  (bytes "Snan(0x7b)", true, false, (Some 123));
  (bytes "-Snan123", true, true, (Some 123));
  (bytes "-Snan0x7b", true, true, (Some 123));
  (bytes "-Snan(123)", true, true, (Some 123));
  (bytes "-Snan(0x7b)", true, true, (Some 123));
  (bytes "Snan3735928559", true, false, (Some 3735928559));
  (bytes "Snan0xdeadbeef", true, false, (Some 3735928559));
  (bytes "Snan(3735928559)", true, false, (Some 3735928559));
  (bytes "Snan(0xdeadbeef)", true, false, (Some 3735928559));
  (bytes "-Snan3735928559", true, true, (Some 3735928559));
  (bytes "-Snan0xdeadbeef", true, true, (Some 3735928559));
  (bytes "-Snan(3735928559)", true, true, (Some 3735928559));
  (bytes "-Snan(0xdeadbeef)", true, true, (Some 3735928559));
  (bytes "Snan340282366920938463463374607431768211454", true, false, (Some 2251799813685246));
  (bytes "Snan0xfffffffffffffffffffffffffffffffe", true, false, (Some 2251799813685246));
  (bytes "Snan(340282366920938463463374607431768211454)", true, false, (Some 2251799813685246));
  (bytes "Snan(0xfffffffffffffffffffffffffffffffe)", true, false, (Some 2251799813685246));
  (bytes "-Snan340282366920938463463374607431768211454", true, true, (Some 2251799813685246));
  (bytes "-Snan0xfffffffffffffffffffffffffffffffe", true, true, (Some 2251799813685246));
  (bytes "-Snan(340282366920938463463374607431768211454)", true, true, (Some 2251799813685246));
  (bytes "-Snan(0xfffffffffffffffffffffffffffffffe)", true, true, (Some 2251799813685246));
  (bytes "Snan2251799813685248", true, false, None);
  (bytes "Snan0x8000000000000", true, false, None);
  (bytes "Snan(2251799813685248)", true, false, None);
  (bytes "Snan(0x8000000000000)", true, false, None);
  (bytes "-Snan2251799813685248", true, true, None);
  (bytes "-Snan0x8000000000000", true, true, None);
  (bytes "-Snan(2251799813685248)", true, true, None);
  (bytes "-Snan(0x8000000000000)", true, true, None);
  (bytes "Snan1125899906842624", true, false, (Some 1125899906842624));
  (bytes "Snan0x4000000000000", true, false, (Some 1125899906842624));
  (bytes "Snan(1125899906842624)", true, false, (Some 1125899906842624));
  (bytes "Snan(0x4000000000000)", true, false, (Some 1125899906842624));
  (bytes "-Snan1125899906842624", true, true, (Some 1125899906842624));
  (bytes "-Snan0x4000000000000", true, true, (Some 1125899906842624));
  (bytes "-Snan(1125899906842624)", true, true, (Some 1125899906842624));
  (bytes "-Snan(0x4000000000000)", true, true, (Some 1125899906842624));
  (bytes "Snan562949953421312", true, false, (Some 562949953421312));
  (bytes "Snan0x2000000000000", true, false, (Some 562949953421312));
  (bytes "Snan(562949953421312)", true, false, (Some 562949953421312));
  (bytes "Snan(0x2000000000000)", true, false, (Some 562949953421312));
  (bytes "-Snan562949953421312", true, true, (Some 562949953421312));
  (bytes "-Snan0x2000000000000", true, true, (Some 562949953421312));
  (bytes "-Snan(562949953421312)", true, true, (Some 562949953421312));
  (bytes "-Snan(0x2000000000000)", true, true, (Some 562949953421312));
  (bytes "NaN", false, false, (Some 0));
  (bytes "NaN0", false, false, (Some 0));
  (bytes "NaN0x0", false, false, (Some 0));
  (bytes "NaN(0)", false, false, (Some 0));
  (bytes "NaN(0x0)", false, false, (Some 0));
  (bytes "-NaN", false, true, (Some 0));
  (bytes "-NaN0", false, true, (Some 0));
  (bytes "-NaN0x0", false, true, (Some 0));
  (bytes "-NaN(0)", false, true, (Some 0));
  (bytes "-NaN(0x0)", false, true, (Some 0));
  (bytes "NaN1", false, false, (Some 1));
  (bytes "NaN0x1", false, false, (Some 1));
  (bytes "NaN(1)", false, false, (Some 1));
  (bytes "NaN(0x1)", false, false, (Some 1));
  (bytes "-NaN1", false, true, (Some 1));
  (bytes "-NaN0x1", false, true, (Some 1));
  (bytes "-NaN(1)", false, true, (Some 1));
  (bytes "-NaN(0x1)", false, true, (Some 1));
  (bytes "NaN123", false, false, (Some 123));
  (bytes "NaN0x7b", false, false, (Some 123));
  (bytes "NaN(123)", false, false, (Some 123));
  (bytes "NaN(0x7b)", false, false, (Some 123));
  (bytes "-NaN123", false, true, (Some 123));
  (bytes "-NaN0x7b", false, true, (Some 123));
  (bytes "-NaN(123)", false, true, (Some 123));
  (bytes "-NaN(0x7b)", false, true, (Some 123));
  (bytes "NaN3735928559", false, false, (Some 3735928559));
  (bytes "NaN0xdeadbeef", false, false, (Some 3735928559));
  (bytes "NaN(3735928559)", false, false, (Some 3735928559));
  (bytes "NaN(0xdeadbeef)", false, false, (Some 3735928559));
  (bytes "-NaN3735928559", false, true, (Some 3735928559));
  (bytes "-NaN0xdeadbeef", false, true, (Some 3735928559));
  (bytes "-NaN(3735928559)", false, true, (Some 3735928559));
  (bytes "-NaN(0xdeadbeef)", false, true, (Some 3735928559));
  (bytes "NaN340282366920938463463374607431768211454", false, false, (Some 2251799813685246));
  (bytes "NaN0xfffffffffffffffffffffffffffffffe", false, false, (Some 2251799813685246));
  (bytes "NaN(340282366920938463463374607431768211454)", false, false, (Some 2251799813685246));
  (bytes "NaN(0xfffffffffffffffffffffffffffffffe)", false, false, (Some 2251799813685246));
  (bytes "-NaN340282366920938463463374607431768211454", false, true, (Some 2251799813685246));
  (bytes "-NaN0xfffffffffffffffffffffffffffffffe", false, true, (Some 2251799813685246));
  (bytes "-NaN(340282366920938463463374607431768211454)", false, true, (Some 2251799813685246));
  (bytes "-NaN(0xfffffffffffffffffffffffffffffffe)", false, true, (Some 2251799813685246));
  (bytes "NaN", false, false, (Some 0));
  (bytes "NaN2251799813685248", false, false, (Some 0));
  (bytes "NaN0x8000000000000", false, false, (Some 0));
  (bytes "NaN(2251799813685248)", false, false, (Some 0));
  (bytes "NaN(0x8000000000000)", false, false, (Some 0));
  (bytes "-NaN", false, true, (Some 0));
  (bytes "-NaN2251799813685248", false, true, (Some 0));
  (bytes "-NaN0x8000000000000", false, true, (Some 0));
  (bytes "-NaN(2251799813685248)", false, true, (Some 0));
  (bytes "-NaN(0x8000000000000)", false, true, (Some 0));
  (bytes "NaN1125899906842624", false, false, (Some 1125899906842624));
  (bytes "NaN0x4000000000000", false, false, (Some 1125899906842624));
  (bytes "NaN(1125899906842624)", false, false, (Some 1125899906842624));
  (bytes "NaN(0x4000000000000)", false, false, (Some 1125899906842624));
  (bytes "-NaN1125899906842624", false, true, (Some 1125899906842624));
  (bytes "-NaN0x4000000000000", false, true, (Some 1125899906842624));
  (bytes "-NaN(1125899906842624)", false, true, (Some 1125899906842624));
  (bytes "-NaN(0x4000000000000)", false, true, (Some 1125899906842624));
  (bytes "NaN562949953421312", false, false, (Some 562949953421312));
  (bytes "NaN0x2000000000000", false, false, (Some 562949953421312));
  (bytes "NaN(562949953421312)", false, false, (Some 562949953421312));
  (bytes "NaN(0x2000000000000)", false, false, (Some 562949953421312));
  (bytes "-NaN562949953421312", false, true, (Some 562949953421312));
  (bytes "-NaN0x2000000000000", false, true, (Some 562949953421312));
  (bytes "-NaN(562949953421312)", false, true, (Some 562949953421312));
  (bytes "-NaN(0x2000000000000)", false, true, (Some 562949953421312));
  (bytes "sNaN0", true, false, None);
  (bytes "sNaN0x0", true, false, None);
  (bytes "sNaN(0)", true, false, None);
  (bytes "sNaN(0x0)", true, false, None);
  (bytes "-sNaN0", true, true, None);
  (bytes "-sNaN0x0", true, true, None);
  (bytes "-sNaN(0)", true, true, None);
  (bytes "-sNaN(0x0)", true, true, None);
  (bytes "sNaN1", true, false, (Some 1));
  (bytes "sNaN0x1", true, false, (Some 1));
  (bytes "sNaN(1)", true, false, (Some 1));
  (bytes "sNaN(0x1)", true, false, (Some 1));
  (bytes "-sNaN1", true, true, (Some 1));
  (bytes "-sNaN0x1", true, true, (Some 1));
  (bytes "-sNaN(1)", true, true, (Some 1));
  (bytes "-sNaN(0x1)", true, true, (Some 1));
  (bytes "sNaN123", true, false, (Some 123));
  (bytes "sNaN0x7b", true, false, (Some 123));
  (bytes "sNaN(123)", true, false, (Some 123));
  (bytes "sNaN(0x7b)", true, false, (Some 123));
  (bytes "-sNaN123", true, true, (Some 123));
  (bytes "-sNaN0x7b", true, true, (Some 123));
  (bytes "-sNaN(123)", true, true, (Some 123));
  (bytes "-sNaN(0x7b)", true, true, (Some 123));
  (bytes "sNaN3735928559", true, false, (Some 3735928559));
  (bytes "sNaN0xdeadbeef", true, false, (Some 3735928559));
  (bytes "sNaN(3735928559)", true, false, (Some 3735928559));
  (bytes "sNaN(0xdeadbeef)", true, false, (Some 3735928559));
  (bytes "-sNaN3735928559", true, true, (Some 3735928559));
  (bytes "-sNaN0xdeadbeef", true, true, (Some 3735928559));
  (bytes "-sNaN(3735928559)", true, true, (Some 3735928559));
  (bytes "-sNaN(0xdeadbeef)", true, true, (Some 3735928559));
  (bytes "sNaN340282366920938463463374607431768211454", true, false, (Some 2251799813685246));
  (bytes "sNaN0xfffffffffffffffffffffffffffffffe", true, false, (Some 2251799813685246));
  (bytes "sNaN(340282366920938463463374607431768211454)", true, false, (Some 2251799813685246));
  (bytes "sNaN(0xfffffffffffffffffffffffffffffffe)", true, false, (Some 2251799813685246));
  (bytes "-sNaN340282366920938463463374607431768211454", true, true, (Some 2251799813685246));
  (bytes "-sNaN0xfffffffffffffffffffffffffffffffe", true, true, (Some 2251799813685246));
  (bytes "-sNaN(340282366920938463463374607431768211454)", true, true, (Some 2251799813685246));
  (bytes "-sNaN(0xfffffffffffffffffffffffffffffffe)", true, true, (Some 2251799813685246));
  (bytes "sNaN2251799813685248", true, false, None);
  (bytes "sNaN0x8000000000000", true, false, None);
  (bytes "sNaN(2251799813685248)", true, false, None);
  (bytes "sNaN(0x8000000000000)", true, false, None);
  (bytes "-sNaN2251799813685248", true, true, None);
  (bytes "-sNaN0x8000000000000", true, true, None);
  (bytes "-sNaN(2251799813685248)", true, true, None);
  (bytes "-sNaN(0x8000000000000)", true, true, None);
  (bytes "sNaN1125899906842624", true, false, (Some 1125899906842624));
  (bytes "sNaN0x4000000000000", true, false, (Some 1125899906842624));
  (bytes "sNaN(1125899906842624)", true, false, (Some 1125899906842624));
  (bytes "sNaN(0x4000000000000)", true, false, (Some 1125899906842624));
  (bytes "-sNaN1125899906842624", true, true, (Some 1125899906842624));
  (bytes "-sNaN0x4000000000000", true, true, (Some 1125899906842624));
  (bytes "-sNaN(1125899906842624)", true, true, (Some 1125899906842624));
  (bytes "-sNaN(0x4000000000000)", true, true, (Some 1125899906842624));
  (bytes "sNaN562949953421312", true, false, (Some 562949953421312));
  (bytes "sNaN0x2000000000000", true, false, (Some 562949953421312));
  (bytes "sNaN(562949953421312)", true, false, (Some 562949953421312));
  (bytes "sNaN(0x2000000000000)", true, false, (Some 562949953421312));
  (bytes "-sNaN562949953421312", true, true, (Some 562949953421312));
  (bytes "-sNaN0x2000000000000", true, true, (Some 562949953421312));
  (bytes "-sNaN(562949953421312)", true, true, (Some 562949953421312));
  (bytes "-sNaN(0x2000000000000)", true, true, (Some 562949953421312));
  (bytes "SNaN0", true, false, None);
  (bytes "SNaN0x0", true, false, None);
  (bytes "SNaN(0)", true, false, None);
  (bytes "SNaN(0x0)", true, false, None);
  (bytes "-SNaN0", true, true, None);
  (bytes "-SNaN0x0", true, true, None);
  (bytes "-SNaN(0)", true, true, None);
  (bytes "-SNaN(0x0)", true, true, None);
  (bytes "SNaN1", true, false, (Some 1));
  (bytes "SNaN0x1", true, false, (Some 1));
  (bytes "SNaN(1)", true, false, (Some 1));
  (bytes "SNaN(0x1)", true, false, (Some 1));
  (bytes "-SNaN1", true, true, (Some 1));
  (bytes "-SNaN0x1", true, true, (Some 1));
  (bytes "-SNaN(1)", true, true, (Some 1));
  (bytes "-SNaN(0x1)", true, true, (Some 1));
  (bytes "SNaN123", true, false, (Some 123));
  (bytes "SNaN0x7b", true, false, (Some 123));
  (bytes "SNaN(123)", true, false, (Some 123));
  (bytes "SNaN(0x7b)", true, false, (Some 123));
  (bytes "-SNaN123", true, true, (Some 123));
  (bytes "-SNaN0x7b", true, true, (Some 123));
  (bytes "-SNaN(123)", true, true, (Some 123));
  (bytes "-SNaN(0x7b)", true, true, (Some 123));
  (bytes "SNaN3735928559", true, false, (Some 3735928559));
  (bytes "SNaN0xdeadbeef", true, false, (Some 3735928559));
  (bytes "SNaN(3735928559)", true, false, (Some 3735928559));
  (bytes "SNaN(0xdeadbeef)", true, false, (Some 3735928559));
  (bytes "-SNaN3735928559", true, true, (Some 3735928559));
  (bytes "-SNaN0xdeadbeef", true, true, (Some 3735928559));
  (bytes "-SNaN(3735928559)", true, true, (Some 3735928559));
  (bytes "-SNaN(0xdeadbeef)", true, true, (Some 3735928559));
  (bytes "SNaN340282366920938463463374607431768211454", true, false, (Some 2251799813685246));
  (bytes "SNaN0xfffffffffffffffffffffffffffffffe", true, false, (Some 2251799813685246));
  (bytes "SNaN(340282366920938463463374607431768211454)", true, false, (Some 2251799813685246));
  (bytes "SNaN(0xfffffffffffffffffffffffffffffffe)", true, false, (Some 2251799813685246));
  (bytes "-SNaN340282366920938463463374607431768211454", true, true, (Some 2251799813685246));
  (bytes "-SNaN0xfffffffffffffffffffffffffffffffe", true, true, (Some 2251799813685246));
  (bytes "-SNaN(340282366920938463463374607431768211454)", true, true, (Some 2251799813685246));
  (bytes "-SNaN(0xfffffffffffffffffffffffffffffffe)", true, true, (Some 2251799813685246));
  (bytes "SNaN2251799813685248", true, false, None);
  (bytes "SNaN0x8000000000000", true, false, None);
  (bytes "SNaN(2251799813685248)", true, false, None);
  (bytes "SNaN(0x8000000000000)", true, false, None);
  (bytes "-SNaN2251799813685248", true, true, None);
  (bytes "-SNaN0x8000000000000", true, true, None);
  (bytes "-SNaN(2251799813685248)", true, true, None);
  (bytes "-SNaN(0x8000000000000)", true, true, None);
  (bytes "SNaN1125899906842624", true, false, (Some 1125899906842624));
  (bytes "SNaN0x4000000000000", true, false, (Some 1125899906842624));
  (bytes "SNaN(1125899906842624)", true, false, (Some 1125899906842624));
  (bytes "SNaN(0x4000000000000)", true, false, (Some 1125899906842624));
  (bytes "-SNaN1125899906842624", true, true, (Some 1125899906842624));
  (bytes "-SNaN0x4000000000000", true, true, (Some 1125899906842624));
  (bytes "-SNaN(1125899906842624)", true, true, (Some 1125899906842624));
  (bytes "-SNaN(0x4000000000000)", true, true, (Some 1125899906842624));
  (bytes "SNaN562949953421312", true, false, (Some 562949953421312));
  (bytes "SNaN0x2000000000000", true, false, (Some 562949953421312));
  (bytes "SNaN(562949953421312)", true, false, (Some 562949953421312));
  (bytes "SNaN(0x2000000000000)", true, false, (Some 562949953421312));
  (bytes "-SNaN562949953421312", true, true, (Some 562949953421312));
  (bytes "-SNaN0x2000000000000", true, true, (Some 562949953421312));
  (bytes "-SNaN(562949953421312)", true, true, (Some 562949953421312));
  (bytes "-SNaN(0x2000000000000)", true, true, (Some 562949953421312))] = true.
Proof. vm_compute. reflexivity. Qed.
Definition inf_string_ok (row : list Z * bool) : bool :=
  let '(s, negative) := row in
  let o := unwrap_parse (from_str DoubleS s) in
  let f := get junk o in
  let b := to_bits DoubleS f in
  all_true [returns o; returns b; is_infinite f; Bool.eqb negative (is_negative f); Z.land (get 0 b) payload_mask =? 0].
Example test_from_string_specials_inf : forallb inf_string_ok [
  (bytes "inf", false); (bytes "INFINITY", false); (bytes "+Inf", false); (bytes "-inf", true); (bytes "-INFINITY", true); (bytes "-Inf", true)] = true.
Proof. vm_compute. reflexivity. Qed.

