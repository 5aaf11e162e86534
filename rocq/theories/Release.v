(** * Release.v -- the integer core of the crate built without overflow checks
    (Rust's release profile: src/lib.rs, src/ieee.rs, src/ppc.rs).

    Machine.v and the files that use it model a build with overflow checks.
    This file and ReleaseTop.v give the other build: the same functions, with
    the checks replaced by what the release profile computes.  The plain
    operators [+], [-], [*], unary [-] and [abs] wrap, and a shift masks its
    amount.  Assertions, [unwrap], slice indices and the division by zero panic
    in both builds and stay as they are; the source has no [debug_assert].

    A function without such an operator is shared.  The operations that
    Machine.v leaves unchecked (sums of lengths and of bit counts) are left
    unbounded here too. *)
From Coq Require Import ZArith List Bool.
From Verif Require Import Machine Sig Ieee.
Import ListNotations.
Local Open Scope Z_scope.

(** [x + y], [x - y], [x * y], [- x], [x.abs()] on [ExpInt] (src/lib.rs:152-158) *)
Definition wrap_i32 (x : Z) : outcome Z := Ret (as_i32 x).
(** [x + y], [x - y], [x * y] on [Limb] (src/ieee.rs:46-49) *)
Definition wrap_u128 (x : Z) : outcome Z := Ret (wrap128 x).
(** [a - b] on [usize] (64 bits): a borrow adds [2 ^ 64] *)
Definition wrap_usize (a b : Z) : outcome Z := Ret (if b <=? a then a - b else a - b + 2 ^ 64).
(** [a + b], [a * b] on [usize] (64 bits) *)
Definition wrap_usize_up (x : Z) : Z := if x <? 2 ^ 64 then x else x mod 2 ^ 64.
(** [x << n] and [x >> n] on [Limb] (src/ieee.rs:46-49): the amount is taken
    modulo 128 *)
Definition mask_shl (x n : Z) : outcome Z := Ret (wrap128 (Z.shiftl x (n mod 128))).
Definition mask_shr (x n : Z) : outcome Z := Ret (Z.shiftr x (n mod 128)).


(** ** The functions of Sig.v *)

(** src/ieee.rs:2716-2738 [through_truncation] *)
Definition through_truncation_rel (limbs : list Z) (bits : Z) : outcome Loss :=
  if bits =? 0 then Ret ExactlyZero
  else
    let! half_bit := wrap_usize bits 1 in
    let half_limb := half_bit / LIMB_BITS in
    let! '(half_limb, rest) :=
      (if half_limb <? len limbs then
         let! h := get limbs half_limb in
         let! r := slice_to limbs half_limb in
         Ret (h, r)
       else Ret (0, limbs)) in
    let! half := mask_shl 1 (half_bit mod LIMB_BITS) in
    let has_half := negb (Z.land half_limb half =? 0) in
    let! half_m1 := wrap_u128 (half - 1) in
    let has_rest := negb (Z.land half_limb half_m1 =? 0) || negb (is_all_zeros rest) in
    Ret (match has_half, has_rest with
         | false, false => ExactlyZero
         | false, true => LessThanHalf
         | true, false => ExactlyHalf
         | true, true => MoreThanHalf
         end).

(** src/ieee.rs:2793-2795 [get_bit] *)
Definition get_bit_rel (limbs : list Z) (bit : Z) : outcome bool :=
  let! l := get limbs (bit / LIMB_BITS) in
  let! m := mask_shl 1 (bit mod LIMB_BITS) in
  Ret (negb (Z.land l m =? 0)).

(** src/ieee.rs:2799-2801 [set_bit] *)
Definition set_bit_rel (limbs : list Z) (bit : Z) : outcome (list Z) :=
  let! l := get limbs (bit / LIMB_BITS) in
  let! m := mask_shl 1 (bit mod LIMB_BITS) in
  set limbs (bit / LIMB_BITS) (Z.lor l m).

(** src/ieee.rs:2805-2834 [shift_left]; [checked_sub(..).unwrap()] panics in every build *)
Definition shift_left_rel (dst : list Z) (exp : Z) (bits : Z) : outcome (list Z * Z) :=
  if 0 <? bits then
    let! exp := chk32 (exp - as_i32 bits) in
    let jump := bits / LIMB_BITS in
    let shift := bits mod LIMB_BITS in
    let! dst :=
      for_each (rev (zrange 0 (len dst)))
        (fun i dst =>
           let! limb :=
             (if i <? jump then Ret 0
              else
                let! limb := get dst (i - jump) in
                if 0 <? shift then
                  let! limb := mask_shl limb shift in
                  if jump + 1 <=? i then
                    let! x := get dst (i - jump - 1) in
                    let! y := mask_shr x (LIMB_BITS - shift) in
                    Ret (Z.lor limb y)
                  else Ret limb
                else Ret limb) in
           set dst i limb) dst in
    Ret (dst, exp)
  else Ret (dst, exp).

(** src/ieee.rs:2838-2871 [shift_right]; [checked_add(..).unwrap()] panics in every build *)
Definition shift_right_rel (dst : list Z) (exp : Z) (bits : Z) : outcome (list Z * Z * Loss) :=
  let! loss := through_truncation_rel dst bits in
  if 0 <? bits then
    let! exp := chk32 (exp + as_i32 bits) in
    let jump := bits / LIMB_BITS in
    let shift := bits mod LIMB_BITS in
    let! dst :=
      for_each (zrange 0 (len dst))
        (fun i dst =>
           let! limb :=
             (if len dst <=? i + jump then Ret 0
              else
                let! limb := get dst (i + jump) in
                if 0 <? shift then
                  let! limb := mask_shr limb shift in
                  if i + jump + 1 <? len dst then
                    let! x := get dst (i + jump + 1) in
                    let! y := mask_shl x (LIMB_BITS - shift) in
                    Ret (Z.lor limb y)
                  else Ret limb
                else Ret limb) in
           set dst i limb) dst in
    Ret (dst, exp, loss)
  else Ret (dst, exp, loss).

(** src/ieee.rs:2877-2906 [extract] *)
Definition extract_rel (dst src : list Z) (src_bits src_lsb : Z) : outcome (list Z) :=
  if src_bits =? 0 then Ret dst
  else
    let dst_limbs := limbs_for_bits src_bits in
    assertb (dst_limbs <=? len dst) (
    let! src := slice_from src (src_lsb / LIMB_BITS) in
    let! low := slice_to src dst_limbs in
    let shift := src_lsb mod LIMB_BITS in
    let! '(low, _, _) := shift_right_rel low 0 shift in
    let n := dst_limbs * LIMB_BITS - shift in
    let! low :=
      (if n <? src_bits then
         let! m := mask_shl 1 (src_bits - n) in
         let! mask := wrap_u128 (m - 1) in
         let! last := get low (dst_limbs - 1) in
         let! s := get src dst_limbs in
         let! x := mask_shl (Z.land s mask) (n mod LIMB_BITS) in
         set low (dst_limbs - 1) (Z.lor last x)
       else if (src_bits <? n) && (0 <? src_bits mod LIMB_BITS) then
         let! m := mask_shl 1 (src_bits mod LIMB_BITS) in
         let! mask := wrap_u128 (m - 1) in
         let! last := get low (dst_limbs - 1) in
         set low (dst_limbs - 1) (Z.land last mask)
       else Ret low) in
    (* Clear high limbs. *)
    let! high := slice_from dst dst_limbs in
    Ret (low ++ map (fun _ => 0) high)).

(** src/ieee.rs:2911-2921 [from_limbs] *)
Definition from_limbs_rel (dst src : list Z) (precision : Z) : outcome (list Z * Loss * Z) :=
  let omsb := omsb src in
  if precision <=? omsb then
    let! dst := extract_rel dst src precision (omsb - precision) in
    let! loss := through_truncation_rel src (omsb - precision) in
    let! e := wrap_i32 (as_i32 omsb - 1) in
    Ret (dst, loss, e)
  else
    let! dst := extract_rel dst src omsb 0 in
    let! e := wrap_i32 (as_i32 precision - 1) in
    Ret (dst, ExactlyZero, e).

(** src/ieee.rs:2927-2936 [each_chunk_limb] *)
Definition each_chunk_limb_rel {S} (bits : Z) (f : Z -> S -> outcome (Z * S)) (limb : Z) (s : S)
  : outcome (Z * S) :=
  for_each (rev (zrange 0 (LIMB_BITS / bits)))
    (fun i '(r, s) =>
       let! x := mask_shr limb (i * bits) in
       let! m := mask_shl 1 bits in
       let! mask := wrap_u128 (m - 1) in
       let! '(y, s) := f (Z.land x mask) s in
       let! y := mask_shl y (i * bits) in
       Ret (Z.lor r y, s)) (0, s).

(** src/ieee.rs:2927-2936 [each_chunk_rev] *)
Fixpoint each_chunk_rev_rel {S} (bits : Z) (f : Z -> S -> outcome (Z * S)) (rlimbs : list Z) (s : S)
  : outcome (list Z * S) :=
  match rlimbs with
  | [] => Ret ([], s)
  | x :: r =>
    let! '(y, s) := each_chunk_limb_rel bits f x s in
    let! '(r, s) := each_chunk_rev_rel bits f r s in
    Ret (y :: r, s)
  end.

(** src/ieee.rs:2927-2936 [each_chunk] *)
Definition each_chunk_rel {S} (limbs : list Z) (bits : Z) (f : Z -> S -> outcome (Z * S)) (s : S)
  : outcome (list Z * S) :=
  assertb (LIMB_BITS mod bits =? 0) (
  let! '(r, s) := each_chunk_rev_rel bits f (rev limbs) s in
  Ret (rev r, s)).

(** src/ieee.rs:2996-3052 [add_or_sub] *)
Definition add_or_sub_rel (a_sig : list Z) (a_exp : Z) (a_sign : bool)
    (b_sig : list Z) (b_exp : Z) (b_sign : bool) : outcome (list Z * Z * bool * Loss) :=
  let! bits := wrap_i32 (a_exp - b_exp) in
  if xorb a_sign b_sign then
    let! '(a_sig, a_exp, b_sig, loss) :=
      (if bits =? 0 then Ret (a_sig, a_exp, b_sig, ExactlyZero)
       else if 0 <? bits then
         let! '(b_sig, _, loss) := shift_right_rel b_sig 0 (bits - 1) in
         let! '(a_sig, a_exp) := shift_left_rel a_sig a_exp 1 in
         Ret (a_sig, a_exp, b_sig, loss)
       else
         let! nb := wrap_i32 (- bits) in
         let! '(a_sig, a_exp, loss) := shift_right_rel a_sig a_exp (nb - 1) in
         let! '(b_sig, _) := shift_left_rel b_sig 0 1 in
         Ret (a_sig, a_exp, b_sig, loss)) in
    let borrow := b2z (negb (loss_eqb loss ExactlyZero)) in
    let! c := cmp a_sig b_sig in
    let! '(a_sig, a_sign) :=
      (match c with
       | Lt =>
         let! '(b_sig, out) := sub b_sig a_sig borrow in
         assertb (out =? 0) (
         assertb (len a_sig =? len b_sig) (Ret (b_sig, negb a_sign)))
       | _ =>
         let! '(a_sig, out) := sub a_sig b_sig borrow in
         assertb (out =? 0) (Ret (a_sig, a_sign))
       end) in
    Ret (a_sig, a_exp, a_sign,
         match loss with
         | LessThanHalf => MoreThanHalf
         | MoreThanHalf => LessThanHalf
         | _ => loss
         end)
  else
    let! '(a_sig, a_exp, b_sig, loss) :=
      (if 0 <? bits then
         let! '(b_sig, _, loss) := shift_right_rel b_sig 0 bits in
         Ret (a_sig, a_exp, b_sig, loss)
       else
         let! nb := wrap_i32 (- bits) in
         let! '(a_sig, a_exp, loss) := shift_right_rel a_sig a_exp nb in
         Ret (a_sig, a_exp, b_sig, loss)) in
    let! '(a_sig, out) := add a_sig b_sig 0 in
    assertb (out =? 0) (Ret (a_sig, a_exp, a_sign, loss)).

(** src/ieee.rs:3062-3081 [select] *)
Definition select_rel (limb i : Z) : outcome Z :=
  let! x := mask_shr limb (i * HALF_BITS) in
  let! m := mask_shl 1 HALF_BITS in
  let! mask := wrap_u128 (m - 1) in
  Ret (Z.land x mask).

(** src/ieee.rs:3062-3081 [widening_mul] *)
Definition widening_mul_rel (a b : Z) : outcome (Z * Z) :=
  if (a =? 0) || (b =? 0) then Ret (0, 0)
  else
    let! wide :=
      for_each [0; 1] (fun i wide =>
        for_each [0; 1] (fun j wide =>
          let! x := select_rel a i in
          let! y := select_rel b j in
          let! xy := wrap_u128 (x * y) in
          let! '(x, _) := shift_left_rel [xy; 0] 0 ((i + j) * HALF_BITS) in
          let! '(wide, c) := add wide x 0 in
          assertb (c =? 0) (Ret wide)) wide) [0; 0] in
    match wide with
    | [lo; hi] => Ret (lo, hi)
    | _ => Panic
    end.

(** src/ieee.rs:3085-3151 [mul] *)
Definition mul_rel (dst : list Z) (exp : Z) (a b : list Z) (precision : Z) : outcome (list Z * Z * Loss) :=
  let '(a, b) := if len b <? len a then (b, a) else (a, b) in
  let! _ := slice_to dst (len b) in
  let! dst := for_each (zrange 0 (len b)) (fun i dst => set dst i 0) dst in
  let! dst :=
    for_each (zrange 0 (len a)) (fun i dst =>
      let! '(dst, carry) :=
        for_each (zrange 0 (len b)) (fun j '(dst, carry) =>
          let! ai := get a i in
          let! bj := get b j in
          let! '(low, high) := widening_mul_rel ai bj in
          (* Now add carry. *)
          let '(low, overflow) := overflowing_add128 low carry in
          let! high := wrap_u128 (high + b2z overflow) in
          (* And now [dst[i + j]], and store the new low part there. *)
          let! d := get dst (i + j) in
          let '(low, overflow) := overflowing_add128 low d in
          let! high := wrap_u128 (high + b2z overflow) in
          let! dst := set dst (i + j) low in
          Ret (dst, high)) (dst, 0) in
      set dst (i + len b) carry) dst in
  let! exp := wrap_i32 (exp + 2) in
  let! p1 := wrap_i32 (as_i32 precision + 1) in
  let! exp := wrap_i32 (exp - p1) in
  let omsb := omsb dst in
  if omsb <=? precision then Ret (dst, exp, ExactlyZero)
  else shift_right_rel dst exp (omsb - precision).

(** src/ieee.rs:3202-3226 [short_div] *)
Definition short_div_rel (quotient dividend divisor : list Z) (olsb_divisor divisor_bits half : Z)
  : outcome (list Z * Loss) :=
  let! sh := wrap_usize olsb_divisor 1 in
  let! '(divisor, _, _) := shift_right_rel divisor 0 sh in
  let! d0 := get divisor 0 in
  let divisor := d0 mod 2 ^ half in
  let! top_limb := (match rev dividend with x :: _ => Ret x | [] => Panic end) in
  let! db1 := wrap_usize divisor_bits 1 in
  let! sh := wrap_usize LIMB_BITS db1 in
  let! rem := mask_shr top_limb sh in
  let rem := rem mod 2 ^ half in
  let! '(dividend, _) := shift_left_rel dividend 0 db1 in
  let! '(dividend, rem) :=
    each_chunk_rel dividend half (fun chunk rem =>
      let chunk := chunk mod 2 ^ half in
      let combined := Z.lor (Z.shiftl rem half) chunk in
      if divisor =? 0 then Panic
      else Ret ((combined / divisor) mod 2 ^ half, (combined mod divisor) mod 2 ^ half)) rem in
  assertb (len quotient =? len dividend) (
  let! rem2 := mask_shl rem 1 in
  let! loss := lost_fraction [rem2] [divisor] in
  Ret (dividend, loss)).

(** src/ieee.rs:3156-3247 [div] *)
Definition div_rel (quotient : list Z) (exp : Z) (dividend divisor : list Z) (precision : Z)
  : outcome (list Z * Z * Loss) :=
  (* Normalize the divisor. *)
  let! bits := wrap_usize precision (omsb divisor) in
  let! '(divisor, _) := shift_left_rel divisor 0 bits in
  let! exp := wrap_i32 (exp + as_i32 bits) in
  (* Normalize the dividend. *)
  let! bits := wrap_usize precision (omsb dividend) in
  let! '(dividend, exp) := shift_left_rel dividend exp bits in
  (* Division by 1. *)
  let olsb_divisor := olsb divisor in
  if olsb_divisor =? precision then
    assertb (len quotient =? len dividend) (Ret (dividend, exp, ExactlyZero))
  else
    let! c := cmp dividend divisor in
    let! '(dividend, exp) :=
      (match c with
       | Lt =>
         let! '(dividend, exp) := shift_left_rel dividend exp 1 in
         let! c := cmp dividend divisor in
         match c with
         | Lt => Panic
         | _ => Ret (dividend, exp)
         end
       | _ => Ret (dividend, exp)
       end) in
    let! o1 := wrap_usize olsb_divisor 1 in
    let! divisor_bits := wrap_usize precision o1 in
    if divisor_bits * 2 <=? 16 then
      let! '(q, loss) := short_div_rel quotient dividend divisor olsb_divisor divisor_bits 16 in
      Ret (q, exp, loss)
    else if divisor_bits * 2 <=? 32 then
      let! '(q, loss) := short_div_rel quotient dividend divisor olsb_divisor divisor_bits 32 in
      Ret (q, exp, loss)
    else if divisor_bits * 2 <=? 64 then
      let! '(q, loss) := short_div_rel quotient dividend divisor olsb_divisor divisor_bits 64 in
      Ret (q, exp, loss)
    else
      let! _ := slice_to quotient (limbs_for_bits precision) in
      let! quotient := for_each (zrange 0 (limbs_for_bits precision)) (fun i q => set q i 0) quotient in
      (* Long division. *)
      let! '(quotient, dividend) :=
        for_each (rev (zrange 0 precision)) (fun bit '(quotient, dividend) =>
          let! c := cmp dividend divisor in
          let! '(quotient, dividend) :=
            (match c with
             | Lt => Ret (quotient, dividend)
             | _ =>
               let! '(dividend, _) := sub dividend divisor 0 in
               let! quotient := set_bit_rel quotient bit in
               Ret (quotient, dividend)
             end) in
          let! '(dividend, _) := shift_left_rel dividend 0 1 in
          Ret (quotient, dividend)) (quotient, dividend) in
      let! loss := lost_fraction dividend divisor in
      Ret (quotient, exp, loss).

(** ** The functions of Ieee.v *)

(** src/ieee.rs:1787-1789 [is_denormal] *)
Definition is_denormal_rel (S : Semantics) (x : Float) : outcome bool :=
  if is_finite_non_zero x && (exp x =? MIN_EXP S) then
    let! b := get_bit_rel [sig x] (PRECISION S - 1) in
    Ret (negb b)
  else Ret false.

(** src/lib.rs:493-495 [is_normal] *)
Definition is_normal_rel (S : Semantics) (x : Float) : outcome bool :=
  let! d := is_denormal_rel S x in
  Ret (negb d && is_finite_non_zero x).

(** src/ieee.rs:177-235 [from_bits_default] *)
Definition from_bits_default_rel (S : Semantics) (bits : Z) : outcome Float :=
  assertb (PRECISION S <? BITS S) (
  let sgn := Z.land bits (2 ^ (BITS S - 1)) in
  let exponent := Z.land (Z.shiftr (Z.land bits (not128 sgn)) (BITS S - 1 - EXP_BITS S))
                         (2 ^ EXP_BITS S - 1) in
  let! e := wrap_i32 (as_i32 exponent + (MIN_EXP S - 1)) in
  let r := mkFloat (Z.land bits (2 ^ (PRECISION S - 1) - 1)) e Zero (negb (sgn =? 0)) in
  match find_map (try_category_from_special S r) [ZERO S; INFINITY S; NAN S] with
  | Some c => Ret (mkFloat (sig r) (exp r) c (sign r))
  | None =>
    if exp r =? MIN_EXP S - 1 then
      Ret (mkFloat (sig r) (MIN_EXP S) Normal (sign r))
    else
      let! l := set_bit_rel [sig r] (PRECISION S - 1) in
      let! s0 := get l 0 in
      Ret (mkFloat s0 (exp r) Normal (sign r))
  end).

(** src/ieee.rs:237-276 [to_bits_default] *)
Definition to_bits_default_rel (S : Semantics) (x : Float) : outcome Z :=
  assertb (PRECISION S <? BITS S) (
  let! integer_bit := get_bit_rel [sig x] (PRECISION S - 1) in
  let significand := Z.land (sig x) (2 ^ (PRECISION S - 1) - 1) in
  let! '(significand, exponent) :=
    (match category x with
     | Normal =>
       if (exp x =? MIN_EXP S) && negb integer_bit then
         let! e := wrap_i32 (exp x - 1) in Ret (significand, e)
       else Ret (significand, exp x)
     | Zero => Ret (sig (ZERO S), exp (ZERO S))
     | Infinity => Ret (sig (INFINITY S), exp (INFINITY S))
     | NaN => Ret (significand, exp (NAN S))
     end) in
  let! e := wrap_i32 (exponent - (MIN_EXP S - 1)) in
  let exponent := wrap128 e in
  let! a := mask_shl (b2z (is_negative x)) (BITS S - 1) in
  let! b := mask_shl exponent (PRECISION S - 1) in
  Ret (Z.lor (Z.lor a b) significand)).

(** src/ieee.rs:379-413 [from_bits_x87] *)
Definition from_bits_x87_rel (S : Semantics) (bits : Z) : outcome Float :=
  let sgn := Z.land bits (2 ^ (BITS S - 1)) in
  let exponent := Z.land (Z.shiftr (Z.land bits (not128 sgn)) (BITS S - 1 - EXP_BITS S))
                         (2 ^ EXP_BITS S - 1) in
  let! e := wrap_i32 (as_i32 exponent + (MIN_EXP S - 1)) in
  let sg := Z.land bits (2 ^ PRECISION S - 1) in
  let s := negb (sgn =? 0) in
  let integer_bit := Z.shiftr sg (PRECISION S - 1) in
  let top := 2 ^ (PRECISION S - 1) in
  if (e =? MIN_EXP S - 1) && (sg =? 0) then Ret (mkFloat sg e Zero s)
  else if (e =? MAX_EXP S + 1) && (sg =? top) then Ret (mkFloat sg e Infinity s)
  else if (e =? MAX_EXP S + 1) && negb (sg =? top)
       || negb (e =? MAX_EXP S + 1) && negb (e =? MIN_EXP S - 1) && (integer_bit =? 0)
  then Ret (mkFloat sg (MAX_EXP S + 1) NaN s)
  else if e =? MIN_EXP S - 1 then Ret (mkFloat sg (MIN_EXP S) Normal s)
  else Ret (mkFloat sg e Normal s).

(** src/ieee.rs:414-445 [to_bits_x87] *)
Definition to_bits_x87_rel (S : Semantics) (x : Float) : outcome Z :=
  let! integer_bit := get_bit_rel [sig x] (PRECISION S - 1) in
  let significand := Z.land (sig x) (2 ^ PRECISION S - 1) in
  let '(significand, exponent) :=
    match category x with
    | Normal =>
      if (exp x =? MIN_EXP S) && negb integer_bit then (significand, MIN_EXP S - 1)
      else (significand, exp x)
    | Zero => (0, MIN_EXP S - 1)
    | Infinity => (2 ^ (PRECISION S - 1), MAX_EXP S + 1)
    | NaN => (significand, MAX_EXP S + 1)
    end in
  let! e := wrap_i32 (exponent - (MIN_EXP S - 1)) in
  let exponent := wrap128 e in
  let! a := mask_shl (b2z (is_negative x)) (BITS S - 1) in
  let! b := mask_shl exponent (PRECISION S) in
  Ret (Z.lor (Z.lor a b) significand).

(** src/ieee.rs:1566-1569, 1672-1675 [from_bits] *)
Definition from_bits_rel (S : Semantics) (bits : Z) : outcome Float :=
  if X87 S then from_bits_x87_rel S bits else from_bits_default_rel S bits.

(** src/ieee.rs:1566-1569, 1672-1675 [to_bits] *)
Definition to_bits_rel (S : Semantics) (x : Float) : outcome Z :=
  if X87 S then to_bits_x87_rel S x else to_bits_default_rel S x.

(** src/ieee.rs:2019-2044 [round_away_from_zero] *)
Definition round_away_from_zero_rel (x : Float) (round : Round) (loss : Loss) (bit : Z) : outcome bool :=
  assertb (is_finite_non_zero x || is_zero x) (
  assertb (negb (loss_eqb loss ExactlyZero)) (
  match round with
  | NearestTiesToAway => Ret (loss_eqb loss ExactlyHalf || loss_eqb loss MoreThanHalf)
  | NearestTiesToEven =>
    if loss_eqb loss MoreThanHalf then Ret true
    else if loss_eqb loss ExactlyHalf && negb (category_eqb (category x) Zero) then
      get_bit_rel [sig x] bit
    else Ret false
  | TowardZero => Ret false
  | TowardPositive => Ret (negb (is_negative x))
  | TowardNegative => Ret (is_negative x)
  end)).

(** src/ieee.rs:2046-2168 [normalize_tail] *)
Definition normalize_tail_rel (S : Semantics) (x : Float) (omsb : Z) (round : Round) (loss : Loss)
  : outcome (Z * Float) :=
  if hits_nan_pattern S x then Ret (overflow_result_signed S round x)
  else if loss_eqb loss ExactlyZero then
    Ret (OK, if omsb =? 0 then copy_sign (ZERO S) x else x)
  else
    let finish x omsb : outcome (Z * Float) :=
      if omsb =? PRECISION S then Ret (INEXACT, x)
      else assertb (omsb <? PRECISION S)
             (Ret (Z.lor UNDERFLOW INEXACT, if omsb =? 0 then copy_sign (ZERO S) x else x)) in
    let! away := round_away_from_zero_rel x round loss 0 in
    if away then
      let x := if omsb =? 0 then set_sig_exp x (sig x) (MIN_EXP S) else x in
      let '(l, c) := increment [sig x] in
      assertb (c =? 0) (
      let! s0 := get l 0 in
      let x := set_sig_exp x s0 (exp x) in
      let omsb := Sig.omsb [sig x] in
      if omsb =? PRECISION S + 1 then
        if exp x =? MAX_EXP S then
          Ret (Z.lor OVERFLOW INEXACT, copy_sign (INFINITY S) x)
        else
          let! '(l, e, _) := shift_right_rel [sig x] (exp x) 1 in
          let! s0 := get l 0 in
          Ret (INEXACT, set_sig_exp x s0 e)
      else if hits_nan_pattern S x then Ret (overflow_result_signed S round x)
      else finish x omsb)
    else finish x omsb.

(** src/ieee.rs:2046-2168 [normalize] *)
Definition normalize_rel (S : Semantics) (x : Float) (round : Round) (loss : Loss) : outcome (Z * Float) :=
  if negb (is_finite_non_zero x) then Ret (OK, x)
  else
    let omsb := Sig.omsb [sig x] in
    if 0 <? omsb then
      let final_exp := sat32 (exp x + (as_i32 omsb - PRECISION S)) in
      if MAX_EXP S <? final_exp then
        Ret (overflow_result_signed S (round_negate_if round (is_negative x)) x)
      else
        let final_exp := if final_exp <? MIN_EXP S then MIN_EXP S else final_exp in
        if final_exp <? exp x then
          assertb (loss_eqb loss ExactlyZero) (
          let! exp_change := wrap_i32 (exp x - final_exp) in
          let! '(l, e) := shift_left_rel [sig x] (exp x) exp_change in
          let! s0 := get l 0 in
          Ret (OK, set_sig_exp x s0 e))
        else if exp x <? final_exp then
          let! exp_change := wrap_i32 (final_exp - exp x) in
          let! '(l, e, loss') := shift_right_rel [sig x] (exp x) exp_change in
          let! s0 := get l 0 in
          normalize_tail_rel S (set_sig_exp x s0 e) (saturating_usub omsb exp_change) round
            (combine loss' loss)
        else normalize_tail_rel S x omsb round loss
    else normalize_tail_rel S x omsb round loss.

(** src/ieee.rs:1009-1066 [add_r] *)
Definition add_r_rel (S : Semantics) (x y : Float) (round : Round) : outcome (Z * Float) :=
  let finish (status : Z) (x : Float) : outcome (Z * Float) :=
    if is_zero x && (negb (is_zero y) || xorb (is_negative x) (is_negative y)) then
      Ret (status, with_sign x (round_eqb round TowardNegative))
    else Ret (status, x) in
  match category x, category y with
  | NaN, _ | _, NaN => binop_result_from_either_nan S x y
  | Infinity, Infinity =>
    if xorb (is_negative x) (is_negative y) then finish INVALID_OP (NAN S) else finish OK x
  | _, Zero | Infinity, Normal => finish OK x
  | Zero, _ | _, Infinity => finish OK y
  | Normal, Normal =>
    let! '(l, e, s, loss) :=
      add_or_sub_rel [sig x] (exp x) (is_negative x) [sig y] (exp y) (is_negative y) in
    let! s0 := get l 0 in
    let x := with_sign (set_sig_exp x s0 e) s in
    let! '(status, x) := normalize_rel S x round loss in
    assertb (negb (is_zero x) || loss_eqb loss ExactlyZero) (finish status x)
  end.

(** src/ieee.rs:1070-1078 [sub_r] *)
Definition sub_r_rel (S : Semantics) (x y : Float) (round : Round) : outcome (Z * Float) :=
  match category x, category y with
  | NaN, _ | _, NaN => binop_result_from_either_nan S x y
  | _, _ => add_r_rel S x (neg y) round
  end.

(** src/ieee.rs:1080-1111 [mul_r] *)
Definition mul_r_rel (S : Semantics) (x y : Float) (round : Round) : outcome (Z * Float) :=
  let x := negate_if x (is_negative y) in
  match category x, category y with
  | NaN, _ | _, NaN => binop_result_from_either_nan S (negate_if x (is_negative y)) y
  | Zero, Infinity | Infinity, Zero => Ret (INVALID_OP, NAN S)
  | Infinity, _ | _, Infinity => Ret (OK, copy_sign (INFINITY S) x)
  | Zero, _ | _, Zero => Ret (OK, copy_sign (ZERO S) x)
  | Normal, Normal =>
    let! e := wrap_i32 (exp x + exp y) in
    let! '(wide, e, loss) := mul_rel [0; 0] e [sig x] [sig y] (PRECISION S) in
    let! s0 := get wide 0 in
    let! '(status, r) := normalize_rel S (set_sig_exp x s0 e) round loss in
    Ret (if negb (loss_eqb loss ExactlyZero) then Z.lor status INEXACT else status, r)
  end.

(** src/ieee.rs:1113-1232 [mul_add_r] *)
Definition mul_add_r_rel (S : Semantics) (x multiplicand addend : Float) (round : Round)
  : outcome (Z * Float) :=
  if negb (is_finite_non_zero x) || negb (is_finite_non_zero multiplicand) || negb (is_finite addend)
  then
    let! '(status, x) :=
      (if is_finite_non_zero x && is_finite_non_zero multiplicand then
         assertb (negb (is_finite addend)) (Ret (OK, x))
       else mul_r_rel S x multiplicand round) in
    if status =? OK then add_r_rel S x addend round else Ret (status, x)
  else
    let x := negate_if x (is_negative multiplicand) in
    assertb (limbs_for_bits (PRECISION S * 2 + 1) <=? 2) (
    let! '(lo, hi) := widening_mul_rel (sig x) (sig multiplicand) in
    let wide := [lo; hi] in
    let omsb := Sig.omsb wide in
    let! e := wrap_i32 (exp x + exp multiplicand) in
    let! e := wrap_i32 (e + 2) in
    let! '(wide, e, s, loss, omsb) :=
      (if is_non_zero addend then
         let ext_precision := 2 * PRECISION S + 1 in
         let! '(wide, e) :=
           (if negb (omsb =? ext_precision - 1) then
              assertb (omsb <? ext_precision) (
              let! n := wrap_usize (ext_precision - 1) omsb in
              shift_left_rel wide e n)
            else Ret (wide, e)) in
         let! '(ext_addend, _) := shift_left_rel [sig addend; 0] 0 (ext_precision - 1 - PRECISION S) in
         let! ae := wrap_i32 (exp addend + 1) in
         let! '(wide, e, s, loss) :=
           add_or_sub_rel wide e (is_negative x) ext_addend ae (is_negative addend) in
         Ret (wide, e, s, loss, Sig.omsb wide)
       else Ret (wide, e, is_negative x, ExactlyZero, omsb)) in
    let x := with_sign x s in
    let! e := wrap_i32 (e - (PRECISION S + 1)) in
    let! '(wide, e, loss) :=
      (if PRECISION S <? omsb then
         let! '(wide, e, l) := shift_right_rel wide e (omsb - PRECISION S) in
         Ret (wide, e, combine l loss)
       else Ret (wide, e, loss)) in
    let! s0 := get wide 0 in
    let! '(status, x) := normalize_rel S (set_sig_exp x s0 e) round loss in
    let status := if negb (loss_eqb loss ExactlyZero) then Z.lor status INEXACT else status in
    if is_zero x && (Z.land status UNDERFLOW =? 0) && xorb (is_negative x) (is_negative addend) then
      Ret (status, with_sign x (round_eqb round TowardNegative))
    else Ret (status, x)).

(** src/ieee.rs:1234-1266 [div_r] *)
Definition div_r_rel (S : Semantics) (x y : Float) (round : Round) : outcome (Z * Float) :=
  let x := negate_if x (is_negative y) in
  match category x, category y with
  | NaN, _ | _, NaN => binop_result_from_either_nan S (negate_if x (is_negative y)) y
  | Infinity, Infinity | Zero, Zero => Ret (INVALID_OP, NAN S)
  | Infinity, _ | Zero, _ => Ret (OK, x)
  | _, Infinity => Ret (OK, copy_sign (ZERO S) x)
  | _, Zero => Ret (DIV_BY_ZERO, copy_sign (INFINITY S) x)
  | Normal, Normal =>
    let! e := wrap_i32 (exp x - exp y) in
    let! '(q, e, loss) := div_rel [sig x] e [sig x] [sig y] (PRECISION S) in
    let! s0 := get q 0 in
    let! '(status, r) := normalize_rel S (set_sig_exp x s0 e) round loss in
    Ret (if negb (loss_eqb loss ExactlyZero) then Z.lor status INEXACT else status, r)
  end.

(** src/ieee.rs:1833-1851 [ilogb] *)
Definition ilogb_rel (S : Semantics) (x : Float) : outcome Z :=
  if is_nan x then Ret IEK_NAN
  else if is_zero x then Ret IEK_ZERO
  else if is_infinite x then Ret IEK_INF
  else
    let! d := is_denormal_rel S x in
    if negb d then Ret (exp x)
    else
      let sig_bits := PRECISION S - 1 in
      let! e := wrap_i32 (exp x + sig_bits) in
      let! '(_, r) := normalize_rel S (set_sig_exp x (sig x) e) NearestTiesToEven ExactlyZero in
      wrap_i32 (exp r - sig_bits).

(** src/ieee.rs:1853-1871 [scalbn_r] *)
Definition scalbn_r_rel (S : Semantics) (x : Float) (n : Z) (round : Round) : outcome Float :=
  let sig_bits := PRECISION S - 1 in
  let max_change := MAX_EXP S - (MIN_EXP S - sig_bits) + 1 in
  let exp_change := Z.min (Z.max n (- max_change - 1)) max_change in
  let x := set_sig_exp x (sig x) (sat32 (exp x + exp_change)) in
  let! '(_, x) := normalize_rel S x round ExactlyZero in
  if is_nan x then let! '(_, x) := result_from_nan S x in Ret x
  else Ret x.

(** src/lib.rs:592-594 [scalbn] *)
Definition scalbn_rel (S : Semantics) (x : Float) (n : Z) : outcome Float :=
  scalbn_r_rel S x n NearestTiesToEven.

(** src/ieee.rs:1873-1893 [frexp_r] *)
Definition frexp_r_rel (S : Semantics) (x : Float) (round : Round) : outcome (Float * Z) :=
  let! e := ilogb_rel S x in
  if e =? IEK_NAN then
    let! '(_, x) := result_from_nan S x in Ret (x, e)
  else if e =? IEK_INF then Ret (x, e)
  else
    let! e := (if e =? IEK_ZERO then Ret 0 else wrap_i32 (e + 1)) in
    let! n := wrap_i32 (- e) in
    let! r := scalbn_r_rel S x n round in
    Ret (r, e).

(** src/ieee.rs:1382-1398 [c_fmod_loop] *)
Fixpoint c_fmod_loop_rel (fuel : nat) (S : Semantics) (x y : Float) : outcome Float :=
  match fuel with
  | O => Diverge
  | Datatypes.S fuel =>
    let! go :=
      (if is_finite_non_zero x && is_finite_non_zero y then
         let! c := cmp_abs_normal x y in
         Ret (negb (ord_eqb c Lt))
       else Ret false) in
    if go then
      let! ex := ilogb_rel S x in
      let! ey := ilogb_rel S y in
      let! e := wrap_i32 (ex - ey) in
      let! v := scalbn_rel S y e in
      let! lower :=
        (if is_nan v then Ret true
         else let! c := cmp_abs_normal x v in Ret (ord_eqb c Lt)) in
      let! v :=
        (if lower then let! e1 := wrap_i32 (e - 1) in scalbn_rel S y e1 else Ret v) in
      let v := copy_sign v x in
      let! '(status, x) := sub_r_rel S x v NearestTiesToEven in
      assertb (status =? OK) (c_fmod_loop_rel fuel S x y)
    else Ret x
  end.

(** src/ieee.rs:1371-1407 [c_fmod] *)
Definition c_fmod_rel (S : Semantics) (x y : Float) : outcome (Z * Float) :=
  match category x, category y with
  | NaN, _ | _, NaN => binop_result_from_either_nan S x y
  | Infinity, _ | _, Zero => Ret (INVALID_OP, NAN S)
  | Zero, _ | _, Infinity => Ret (OK, x)
  | Normal, Normal =>
    let! r := c_fmod_loop_rel (c_fmod_fuel S) S x y in
    Ret (OK, if is_zero r then copy_sign r x else r)
  end.

(** src/ieee.rs:1338-1350 [lossless_2x] *)
Definition lossless_2x_rel (S : Semantics) (x : Float) : outcome Float :=
  let! e := wrap_i32 (exp x + 1) in
  let x := set_sig_exp x (sig x) e in
  if MAX_EXP S <=? exp x then Ret x
  else
    let! '(status, x) := normalize_rel S x NearestTiesToEven ExactlyZero in
    assertb (status =? OK) (Ret x).

(** src/ieee.rs:1268-1369 [ieee_rem] *)
Definition ieee_rem_rel (S : Semantics) (x y : Float) : outcome (Z * Float) :=
  match category x, category y with
  | NaN, _ | _, NaN => binop_result_from_either_nan S x y
  | Infinity, _ | _, Zero => Ret (INVALID_OP, NAN S)
  | Zero, _ | _, Infinity => Ret (OK, x)
  | Normal, Normal =>
    let orig := x in
    let p := y in
    let! '(status, p2) := add_r_rel S p p NearestTiesToEven in
    let! x :=
      (if status =? OK then
         let! '(status, x) := c_fmod_rel S x p2 in
         assertb (status =? OK) (Ret x)
       else Ret x) in
    let p := abs p in
    let x := abs x in
    let! x2 := lossless_2x_rel S x in
    let! b := gt_f x2 p in
    let! x :=
      (if b then
         let! '(status, x) := sub_r_rel S x p NearestTiesToEven in
         assertb (status =? OK) (
         let! x2 := lossless_2x_rel S x in
         let! b := ge_f x2 p in
         if b then
           let! '(status, x) := sub_r_rel S x p NearestTiesToEven in
           assertb (status =? OK) (Ret x)
         else Ret x)
       else Ret x) in
    if is_zero x then Ret (OK, copy_sign x orig)
    else Ret (OK, negate_if x (is_negative orig))
  end.

(** src/ieee.rs:1571-1580 [from_u128_r] *)
Definition from_u128_r_rel (S : Semantics) (input : Z) (round : Round) : outcome (Z * Float) :=
  normalize_rel S (mkFloat input (PRECISION S - 1) Normal false) round ExactlyZero.

(** src/lib.rs:356-358 [from_u128] *)
Definition from_u128_rel (S : Semantics) (input : Z) : outcome (Z * Float) :=
  from_u128_r_rel S input NearestTiesToEven.

(** src/lib.rs:345-351 [from_i128_r] *)
Definition from_i128_r_rel (S : Semantics) (input : Z) (round : Round) : outcome (Z * Float) :=
  if input <? 0 then
    let! '(status, r) := from_u128_r_rel S (wrap128 (- input)) (round_neg round) in
    Ret (status, neg r)
  else from_u128_r_rel S input round.

(** src/ieee.rs:1677-1757 [to_u128_r] *)
Definition to_u128_r_rel (S : Semantics) (x : Float) (width : Z) (round : Round)
  : outcome (Z * Z * bool) :=
  let! overflow :=
    (if is_negative x then Ret 0
     else
       let! n := wrap_usize 128 width in
       mask_shr (not128 0) n) in
  match category x with
  | NaN => Ret (INVALID_OP, 0, false)
  | Infinity => Ret (INVALID_OP, overflow, false)
  | Zero => Ret (OK, 0, negb (is_negative x))
  | Normal =>
    (* Step 1 *)
    let step2 (r truncated_bits : Z) : outcome (Z * Z * bool) :=
      let! '(r, loss, overflowed) :=
        (if 0 <? truncated_bits then
           let! loss := through_truncation_rel [sig x] truncated_bits in
           let! away :=
             (if negb (loss_eqb loss ExactlyZero) then
                round_away_from_zero_rel x round loss truncated_bits
              else Ret false) in
           if away then
             let r := wrap128 (r + 1) in
             Ret (r, loss, r =? 0)
           else Ret (r, loss, false)
         else Ret (r, ExactlyZero, false)) in
      if overflowed then Ret (INVALID_OP, overflow, false)
      (* Step 3 *)
      else if overflow <? r then Ret (INVALID_OP, overflow, false)
      else if loss_eqb loss ExactlyZero then Ret (OK, r, true)
      else Ret (INEXACT, r, false) in
    if exp x <? 0 then
      let! ne := wrap_i32 (- exp x) in
      step2 0 (PRECISION S - 1 + ne)
    else
      let bits := exp x + 1 in
      if width <? bits then Ret (INVALID_OP, overflow, false)
      else if bits <? PRECISION S then
        let! r := mask_shr (sig x) (PRECISION S - bits) in
        step2 r (PRECISION S - bits)
      else
        let! r := mask_shl (sig x) (bits - PRECISION S) in
        step2 r 0
  end.

(** src/lib.rs:377-401 [to_i128_r]; [-1 << (width - 1)] masks its amount too *)
Definition to_i128_r_rel (S : Semantics) (x : Float) (width : Z) (round : Round)
  : outcome (Z * Z * bool) :=
  if is_negative x then
    let! '(status, r, is_exact) := to_u128_r_rel S (neg x) width (round_neg round) in
    let! w1 := wrap_usize width 1 in
    let! lim := mask_shl 1 w1 in
    if lim <? r then Ret (INVALID_OP, - 2 ^ (w1 mod 128), false)
    else Ret (status, as_i128 (wrap128 (- r)), is_exact)
  else
    let! w1 := wrap_usize width 1 in
    let! '(status, r, is_exact) := to_u128_r_rel S x w1 round in
    Ret (status, as_i128 r, is_exact).

(** src/ieee.rs:1409-1460 [round_to_integral] *)
Definition round_to_integral_rel (S : Semantics) (x : Float) (round : Round) : outcome (Z * Float) :=
  match category x with
  | NaN => result_from_nan S x
  | Infinity => Ret (OK, x)
  | Zero => Ret (OK, x)
  | Normal =>
    let! e1 := wrap_i32 (exp x + 1) in
    if PRECISION S <=? e1 then Ret (OK, x)
    else
      assertb (PRECISION S <=? 128) (
      let! '(status, magic_const) := from_u128_rel S (2 ^ (PRECISION S - 1)) in
      assertb (status =? OK) (
      let magic_const := copy_sign magic_const x in
      let! '(status, r) := add_r_rel S x magic_const round in
      let! '(_, r) := sub_r_rel S r magic_const round in
      Ret (status, copy_sign r x)))
  end.

(** src/lib.rs:568-574 [is_integer] *)
Definition is_integer_rel (S : Semantics) (x : Float) : outcome bool :=
  if negb (is_finite x) then Ret false
  else
    let! '(_, r) := round_to_integral_rel S x TowardZero in
    Ret (bitwise_eq r x).

(** src/ieee.rs:1462-1564 [next_up] *)
Definition next_up_rel (S : Semantics) (x : Float) : outcome (Z * Float) :=
  match category x with
  | Infinity => if is_negative x then Ret (OK, neg (largest S)) else Ret (OK, x)
  | NaN =>
    if is_signaling S x then Ret (INVALID_OP, copy_sign (NAN S) x) else Ret (OK, x)
  | Zero => Ret (OK, SMALLEST S)
  | Normal =>
    if is_smallest S x && is_negative x then Ret (OK, neg (ZERO S))
    else if is_largest S x && negb (is_negative x) then Ret (OK, INFINITY S)
    else
      let sig_mask := 2 ^ (PRECISION S - 1) - 1 in
      if is_negative x then
        let crossing := negb (exp x =? MIN_EXP S) && (Z.land (sig x) sig_mask =? 0) in
        let '(l, _) := decrement [sig x] in
        if crossing then
          let! l := set_bit_rel l (PRECISION S - 1) in
          let! s0 := get l 0 in
          let! e := wrap_i32 (exp x - 1) in
          Ret (OK, set_sig_exp x s0 e)
        else
          let! s0 := get l 0 in
          Ret (OK, set_sig_exp x s0 (exp x))
      else
        let! d := is_denormal_rel S x in
        let crossing := negb d && (Z.land (sig x) sig_mask =? sig_mask) in
        if crossing then
          let! l := set_bit_rel [0] (PRECISION S - 1) in
          let! s0 := get l 0 in
          assertb (negb (exp x =? MAX_EXP S)) (
          let! e := wrap_i32 (exp x + 1) in
          Ret (OK, set_sig_exp x s0 e))
        else
          let '(l, _) := increment [sig x] in
          let! s0 := get l 0 in
          Ret (OK, set_sig_exp x s0 (exp x))
  end.

(** src/lib.rs:324-326 [next_down] *)
Definition next_down_rel (S : Semantics) (x : Float) : outcome (Z * Float) :=
  let! '(status, r) := next_up_rel S (neg x) in
  Ret (status, neg r).

(** src/ieee.rs:1801-1831 [get_exact_inverse] *)
Definition get_exact_inverse_rel (S : Semantics) (x : Float) : outcome (option Float) :=
  if negb (is_finite_non_zero x) then Ret None
  else if negb (sig x =? 2 ^ (PRECISION S - 1)) then Ret None
  else
    let! '(_, one) := from_u128_rel S 1 in
    let! '(status, reciprocal) := div_r_rel S one x NearestTiesToEven in
    if negb (status =? OK) then Ret None
    else
      let! d := is_denormal_rel S reciprocal in
      if d then Ret None
      else
        assertb (is_finite_non_zero reciprocal) (
        assertb (sig reciprocal =? 2 ^ (PRECISION S - 1)) (Ret (Some reciprocal))).

(** src/ieee.rs:1931-1948 [convert_adjust] *)
Definition convert_adjust_rel (S T : Semantics) (x : Float) : outcome (Z * Z) :=
  let shift := PRECISION T - PRECISION S in
  if (shift <? 0) && is_finite_non_zero x then
    let omsb := as_i32 (Sig.omsb [sig x]) in
    let exp_change := omsb - PRECISION S in
    let! e1 := wrap_i32 (exp x + exp_change) in
    let! exp_change :=
      (if e1 <? MIN_EXP T then wrap_i32 (MIN_EXP T - exp x) else Ret exp_change) in
    let exp_change := if exp_change <? shift then shift else exp_change in
    if exp_change <? 0 then
      let! e := wrap_i32 (exp x + exp_change) in
      Ret (shift - exp_change, e)
    else if omsb <=? - shift then
      let exp_change := omsb + shift - 1 in
      let! e := wrap_i32 (exp x + exp_change) in
      Ret (shift - exp_change, e)
    else Ret (shift, exp x)
  else Ret (shift, exp x).

(** src/ieee.rs:1897-1997 [convert_r] *)
Definition convert_r_rel (S T : Semantics) (x : Float) (round : Round) : outcome (Z * Float * bool) :=
  let loses_x87_pseudo_nan :=
    is_x87_double_extended S && negb (is_x87_double_extended T)
    && category_eqb (category x) NaN
    && negb (Z.land (sig x) (QNAN_SIGNIFICAND S) =? QNAN_SIGNIFICAND S) in
  let! '(status, x) := (if is_nan x then result_from_nan S x else Ret (OK, x)) in
  let! '(shift, e) := convert_adjust_rel S T x in
  let! '(l, loss) :=
    (if (shift <? 0)
        && (is_finite_non_zero x
            || category_eqb (category x) NaN && negb (NAN_PAYLOAD_MASK S =? 0)) then
       let! ns := wrap_i32 (- shift) in
       let! '(l, _, loss) := shift_right_rel [sig x] 0 ns in
       Ret (l, loss)
     else Ret ([sig x], ExactlyZero)) in
  let! l :=
    (if (0 <? shift) && (is_finite_non_zero x || category_eqb (category x) NaN) then
       let! '(l, _) := shift_left_rel l 0 shift in Ret l
     else Ret l) in
  let! s0 := get l 0 in
  let! '(status, r, loses_info) :=
    (match category x with
     | Normal =>
       let! '(st, r) := normalize_rel T (mkFloat s0 e (category x) (is_negative x)) round loss in
       Ret (Z.lor status st, r, false)
     | NaN =>
       Ret (status,
            with_sign (qnan T (Some s0)) (is_negative x),
            negb (loss_eqb loss ExactlyZero) || loses_x87_pseudo_nan
            || negb (NAN_PAYLOAD_MASK S =? 0) && (NAN_PAYLOAD_MASK T =? 0))
     | Infinity => Ret (status, with_sign (INFINITY T) (is_negative x), false)
     | Zero => Ret (status, with_sign (ZERO T) (is_negative x), false)
     end) in
  let status :=
    if (category_eqb (category x) Infinity || category_eqb (category x) Zero)
       && (negb (category_eqb (category r) (category x)) || xorb (is_negative r) (is_negative x))
    then Z.lor status INEXACT else status in
  let loses_info := loses_info || negb (Z.ldiff status INVALID_OP =? OK) in
  Ret (status, r, loses_info).
