(** * ReleaseTop.v -- the rest of the crate built without overflow checks (see
    Release.v): strings, [Display], pairs of floats and the operators
    (src/ieee.rs:525-807, 1582-1670, 2170-2694; src/ppc.rs; src/lib.rs). *)
From Coq Require Import ZArith List Bool String.
From Verif Require Import Machine Sig Ieee Parse Fmt Ppc Ops OpsPair Release.
Import ListNotations.
Local Open Scope Z_scope.


(** ** The functions of Parse.v *)

(** src/ieee.rs:2196-2230 [hex_digit] *)
Definition hex_digit_rel (p v : Z) (st : hex_state) : outcome hex_state :=
  match h_first st, v with
  | None, 0 => Ret (mkHex (h_sig st) (h_exp st) true (h_has_exp st) (h_bit_pos st) (h_loss st) None (h_dot st))
  | f, _ =>
    let first := match f with None => p | Some q => q end in
    let bit_pos := h_bit_pos st - 4 in
    if 0 <=? bit_pos then
      let! d := mask_shl v bit_pos in
      Ret (mkHex (Z.lor (h_sig st) d) (h_exp st) true (h_has_exp st) bit_pos (h_loss st) (Some first) (h_dot st))
    else
      let loss :=
        match h_loss st with
        | Some l =>
          if negb (v =? 0) then
            let l := if loss_eqb l ExactlyZero then LessThanHalf else l in
            let l := if loss_eqb l ExactlyHalf then MoreThanHalf else l in
            l
          else l
        | None =>
          if v =? 0 then ExactlyZero
          else if v <=? 7 then LessThanHalf
          else if v =? 8 then ExactlyHalf
          else MoreThanHalf
        end in
      Ret (mkHex (h_sig st) (h_exp st) true (h_has_exp st) bit_pos (Some loss) (Some first) (h_dot st))
  end.

(** src/ieee.rs:2188-2266 [hex_loop] *)
Fixpoint hex_loop_rel (n p : Z) (s : list Z) (st : hex_state) : outcome (result hex_state) :=
  match s with
  | [] => Ret (Ok st)
  | c :: r =>
    if c =? ch "." then
      if negb (h_dot st =? n) then Ret (Err StringContainsMultipleDots)
      else hex_loop_rel n (p + 1) r
             (mkHex (h_sig st) (h_exp st) (h_any_digits st) (h_has_exp st) (h_bit_pos st)
                (h_loss st) (h_first st) p)
    else
      match to_digit 16 c with
      | Some v =>
        let! st := hex_digit_rel p v st in
        hex_loop_rel n (p + 1) r st
      | None =>
        if (c =? ch "p") || (c =? ch "P") then
          if negb (h_any_digits st) then Ret (Err SignificandHasNoDigits)
          else
            let dot := if h_dot st =? n then p else h_dot st in
            let '(exp_minus, r) := exp_sign r in
            match exp_digits r (h_has_exp st) (h_exp st) with
            | Err e => Ret (Err e)
            | Ok (has_exp, e) =>
              if negb has_exp then Ret (Err ExponentHasNoDigits)
              else
                let! e := (if exp_minus then wrap_i32 (- e) else Ret e) in
                Ret (Ok (mkHex (h_sig st) e (h_any_digits st) has_exp (h_bit_pos st)
                           (h_loss st) (h_first st) dot))
            end
        else Ret (Err InvalidCharacterInSignificand)
      end
  end.

(** src/ieee.rs:2170-2298 [from_hexadecimal_string]; [try_from(..).unwrap()] panics in every build *)
Definition from_hexadecimal_string_rel (S : Semantics) (s : list Z) (round : Round)
  : outcome (result (Z * Float)) :=
  let? st := hex_loop_rel (len s) 0 s (mkHex 0 0 false false LIMB_BITS None None (len s)) in
  if negb (h_any_digits st) then Ret (Err SignificandHasNoDigits)
  else if negb (h_has_exp st) then Ret (Err HexStringsRequireAnExponent)
  else
    match h_first st with
    | None => Ret (Ok (OK, ZERO S))
    | Some first =>
      let dot := h_dot st in
      let! adj :=
        (if first <? dot then chk32 (dot - first)
         else
           let! d := wrap_usize first dot in
           let! d := wrap_usize d 1 in
           let! d := chk32 d in
           wrap_i32 (- d)) in
      let adj := sat32 (sat32 (sat32 (sat32 (adj * 4) - 1) + PRECISION S) - LIMB_BITS) in
      let e := sat32 (h_exp st + adj) in
      let loss := match h_loss st with Some l => l | None => ExactlyZero end in
      let! r := normalize_rel S (mkFloat (h_sig st) e Normal false) round loss in
      Ret (Ok r)
    end.

(** src/ieee.rs:2321-2373 [dec_loop] *)
Fixpoint dec_loop_rel (n p : Z) (s : list Z) (st : dec_state) : outcome (result dec_state) :=
  match s with
  | [] => Ret (Ok st)
  | c :: r =>
    if c =? ch "." then
      if negb (d_dot st =? n) then Ret (Err StringContainsMultipleDots)
      else dec_loop_rel n (p + 1) r (mkDec (d_any_digits st) (d_exp st) (d_first st) (d_last st) p)
    else
      match to_digit 10 c with
      | Some v =>
        dec_loop_rel n (p + 1) r
          (if negb (v =? 0) then
             mkDec true (d_exp st)
               (match d_first st with None => Some p | f => f end) p (d_dot st)
           else mkDec true (d_exp st) (d_first st) (d_last st) (d_dot st))
      | None =>
        if (c =? ch "e") || (c =? ch "E") then
          if negb (d_any_digits st) then Ret (Err SignificandHasNoDigits)
          else
            let dot := if d_dot st =? n then p else d_dot st in
            let '(exp_minus, r) := exp_sign r in
            match exp_digits r false (d_exp st) with
            | Err e => Ret (Err e)
            | Ok (any_exp_digits, e) =>
              assertb (any_exp_digits || (e =? 0)) (
              let! e := (if exp_minus then wrap_i32 (- e) else Ret e) in
              Ret (Ok (mkDec (d_any_digits st) e (d_first st) (d_last st) dot)))
            end
        else Ret (Err InvalidCharacterInSignificand)
      end
  end.

(** src/ieee.rs:2442-2457 [dec_chunk] *)
Fixpoint dec_chunk_rel (chars : list Z) (val multiplier : Z) : outcome (Z * Z * list Z) :=
  match chars with
  | [] => Ret (val, multiplier, [])
  | c :: r =>
    if c =? ch "." then dec_chunk_rel r val multiplier
    else
      match to_digit 10 c with
      | None => Panic
      | Some d =>
        let! multiplier := wrap_u128 (multiplier * 10) in
        let! v10 := wrap_u128 (val * 10) in
        let! val := wrap_u128 (v10 + d) in
        if (LIMB_MAX - 9) / 10 <? multiplier then Ret (val, multiplier, r)
        else dec_chunk_rel r val multiplier
      end
  end.

(** src/ieee.rs:2465-2480 [mul_add_limbs] *)
Fixpoint mul_add_limbs_rel (limbs : list Z) (multiplier carry : Z) : outcome (list Z) :=
  match limbs with
  | [] => Ret (if 0 <? carry then [carry] else [])
  | x :: r =>
    let! '(low, high) := widening_mul_rel x multiplier in
    let '(low, overflow) := overflowing_add128 low carry in
    let! high := wrap_u128 (high + b2z overflow) in
    let! r := mul_add_limbs_rel r multiplier high in
    Ret (low :: r)
  end.

(** src/ieee.rs:2437-2481 [dec_sig_loop] *)
Fixpoint dec_sig_loop_rel (fuel : nat) (chars dec_sig : list Z) : outcome (list Z) :=
  match fuel with
  | O => Diverge
  | Datatypes.S fuel =>
    let! '(val, multiplier, chars) := dec_chunk_rel chars 0 1 in
    if multiplier =? 1 then Ret dec_sig
    else
      let! dec_sig := mul_add_limbs_rel dec_sig multiplier val in
      dec_sig_loop_rel fuel chars dec_sig
  end.

(** src/ieee.rs:2499-2503 [mul_into] *)
Definition mul_into_rel (scratch a b : list Z) : outcome (list Z) :=
  let n := len a + len b in
  let scratch := resize scratch n in
  let! '(scratch, _, _) := mul_rel scratch 0 a b (n * LIMB_BITS) in
  Ret (pop_zeros scratch).

(** src/ieee.rs:2497-2516 [pow5_loop] *)
Fixpoint pow5_loop_rel (fuel : nat) (power : Z) (r r_scratch p5 p5_scratch : list Z)
  : outcome (list Z * list Z * list Z * list Z) :=
  match fuel with
  | O => Diverge
  | Datatypes.S fuel =>
    if 0 <? power then
      let! p5_scratch := mul_into_rel p5_scratch p5 p5 in
      let '(p5, p5_scratch) := (p5_scratch, p5) in
      let! '(r, r_scratch) :=
        (if negb (Z.land power 1 =? 0) then
           let! r_scratch := mul_into_rel r_scratch r p5 in
           Ret (r_scratch, r)
         else Ret (r, r_scratch)) in
      pow5_loop_rel fuel (Z.shiftr power 1) r r_scratch p5 p5_scratch
    else Ret (r, r_scratch, p5, p5_scratch)
  end.

(** src/ieee.rs:2485-2519 [pow5_full] *)
Definition pow5_full_rel (dec_exp : Z) : outcome (list Z * list Z * list Z * list Z) :=
  let! a := wrap_i32 (Z.abs dec_exp) in
  let! p4 := get FIRST_EIGHT_POWERS 4 in
  let! r0 := get FIRST_EIGHT_POWERS (Z.land a 7) in
  pow5_loop_rel 64 (Z.shiftr a 3) [r0] [] [p4] [].

(** src/ieee.rs:2527-2588 [calc_normal_from_limbs] *)
Definition calc_normal_from_limbs_rel (calc_precision : Z) (buf limbs : list Z)
  : outcome (list Z * Z * Z) :=
  let buf := resize buf (limbs_for_bits calc_precision) in
  let! '(buf, loss, exp) := from_limbs_rel buf limbs calc_precision in
  let omsb := Sig.omsb buf in
  assertb (negb (omsb =? 0)) (
  let! d := wrap_i32 (as_i32 omsb - as_i32 calc_precision) in
  let final_exp := sat32 (exp + d) in
  if final_exp <? exp then
    assertb (loss_eqb loss ExactlyZero) (
    let! exp_change := wrap_i32 (exp - final_exp) in
    let! '(buf, exp) := shift_left_rel buf exp exp_change in
    Ret (buf, OK, exp))
  else
    let! '(buf, exp, loss, omsb) :=
      (if exp <? final_exp then
         let! exp_change := wrap_i32 (final_exp - exp) in
         let! '(buf, exp, l) := shift_right_rel buf exp exp_change in
         Ret (buf, exp, combine l loss, saturating_usub omsb exp_change)
       else Ret (buf, exp, loss, omsb)) in
    assertb (omsb =? calc_precision) (
    if loss_eqb loss ExactlyZero then Ret (buf, OK, exp)
    else
      let! up :=
        (if loss_eqb loss MoreThanHalf then Ret true
         else if loss_eqb loss ExactlyHalf then get_bit_rel buf 0
         else Ret false) in
      if up then
        let '(buf, c) := increment buf in
        assertb (c =? 0) (
        if Sig.omsb buf =? calc_precision + 1 then
          let! '(buf, exp, _) := shift_right_rel buf exp 1 in
          Ret (buf, INEXACT, exp)
        else Ret (buf, INEXACT, exp))
      else Ret (buf, INEXACT, exp))).

(** src/ieee.rs:2648-2676 [ulps_from_boundary] *)
Definition ulps_from_boundary_rel (sig_calc : list Z) (calc_precision used_bits : Z) (round : Round)
  : outcome Z :=
  let! b := wrap_usize calc_precision used_bits in
  let! bits := wrap_usize b 1 in
  let i := bits / LIMB_BITS in
  let! x := get sig_calc i in
  let! mask := mask_shr LIMB_MAX (LIMB_BITS - 1 - bits mod LIMB_BITS) in
  let limb := Z.land x mask in
  let! boundary :=
    (match round with
     | NearestTiesToEven | NearestTiesToAway => mask_shl 1 (bits mod LIMB_BITS)
     | _ => Ret 0
     end) in
  if i =? 0 then
    let delta := wrap128 (limb - boundary) in
    Ret (Z.min delta (wrap128 (- delta)))
  else
    let! s := slice_to sig_calc i in
    let! middle := slice_from s 1 in
    let! s0 := get sig_calc 0 in
    if limb =? boundary then
      if negb (is_all_zeros middle) then Ret LIMB_MAX else Ret s0
    else if limb =? wrap128 (boundary - 1) then
      if existsb (fun x => negb (wrap128 (- x) =? 1)) middle then Ret LIMB_MAX
      else Ret (wrap128 (- s0))
    else Ret LIMB_MAX.

(** src/ieee.rs:2522-2693 [dec_attempts] *)
Fixpoint dec_attempts_rel (fuel : nat) (S : Semantics) (attempt : Z)
    (dec_sig pow5 : list Z) (dec_exp : Z) (round : Round)
    (sig_calc pow5_calc sig_scratch : list Z) : outcome (Z * Float) :=
  match fuel with
  | O => Diverge
  | Datatypes.S fuel =>
    let calc_precision := Z.shiftl LIMB_BITS attempt - 1 in
    let! '(sig_calc, status, exp) := calc_normal_from_limbs_rel calc_precision sig_calc dec_sig in
    let! '(pow5_calc, pow5_status, pow5_exp) :=
      calc_normal_from_limbs_rel calc_precision pow5_calc pow5 in
    let! exp := wrap_i32 (exp + dec_exp) in
    let used_bits := PRECISION S in
    let! truncated_bits := wrap_usize calc_precision used_bits in
    let half_ulp_err1 := b2z (negb (status =? OK)) in
    let! '(sig_calc, sig_scratch, pow5_calc, exp, calc_loss, half_ulp_err2, used_bits, truncated_bits) :=
      (if 0 <=? dec_exp then
         let! exp := wrap_i32 (exp + pow5_exp) in
         let sig_scratch := resize sig_scratch (len sig_calc + len pow5_calc) in
         let! '(sig_scratch, exp, calc_loss) :=
           mul_rel sig_scratch exp sig_calc pow5_calc calc_precision in
         Ret (sig_scratch, sig_calc, pow5_calc, exp, calc_loss,
              b2z (negb (pow5_status =? OK)), used_bits, truncated_bits)
       else
         let! exp := wrap_i32 (exp - pow5_exp) in
         let sig_scratch := resize sig_scratch (len sig_calc) in
         let! '(q, exp, calc_loss) := div_rel sig_scratch exp sig_calc pow5_calc calc_precision in
         let! '(used_bits, truncated_bits) :=
           (if exp <? MIN_EXP S then
              let! d := wrap_i32 (MIN_EXP S - exp) in
              let truncated_bits := truncated_bits + d in
              Ret (saturating_usub calc_precision truncated_bits, truncated_bits)
            else Ret (used_bits, truncated_bits)) in
         Ret (q, sig_calc, pow5_calc, exp, calc_loss,
              2 * b2z (negb (pow5_status =? OK) || negb (loss_eqb calc_loss ExactlyZero)),
              used_bits, truncated_bits)) in
    let! cp1 := wrap_usize calc_precision 1 in
    let! top := get_bit_rel sig_calc cp1 in
    assertb top (
    assertb ((half_ulp_err1 <? 2) || (half_ulp_err2 <? 2) || (half_ulp_err1 + half_ulp_err2 <? 8)) (
    let inexact := b2z (negb (loss_eqb calc_loss ExactlyZero)) in
    let half_ulp_err :=
      if half_ulp_err1 + half_ulp_err2 =? 0 then inexact * 2
      else inexact + 2 * (half_ulp_err1 + half_ulp_err2) in
    let! ulps := ulps_from_boundary_rel sig_calc calc_precision used_bits round in
    if half_ulp_err <=? sat128 (ulps * 2) then
      let! lsb := wrap_usize calc_precision used_bits in
      let! l := extract_rel [0] sig_calc used_bits lsb in
      let! s0 := get l 0 in
      let! d := wrap_usize (PRECISION S) used_bits in
      let! e := wrap_i32 (exp + as_i32 d) in
      let! loss := through_truncation_rel sig_calc truncated_bits in
      normalize_rel S (mkFloat s0 e Normal false) round loss
    else
      dec_attempts_rel fuel S (attempt + 1) dec_sig pow5 dec_exp round sig_calc pow5_calc sig_scratch))
  end.

(** src/ieee.rs:2300-2694 [from_decimal_string] *)
Definition from_decimal_string_rel (S : Semantics) (s : list Z) (round : Round)
  : outcome (result (Z * Float)) :=
  let? st := dec_loop_rel (len s) 0 s (mkDec false 0 None 0 (len s)) in
  if negb (d_any_digits st) then Ret (Err SignificandHasNoDigits)
  else
    match d_first st with
    | None => Ret (Ok (OK, ZERO S))
    | Some first =>
      let dot := d_dot st in
      let last := d_last st in
      let dec_exp :=
        if last <? dot then sat32 (d_exp st + as_i32 (dot - last - 1))
        else sat32 (d_exp st - as_i32 (last - dot)) in
      let! n := wrap_usize last first in
      let! significand_digits := wrap_usize (n + 1) (b2z ((first <? dot) && (dot <? last))) in
      let! sd1 := wrap_i32 (as_i32 significand_digits - 1) in
      let normalized_exp := sat32 (dec_exp + sd1) in
      let! max12655 := wrap_i32 (12655 * MAX_EXP S) in
      let! min8651 := wrap_i32 (8651 * (MIN_EXP S - PRECISION S)) in
      if max12655 <=? sat32 (sat32 (normalized_exp - 1) * 42039) then
        Ret (Ok (overflow_result S round))
      else if sat32 (sat32 (normalized_exp + 1) * 28738) <=? min8651 then
        Ret (Ok (Z.lor UNDERFLOW INEXACT,
                 if round_eqb round TowardPositive then SMALLEST S else ZERO S))
      else
        let! tail := slice_from s first in
        let! chars := slice_to tail (last + 1 - first) in
        let! dec_sig := dec_sig_loop_rel (Datatypes.S (List.length chars)) chars [] in
        let! '(p5full, pow5_calc, sig_calc, sig_scratch) := pow5_full_rel dec_exp in
        let! r := dec_attempts_rel 57 S 0 dec_sig p5full dec_exp round sig_calc pow5_calc sig_scratch in
        Ret (Ok r)
    end.

(** src/ieee.rs:1582-1670 [from_str_r] *)
Definition from_str_r_rel (S : Semantics) (s : list Z) (round : Round) : outcome (result (Z * Float)) :=
  if is_empty s then Ret (Err InvalidStringLength)
  else
    let '(minus, s) :=
      match strip_prefix (bytes "-") s with Some s => (true, s) | None => (false, s) end in
    let '(explicit_plus, s) :=
      match strip_prefix (bytes "+") s with
      | Some s1 => if negb minus then (true, s1) else (false, s)
      | None => (false, s)
      end in
    let special :=
      if str_eqb s (bytes "Inf") && (minus || explicit_plus) then Some (INFINITY S)
      else if (str_eqb s (bytes "inf") || str_eqb s (bytes "INFINITY")) && negb explicit_plus
      then Some (INFINITY S)
      else if negb explicit_plus then parse_nan S s
      else None in
    match special with
    | Some r => Ret (Ok (OK, negate_if r minus))
    | None =>
      if is_empty s then Ret (Err StringHasNoDigits)
      else
        let round := round_negate_if round minus in
        let '(is_hex, s) :=
          match strip_prefix (bytes "0") s with
          | Some s1 =>
            match strip_prefix_any [ch "x"; ch "X"] s1 with
            | Some s2 => (true, s2)
            | None => (false, s)
            end
          | None => (false, s)
          end in
        let? '(status, r) :=
          (if is_hex then
             if is_empty s then Ret (Err InvalidString)
             else from_hexadecimal_string_rel S s round
           else from_decimal_string_rel S s round) in
        Ret (Ok (status, negate_if r minus))
    end.

(** ** The functions of Fmt.v *)

(** src/ieee.rs:608-628 [fmt_pow5_loop] *)
Fixpoint fmt_pow5_loop_rel (fuel : nat) (texp : Z) (sg sig_scratch p5 p5_scratch : list Z)
  : outcome (list Z) :=
  match fuel with
  | O => Diverge
  | Datatypes.S fuel =>
    if negb (texp =? 0) then
      let! '(p5, p5_scratch) :=
        (if is_empty p5 then Ret (p5 ++ [5], p5_scratch)
         else
           let! p5_scratch := mul_into_rel p5_scratch p5 p5 in
           Ret (p5_scratch, p5)) in
      let! '(sg, sig_scratch) :=
        (if negb (Z.land texp 1 =? 0) then
           let! sig_scratch := mul_into_rel sig_scratch sg p5 in
           Ret (sig_scratch, sg)
         else Ret (sg, sig_scratch)) in
      fmt_pow5_loop_rel fuel (Z.shiftr texp 1) sg sig_scratch p5 p5_scratch
    else Ret sg
  end.

(** src/ieee.rs:641-657 [div10] *)
Definition div10_rel (sg : list Z) : outcome (list Z * Z) :=
  let! '(sg, rem) :=
    each_chunk_rel sg 32 (fun chunk rem =>
      let chunk := chunk mod 2 ^ 32 in
      let combined := Z.lor (Z.shiftl rem 32) chunk in
      Ret ((combined / 10) mod 2 ^ 32, (combined mod 10) mod 2 ^ 8)) 0 in
  Ret (pop_zeros sg, rem).

(** src/ieee.rs:640-675 [digits_loop] *)
Fixpoint digits_loop_rel (fuel : nat) (sg : list Z) (e : Z) (discard : Z) (in_trail : bool) (buffer : list Z)
  : outcome (list Z * Z) :=
  match fuel with
  | O => Diverge
  | Datatypes.S fuel =>
    if is_empty sg then Ret (buffer, e)
    else
      let! '(sg, digit) := div10_rel sg in
      if 0 <? discard then
        let! e := wrap_i32 (e + 1) in
        digits_loop_rel fuel sg e (discard - 1) in_trail buffer
      else if in_trail && (digit =? 0) then
        let! e := wrap_i32 (e + 1) in
        digits_loop_rel fuel sg e discard in_trail buffer
      else
        digits_loop_rel fuel sg e discard false (buffer ++ [ch "0" + digit])
  end.

(** src/ieee.rs:679-714 [round_buffer] *)
Definition round_buffer_rel (buffer : list Z) (e precision : Z) : outcome (list Z * Z) :=
  if precision <? len buffer then
    let first_sig := len buffer - precision in
    let! f1 := wrap_usize first_sig 1 in
    let! d := get buffer f1 in
    let! tail := slice_from buffer first_sig in
    let '(skip, tail) :=
      if d <? ch "5" then (count_zeros tail, tail) else carry_nines tail in
    let! e := wrap_i32 (e + as_i32 (first_sig + skip)) in
    let! rest := slice_from tail skip in
    Ret (if is_empty rest then [ch "1"] else rest, e)
  else Ret (buffer, e).

(** src/ieee.rs:719-739 [use_scientific] *)
Definition use_scientific_rel (width precision e digits : Z) : outcome bool :=
  if width =? 0 then Ret true
  else if 0 <=? e then Ret ((width <? e) || (precision <? digits + e))
  else
    let! d1 := wrap_usize digits 1 in
    let! msd := wrap_i32 (e + as_i32 d1) in
    if 0 <=? msd then Ret false
    else
      let! nm := wrap_i32 (- msd) in
      Ret (width <? nm).

(** src/ieee.rs:742-772 [write_scientific] *)
Definition write_scientific_rel (buffer : list Z) (e precision : Z) (alternate : bool)
  : outcome (list Z) :=
  let digits := len buffer in
  let! de := wrap_i32 (as_i32 digits - 1) in
  let! e := wrap_i32 (e + de) in
  let! d1 := wrap_usize digits 1 in
  let! top := get buffer d1 in
  let! low := slice_to buffer d1 in
  let truncate_zero := negb alternate in
  let body := if (digits =? 1) && truncate_zero then [ch "0"] else rev low in
  let! fill :=
    (if negb truncate_zero && (d1 <? precision) then
       let! a := wrap_usize precision digits in Ret (zeros (a + 1))
     else Ret []) in
  Ret ([top; ch "."] ++ body ++ fill
       ++ [if alternate then ch "e" else ch "E"]
       ++ (if truncate_zero then fmt_plus e else fmt_plus03 e)).

(** src/ieee.rs:774-805 [write_positional] *)
Definition write_positional_rel (buffer : list Z) (e : Z) : outcome (list Z) :=
  let digits := len buffer in
  if 0 <=? e then Ret (rev buffer ++ zeros e)
  else
    let! unit_place := wrap_i32 (- e) in
    if unit_place <? digits then
      let! hi := slice_from buffer unit_place in
      let! lo := slice_to buffer unit_place in
      Ret (rev hi ++ [ch "."] ++ rev lo)
    else Ret (bytes "0." ++ zeros (unit_place - digits) ++ rev buffer).

(** src/ieee.rs:526-806 [fmt]; [precision * 196 + 58] wraps to 64 bits *)
Definition fmt_rel (S : Semantics) (x : Float) (f_width f_precision : option Z) (alternate : bool)
  : outcome (list Z) :=
  let width := match f_width with Some w => w | None => 3 end in
  match category x with
  | Infinity => Ret (if is_negative x then bytes "-Inf" else bytes "+Inf")
  | NaN => Ret (bytes "NaN")
  | Zero =>
    Ret ((if is_negative x then [ch "-"] else [])
         ++ (if width =? 0 then
               if alternate then
                 bytes "0.0"
                 ++ (match f_precision with Some n => zeros (n - 1) | None => [] end)
                 ++ bytes "e+00"
               else bytes "0.0E+0"
             else [ch "0"]))
  | Normal =>
    let precision := match f_precision with Some p => p | None => 2 + PRECISION S * 59 / 196 end in
    let! e := wrap_i32 (exp x - (PRECISION S - 1)) in
    let tz := trailing_zeros128 (sig x) in
    let! '(sg, e, _) := shift_right_rel [sig x] e tz in
    let! '(sg, e) :=
      (if e =? 0 then Ret (sg, e)
       else if 0 <? e then
         let sg := resize sg (limbs_for_bits (PRECISION S + e)) in
         shift_left_rel sg e e
       else
         let! texp := wrap_i32 (- e) in
         let! sg := fmt_pow5_loop_rel 64 texp sg [] [] [] in
         Ret (sg, e)) in
        let required := wrap_usize_up (precision * 196 + 58) / 59 in
    let omsb := Sig.omsb sg in
    let discard := saturating_usub omsb required * 59 / 196 in
    let! '(buffer, e) := digits_loop_rel (Datatypes.S (Z.to_nat (128 * len sg))) sg e discard true [] in
    assertb (negb (is_empty buffer)) (
    let! '(buffer, e) := round_buffer_rel buffer e precision in
    let! sci := use_scientific_rel width precision e (len buffer) in
    let! body :=
      (if sci then write_scientific_rel buffer e precision alternate
       else write_positional_rel buffer e) in
    Ret ((if is_negative x then [ch "-"] else []) ++ body))
  end.

(** ** The functions of Ppc.v *)

(** src/ppc.rs:70-103 [from_fallback] *)
Definition from_fallback_rel (F : Semantics) (x : Float) : outcome DFloat :=
  let! '(status, extended, loses_info) :=
    convert_r_rel (FallbackS F) (FallbackExtendedS F) x NearestTiesToEven in
  assertb ((status =? OK) && negb loses_info) (
  let! '(status, a, loses_info) := convert_r_rel (FallbackExtendedS F) F extended NearestTiesToEven in
  assertb (Z.ldiff status INEXACT =? OK) (
  if is_finite_non_zero a && loses_info then
    let! '(status, u, loses_info) := convert_r_rel F (FallbackExtendedS F) a NearestTiesToEven in
    assertb ((status =? OK) && negb loses_info) (
    let! '(status, v) := sub_r_rel (FallbackExtendedS F) extended u NearestTiesToEven in
    assertb (status =? OK) (
    let! '(status, v, loses_info) := convert_r_rel (FallbackExtendedS F) F v NearestTiesToEven in
    assertb ((status =? OK) && negb loses_info) (Ret (mkDF a v))))
  else Ret (mkDF a (ZERO F)))).

(** src/ppc.rs:105-124 [to_fallback] *)
Definition to_fallback_rel (F : Semantics) (x : DFloat) : outcome Float :=
  let! '(status, a, loses_info) := convert_r_rel F (FallbackS F) (d0 x) NearestTiesToEven in
  assertb ((status =? OK) && negb loses_info) (
  if is_finite_non_zero a then
    let! '(status, b, loses_info) := convert_r_rel F (FallbackS F) (d1 x) NearestTiesToEven in
    assertb ((status =? OK) && negb loses_info) (
    let! '(_, r) := add_r_rel (FallbackS F) a b NearestTiesToEven in
    Ret r)
  else Ret a).

(** src/ppc.rs:169-176 [dd_largest] *)
Definition dd_largest_rel (F : Semantics) : outcome DFloat :=
  let! r1 := scalbn_rel F (largest F) (- (PRECISION F + 1)) in
  let! '(status, r1) := next_down_rel F r1 in
  assertb (status =? OK) (Ret (mkDF (largest F) r1)).

(** src/ppc.rs:180-182 [dd_smallest_normalized] *)
Definition dd_smallest_normalized_rel (F : Semantics) : outcome DFloat :=
  let! a := scalbn_rel F (smallest_normalized F) (PRECISION F) in
  Ret (mkDF a (ZERO F)).

(** src/ppc.rs:188-274 [dd_add_normal] *)
Definition dd_add_normal_rel (F : Semantics) (x y : DFloat) (round : Round) : outcome (Z * DFloat) :=
  let a := d0 x in let aa := d1 x in let c := d0 y in let cc := d1 y in
  let! '(st, z) := add_r_rel F a c round in
  let status := st in
  if negb (is_finite z) then
    if negb (is_infinite z) then Ret (status, mkDF z (ZERO F))
    else
      let status := OK in
      let! a_cmp_c := cmp_abs_normal a c in
      let! '(st, z) := add_r_rel F cc aa round in
      let status := Z.lor status st in
      let! '(status, z) :=
        (match a_cmp_c with
         | Gt =>
           let! '(st1, z) := add_r_rel F z c round in
           let! '(st2, z) := add_r_rel F z a round in
           Ret (Z.lor (Z.lor status st1) st2, z)
         | _ =>
           let! '(st1, z) := add_r_rel F z a round in
           let! '(st2, z) := add_r_rel F z c round in
           Ret (Z.lor (Z.lor status st1) st2, z)
         end) in
      if negb (is_finite z) then Ret (status, mkDF z (ZERO F))
      else
        let! '(st, zz) := add_r_rel F aa cc round in
        let status := Z.lor status st in
        match a_cmp_c with
        | Gt =>
          let! '(st1, r1) := sub_r_rel F a z round in
          let! '(st2, r1) := add_r_rel F r1 c round in
          let! '(st3, r1) := add_r_rel F r1 zz round in
          Ret (Z.lor (Z.lor (Z.lor status st1) st2) st3, mkDF z r1)
        | _ =>
          let! '(st1, r1) := sub_r_rel F c z round in
          let! '(st2, r1) := add_r_rel F r1 a round in
          let! '(st3, r1) := add_r_rel F r1 zz round in
          Ret (Z.lor (Z.lor (Z.lor status st1) st2) st3, mkDF z r1)
        end
  else
    let! '(st, q) := sub_r_rel F a z round in
    let status := Z.lor status st in
    let! '(st, zz) := add_r_rel F q c round in
    let status := Z.lor status st in
    let! '(st, q) := add_r_rel F q z round in
    let status := Z.lor status st in
    let! '(st, q) := sub_r_rel F q a round in
    let status := Z.lor status st in
    let q := neg q in
    let! '(st, zz) := add_r_rel F zz q round in
    let status := Z.lor status st in
    let! '(st, zz) := add_r_rel F zz aa round in
    let status := Z.lor status st in
    let! '(st, zz) := add_r_rel F zz cc round in
    let status := Z.lor status st in
    if is_zero zz && negb (is_negative zz) then Ret (OK, mkDF z (ZERO F))
    else
      let! '(st, r0) := add_r_rel F z zz round in
      let status := Z.lor status st in
      if negb (is_finite r0) then Ret (status, mkDF r0 (ZERO F))
      else
        let! '(st, r1) := sub_r_rel F z r0 round in
        let status := Z.lor status st in
        let! '(st, r1) := add_r_rel F r1 zz round in
        let status := Z.lor status st in
        Ret (status, mkDF r0 r1).

(** src/ppc.rs:188-274 [dd_add_r] *)
Definition dd_add_r_rel (F : Semantics) (x y : DFloat) (round : Round) : outcome (Z * DFloat) :=
  match dd_category x, dd_category y with
  | Infinity, Infinity =>
    if xorb (dd_is_negative x) (dd_is_negative y) then Ret (INVALID_OP, dd_copy_sign (dd_NAN F) x)
    else Ret (OK, x)
  | _, Zero | NaN, _ | Infinity, Normal => Ret (OK, x)
  | Zero, _ | _, NaN | _, Infinity => Ret (OK, y)
  | Normal, Normal => dd_add_normal_rel F x y round
  end.

(** src/lib.rs:302-304 [dd_sub_r] *)
Definition dd_sub_r_rel (F : Semantics) (x y : DFloat) (round : Round) : outcome (Z * DFloat) :=
  dd_add_r_rel F x (dd_neg y) round.

(** src/ppc.rs:276-340 [dd_mul_normal] *)
Definition dd_mul_normal_rel (F : Semantics) (x y : DFloat) (round : Round) : outcome (Z * DFloat) :=
  let a := d0 x in let b := d1 x in let c := d0 y in let d := d1 y in
  let! '(st, t) := mul_r_rel F a c round in
  let status := st in
  if negb (is_finite_non_zero t) then Ret (status, mkDF t (ZERO F))
  else
    let! '(st, tau) := mul_add_r_rel F a c (neg t) round in
    let status := Z.lor status st in
    let! '(st, v) := mul_r_rel F a d round in
    let status := Z.lor status st in
    let! '(st, w) := mul_r_rel F b c round in
    let status := Z.lor status st in
    let! '(st, v) := add_r_rel F v w round in
    let status := Z.lor status st in
    let! '(st, tau) := add_r_rel F tau v round in
    let status := Z.lor status st in
    let! '(st, u) := add_r_rel F t tau round in
    let status := Z.lor status st in
    if negb (is_finite u) then Ret (status, mkDF u (ZERO F))
    else
      let! '(st, t) := sub_r_rel F t u round in
      let status := Z.lor status st in
      let! '(st, t) := add_r_rel F t tau round in
      let status := Z.lor status st in
      Ret (status, mkDF u t).

(** src/ppc.rs:276-340 [dd_mul_r] *)
Definition dd_mul_r_rel (F : Semantics) (x y : DFloat) (round : Round) : outcome (Z * DFloat) :=
  match dd_category x, dd_category y with
  | NaN, _ => Ret (OK, x)
  | _, NaN => Ret (OK, y)
  | Zero, Infinity | Infinity, Zero => Ret (OK, dd_NAN F)
  | Zero, _ | Infinity, _ => Ret (OK, x)
  | _, Zero | _, Infinity => Ret (OK, y)
  | Normal, Normal => dd_mul_normal_rel F x y round
  end.

(** src/ppc.rs:276-340 [map_from_fallback] *)
Definition map_from_fallback_rel (F : Semantics) (m : outcome (Z * Float)) : outcome (Z * DFloat) :=
  let! '(st, r) := m in
  let! r := from_fallback_rel F r in
  Ret (st, r).

(** src/ppc.rs:342-346 [dd_mul_add_r] *)
Definition dd_mul_add_r_rel (F : Semantics) (x m a : DFloat) (round : Round) : outcome (Z * DFloat) :=
  let! x := to_fallback_rel F x in
  let! m := to_fallback_rel F m in
  let! a := to_fallback_rel F a in
  map_from_fallback_rel F (mul_add_r_rel (FallbackS F) x m a round).

(** src/ppc.rs:348-366 [dd_div_r] *)
Definition dd_div_r_rel (F : Semantics) (x y : DFloat) (round : Round) : outcome (Z * DFloat) :=
  let! x := to_fallback_rel F x in
  let! y := to_fallback_rel F y in
  map_from_fallback_rel F (div_r_rel (FallbackS F) x y round).

(** src/ppc.rs:348-366 [dd_ieee_rem] *)
Definition dd_ieee_rem_rel (F : Semantics) (x y : DFloat) : outcome (Z * DFloat) :=
  let! x := to_fallback_rel F x in
  let! y := to_fallback_rel F y in
  map_from_fallback_rel F (ieee_rem_rel (FallbackS F) x y).

(** src/ppc.rs:348-366 [dd_c_fmod] *)
Definition dd_c_fmod_rel (F : Semantics) (x y : DFloat) : outcome (Z * DFloat) :=
  let! x := to_fallback_rel F x in
  let! y := to_fallback_rel F y in
  map_from_fallback_rel F (c_fmod_rel (FallbackS F) x y).

(** src/ppc.rs:348-366 [dd_round_to_integral] *)
Definition dd_round_to_integral_rel (F : Semantics) (x : DFloat) (round : Round) : outcome (Z * DFloat) :=
  let! x := to_fallback_rel F x in
  map_from_fallback_rel F (round_to_integral_rel (FallbackS F) x round).

(** src/ppc.rs:348-366 [dd_next_up] *)
Definition dd_next_up_rel (F : Semantics) (x : DFloat) : outcome (Z * DFloat) :=
  let! x := to_fallback_rel F x in
  map_from_fallback_rel F (next_up_rel (FallbackS F) x).

(** src/lib.rs:324-326 [dd_next_down] *)
Definition dd_next_down_rel (F : Semantics) (x : DFloat) : outcome (Z * DFloat) :=
  let! '(st, r) := dd_next_up_rel F (dd_neg x) in
  Ret (st, dd_neg r).

(** src/ppc.rs:368-371 [dd_from_bits] *)
Definition dd_from_bits_rel (F : Semantics) (input : Z) : outcome DFloat :=
  let! b := mask_shr input (BITS F) in
  let! a := from_bits_rel F (Z.land input (2 ^ BITS F - 1)) in
  let! b := from_bits_rel F (Z.land b (2 ^ BITS F - 1)) in
  Ret (mkDF a b).

(** src/ppc.rs:381-383 [dd_to_bits] *)
Definition dd_to_bits_rel (F : Semantics) (x : DFloat) : outcome Z :=
  let! a := to_bits_rel F (d0 x) in
  let! b := to_bits_rel F (d1 x) in
  let! b := mask_shl b (BITS F) in
  Ret (Z.lor a b).

(** src/ppc.rs:373-379 [dd_from_u128_r] *)
Definition dd_from_u128_r_rel (F : Semantics) (input : Z) (round : Round) : outcome (Z * DFloat) :=
  map_from_fallback_rel F (from_u128_r_rel (FallbackS F) input round).

(** src/ppc.rs:373-379 [dd_from_str_r] *)
Definition dd_from_str_r_rel (F : Semantics) (s : list Z) (round : Round)
  : outcome (result (Z * DFloat)) :=
  let? '(st, r) := from_str_r_rel (FallbackS F) s round in
  let! r := from_fallback_rel F r in
  Ret (Ok (st, r)).

(** src/ppc.rs:385-387 [dd_to_u128_r] *)
Definition dd_to_u128_r_rel (F : Semantics) (x : DFloat) (width : Z) (round : Round)
  : outcome (Z * Z * bool) :=
  let! x := to_fallback_rel F x in
  to_u128_r_rel (FallbackS F) x width round.

(** src/lib.rs:551-565 [dd_is_smallest_normalized] *)
Definition dd_is_smallest_normalized_rel (F : Semantics) (x : DFloat) : outcome bool :=
  let! s := dd_smallest_normalized_rel F in Ret (dd_bitwise_eq (dd_copy_sign s x) x).

(** src/lib.rs:551-565 [dd_is_largest] *)
Definition dd_is_largest_rel (F : Semantics) (x : DFloat) : outcome bool :=
  let! l := dd_largest_rel F in Ret (dd_bitwise_eq (dd_copy_sign l x) x).

(** src/lib.rs:345-351 [dd_from_i128_r] *)
Definition dd_from_i128_r_rel (F : Semantics) (input : Z) (round : Round) : outcome (Z * DFloat) :=
  if input <? 0 then
    let! '(status, r) := dd_from_u128_r_rel F (wrap128 (- input)) (round_neg round) in
    Ret (status, dd_neg r)
  else dd_from_u128_r_rel F input round.

(** src/lib.rs:377-401 [dd_to_i128_r]; [-1 << (width - 1)] masks its amount too *)
Definition dd_to_i128_r_rel (F : Semantics) (x : DFloat) (width : Z) (round : Round)
  : outcome (Z * Z * bool) :=
  if dd_is_negative x then
    let! '(status, r, is_exact) := dd_to_u128_r_rel F (dd_neg x) width (round_neg round) in
    let! w1 := wrap_usize width 1 in
    let! lim := mask_shl 1 w1 in
    if lim <? r then Ret (INVALID_OP, - 2 ^ (w1 mod 128), false)
    else Ret (status, as_i128 (wrap128 (- r)), is_exact)
  else
    let! w1 := wrap_usize width 1 in
    let! '(status, r, is_exact) := dd_to_u128_r_rel F x w1 round in
    Ret (status, as_i128 r, is_exact).

(** src/ppc.rs:412-417 [dd_is_denormal] *)
Definition dd_is_denormal_rel (F : Semantics) (x : DFloat) : outcome bool :=
  if category_eqb (dd_category x) Normal then
    let! d := is_denormal_rel F (d0 x) in
    if d then Ret true
    else
      let! '(_, s) := add_r_rel F (d0 x) (d1 x) NearestTiesToEven in
      let! e := eq_f (d0 x) s in
      Ret (negb e)
  else Ret false.

(** src/ppc.rs:427-429 [dd_is_integer] *)
Definition dd_is_integer_rel (F : Semantics) (x : DFloat) : outcome bool :=
  let! a := is_integer_rel F (d0 x) in
  if a then is_integer_rel F (d1 x) else Ret false.

(** src/ppc.rs:431-433 [dd_get_exact_inverse] *)
Definition dd_get_exact_inverse_rel (F : Semantics) (x : DFloat) : outcome (option DFloat) :=
  let! x := to_fallback_rel F x in
  let! r := get_exact_inverse_rel (FallbackS F) x in
  match r with
  | Some r => let! r := from_fallback_rel F r in Ret (Some r)
  | None => Ret None
  end.

(** src/ppc.rs:435-437 [dd_ilogb] *)
Definition dd_ilogb_rel (F : Semantics) (x : DFloat) : outcome Z := ilogb_rel F (d0 x).

(** src/ppc.rs:439-441 [dd_scalbn_r] *)
Definition dd_scalbn_r_rel (F : Semantics) (x : DFloat) (n : Z) (round : Round) : outcome DFloat :=
  let! a := scalbn_r_rel F (d0 x) n round in
  let! b := scalbn_r_rel F (d1 x) n round in
  Ret (mkDF a b).

(** src/ppc.rs:443-450 [dd_frexp_r] *)
Definition dd_frexp_r_rel (F : Semantics) (x : DFloat) (round : Round) : outcome (DFloat * Z) :=
  let! '(a, e) := frexp_r_rel F (d0 x) round in
  let! b :=
    (if category_eqb (dd_category x) Normal then
       let! n := wrap_i32 (- e) in scalbn_r_rel F (d1 x) n round
     else Ret (d1 x)) in
  Ret (mkDF a b, e).

(** src/ppc.rs:139-143 [dd_fmt] *)
Definition dd_fmt_rel (F : Semantics) (x : DFloat) (w p : option Z) (alternate : bool) : outcome (list Z) :=
  let! x := to_fallback_rel F x in
  fmt_rel (FallbackS F) x w p alternate.

(** ** The functions of Ops.v *)

(** src/lib.rs:640-642 [from_str] *)
Definition from_str_rel (S : Semantics) (s : list Z) : outcome (result Float) :=
  let? '(_, r) := from_str_r_rel S s NearestTiesToEven in Ret (Ok r).

(** src/lib.rs:653-655, 664-666, 675-677, 686-688, 697-699 [op_add] *)
Definition op_add_rel (S : Semantics) (x y : Float) : outcome (Z * Float) := add_r_rel S x y NearestTiesToEven.

(** src/lib.rs:653-655, 664-666, 675-677, 686-688, 697-699 [op_sub] *)
Definition op_sub_rel (S : Semantics) (x y : Float) : outcome (Z * Float) := sub_r_rel S x y NearestTiesToEven.

(** src/lib.rs:653-655, 664-666, 675-677, 686-688, 697-699 [op_mul] *)
Definition op_mul_rel (S : Semantics) (x y : Float) : outcome (Z * Float) := mul_r_rel S x y NearestTiesToEven.

(** src/lib.rs:653-655, 664-666, 675-677, 686-688, 697-699 [op_div] *)
Definition op_div_rel (S : Semantics) (x y : Float) : outcome (Z * Float) := div_r_rel S x y NearestTiesToEven.

(** src/lib.rs:653-655, 664-666, 675-677, 686-688, 697-699 [op_rem] *)
Definition op_rem_rel (S : Semantics) (x y : Float) : outcome (Z * Float) := c_fmod_rel S x y.

(** src/lib.rs:707-709, 717-719, 727-729, 737-739, 747-749 [add_assign] *)
Definition add_assign_rel (S : Semantics) (x y : Float) : outcome Float := let! r := op_add_rel S x y in Ret (snd r).

(** src/lib.rs:707-709, 717-719, 727-729, 737-739, 747-749 [sub_assign] *)
Definition sub_assign_rel (S : Semantics) (x y : Float) : outcome Float := let! r := op_sub_rel S x y in Ret (snd r).

(** src/lib.rs:707-709, 717-719, 727-729, 737-739, 747-749 [mul_assign] *)
Definition mul_assign_rel (S : Semantics) (x y : Float) : outcome Float := let! r := op_mul_rel S x y in Ret (snd r).

(** src/lib.rs:707-709, 717-719, 727-729, 737-739, 747-749 [div_assign] *)
Definition div_assign_rel (S : Semantics) (x y : Float) : outcome Float := let! r := op_div_rel S x y in Ret (snd r).

(** src/lib.rs:707-709, 717-719, 727-729, 737-739, 747-749 [rem_assign] *)
Definition rem_assign_rel (S : Semantics) (x y : Float) : outcome Float := let! r := op_rem_rel S x y in Ret (snd r).

(** src/lib.rs:307-309 [mul_add] *)
Definition mul_add_rel (S : Semantics) (x multiplicand addend : Float) : outcome (Z * Float) :=
  mul_add_r_rel S x multiplicand addend NearestTiesToEven.

(** src/lib.rs:352-354 [from_i128] *)
Definition from_i128_rel (S : Semantics) (input : Z) : outcome (Z * Float) := from_i128_r_rel S input NearestTiesToEven.

(** src/lib.rs:400-402, 404-406 [to_i128] *)
Definition to_i128_rel (S : Semantics) (x : Float) (width : Z) : outcome (Z * Z) :=
  let! '(st, n, _) := to_i128_r_rel S x width TowardZero in Ret (st, n).

(** src/lib.rs:400-402, 404-406 [to_u128] *)
Definition to_u128_rel (S : Semantics) (x : Float) (width : Z) : outcome (Z * Z) :=
  let! '(st, n, _) := to_u128_r_rel S x width TowardZero in Ret (st, n).

(** src/lib.rs:601-603 [frexp] *)
Definition frexp_rel (S : Semantics) (x : Float) : outcome (Float * Z) := frexp_r_rel S x NearestTiesToEven.

(** src/lib.rs:617-619 [convert] *)
Definition convert_rel (S T : Semantics) (x : Float) : outcome (Z * Float * bool) := convert_r_rel S T x NearestTiesToEven.

(** src/ieee.rs:809-821 [debug] *)
Definition debug_rel (S : Semantics) (x : Float) : outcome (list Z) :=
  let! text := fmt_rel S x None None false in
  Ret (text ++ bytes "(" ++ category_name (category x) ++ bytes " | " ++
       (if is_negative x then bytes "-" else bytes "+") ++ fmt_limbs1 (sig x) ++ bytes " * 2^" ++ fmt_int (exp x) ++ bytes ")").

(** src/lib.rs:640-642 [dd_from_str] *)
Definition dd_from_str_rel (F : Semantics) (s : list Z) : outcome (result DFloat) :=
  let? '(_, r) := dd_from_str_r_rel F s NearestTiesToEven in Ret (Ok r).

(** src/lib.rs:653-655 [dd_op_add] *)
Definition dd_op_add_rel (F : Semantics) (x y : DFloat) : outcome (Z * DFloat) := dd_add_r_rel F x y NearestTiesToEven.

(** src/lib.rs:664-666 [dd_op_sub] *)
Definition dd_op_sub_rel (F : Semantics) (x y : DFloat) : outcome (Z * DFloat) := dd_sub_r_rel F x y NearestTiesToEven.

(** src/lib.rs:675-677 [dd_op_mul] *)
Definition dd_op_mul_rel (F : Semantics) (x y : DFloat) : outcome (Z * DFloat) := dd_mul_r_rel F x y NearestTiesToEven.

(** src/lib.rs:686-688 [dd_op_div] *)
Definition dd_op_div_rel (F : Semantics) (x y : DFloat) : outcome (Z * DFloat) := dd_div_r_rel F x y NearestTiesToEven.

(** src/lib.rs:697-699 [dd_op_rem] *)
Definition dd_op_rem_rel (F : Semantics) (x y : DFloat) : outcome (Z * DFloat) := dd_c_fmod_rel F x y.

(** ** The functions of OpsPair.v *)

(** src/lib.rs:493-495 [dd_is_normal] *)
Definition dd_is_normal_rel (F : Semantics) (x : DFloat) : outcome bool :=
  let! d := dd_is_denormal_rel F x in Ret (negb d && dd_is_finite_non_zero x).

(** src/lib.rs:307-309 [dd_mul_add] *)
Definition dd_mul_add_rel (F : Semantics) (x multiplicand addend : DFloat) : outcome (Z * DFloat) :=
  dd_mul_add_r_rel F x multiplicand addend NearestTiesToEven.

(** src/lib.rs:352-354, 356-358 [dd_from_i128] *)
Definition dd_from_i128_rel (F : Semantics) (input : Z) : outcome (Z * DFloat) := dd_from_i128_r_rel F input NearestTiesToEven.

(** src/lib.rs:352-354, 356-358 [dd_from_u128] *)
Definition dd_from_u128_rel (F : Semantics) (input : Z) : outcome (Z * DFloat) := dd_from_u128_r_rel F input NearestTiesToEven.

(** src/lib.rs:400-402, 404-406 [dd_to_i128] *)
Definition dd_to_i128_rel (F : Semantics) (x : DFloat) (width : Z) : outcome (Z * Z) :=
  let! '(st, n, _) := dd_to_i128_r_rel F x width TowardZero in Ret (st, n).

(** src/lib.rs:400-402, 404-406 [dd_to_u128] *)
Definition dd_to_u128_rel (F : Semantics) (x : DFloat) (width : Z) : outcome (Z * Z) :=
  let! '(st, n, _) := dd_to_u128_r_rel F x width TowardZero in Ret (st, n).

(** src/lib.rs:592-594, 601-603 [dd_scalbn] *)
Definition dd_scalbn_rel (F : Semantics) (x : DFloat) (n : Z) : outcome DFloat := dd_scalbn_r_rel F x n NearestTiesToEven.

(** src/lib.rs:592-594, 601-603 [dd_frexp] *)
Definition dd_frexp_rel (F : Semantics) (x : DFloat) : outcome (DFloat * Z) := dd_frexp_r_rel F x NearestTiesToEven.

(** src/lib.rs:707-709, 717-719, 727-729, 737-739, 747-749 [dd_add_assign] *)
Definition dd_add_assign_rel (F : Semantics) (x y : DFloat) : outcome DFloat := let! r := dd_op_add_rel F x y in Ret (snd r).

(** src/lib.rs:707-709, 717-719, 727-729, 737-739, 747-749 [dd_sub_assign] *)
Definition dd_sub_assign_rel (F : Semantics) (x y : DFloat) : outcome DFloat := let! r := dd_op_sub_rel F x y in Ret (snd r).

(** src/lib.rs:707-709, 717-719, 727-729, 737-739, 747-749 [dd_mul_assign] *)
Definition dd_mul_assign_rel (F : Semantics) (x y : DFloat) : outcome DFloat := let! r := dd_op_mul_rel F x y in Ret (snd r).

(** src/lib.rs:707-709, 717-719, 727-729, 737-739, 747-749 [dd_div_assign] *)
Definition dd_div_assign_rel (F : Semantics) (x y : DFloat) : outcome DFloat := let! r := dd_op_div_rel F x y in Ret (snd r).

(** src/lib.rs:707-709, 717-719, 727-729, 737-739, 747-749 [dd_rem_assign] *)
Definition dd_rem_assign_rel (F : Semantics) (x y : DFloat) : outcome DFloat := let! r := dd_op_rem_rel F x y in Ret (snd r).

(** src/ppc.rs:12 [dd_debug] *)
Definition dd_debug_rel (F : Semantics) (x : DFloat) : outcome (list Z) :=
  let! a := debug_rel F (d0 x) in
  let! b := debug_rel F (d1 x) in
  Ret (bytes "DoubleFloat(" ++ a ++ bytes ", " ++ b ++ bytes ")").
