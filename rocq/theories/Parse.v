(** * Parse.v -- model of [from_str_r] (src/ieee.rs:1582-1670),
    [from_hexadecimal_string] (2170-2298) and [from_decimal_string] (2300-2694).

    A string is the list of its UTF-8 bytes.  The code iterates over [char]s
    with byte offsets; every character it accepts is ASCII and any other
    character makes it return an error at once, so iterating over bytes gives
    the same results. *)
From Coq Require Import ZArith List Bool Ascii String.
From Verif Require Import Machine Sig Ieee.
Import ListNotations.
Local Open Scope Z_scope.

(** Writing literals: the bytes of a Coq string. *)
Fixpoint bytes (s : string) : list Z :=
  match s with
  | EmptyString => []
  | String c r => Z.of_N (N_of_ascii c) :: bytes r
  end.
Definition ch (s : string) : Z := match bytes s with c :: _ => c | [] => 0 end.

(** The messages of [ParseError] *)
Inductive ParseError :=
| InvalidStringLength
| StringHasNoDigits
| InvalidString
| StringContainsMultipleDots
| SignificandHasNoDigits
| InvalidCharacterInExponent
| ExponentHasNoDigits
| InvalidCharacterInSignificand
| HexStringsRequireAnExponent.

Inductive result (A : Type) := Ok (a : A) | Err (e : ParseError).
Arguments Ok {A} a.
Arguments Err {A} e.

(** [?] inside the [outcome] monad *)
Definition rbind {A B} (m : outcome (result A)) (k : A -> outcome (result B)) : outcome (result B) :=
  let! r := m in
  match r with
  | Ok a => k a
  | Err e => Ret (Err e)
  end.
Notation "'let?' x := e 'in' k" := (rbind e (fun x => k))
  (at level 200, x name, e at level 100, k at level 200, right associativity) : outcome_scope.
Notation "'let?' ' p := e 'in' k" := (rbind e (fun x => match x with p => k end))
  (at level 200, p strict pattern, e at level 100, k at level 200, right associativity) : outcome_scope.

(** [char::to_digit(radix)] for radix 8, 10, 16 *)
Definition to_digit (radix c : Z) : option Z :=
  let d := if (48 <=? c) && (c <=? 57) then c - 48
           else if (97 <=? c) && (c <=? 122) then c - 97 + 10
           else if (65 <=? c) && (c <=? 90) then c - 65 + 10
           else 255 in
  if d <? radix then Some d else None.

(** [str::strip_prefix] / [str::strip_suffix] *)
Fixpoint strip_prefix (p s : list Z) : option (list Z) :=
  match p, s with
  | [], _ => Some s
  | a :: p, b :: s => if a =? b then strip_prefix p s else None
  | _ :: _, [] => None
  end.
Definition strip_prefix_any (cs : list Z) (s : list Z) : option (list Z) :=
  match s with
  | b :: r => if existsb (fun a => a =? b) cs then Some r else None
  | [] => None
  end.
Definition strip_suffix (p s : list Z) : option (list Z) :=
  match strip_prefix (rev p) (rev s) with
  | Some r => Some (rev r)
  | None => None
  end.
Definition is_empty (s : list Z) : bool := match s with [] => true | _ => false end.
Fixpoint str_eqb (a b : list Z) : bool :=
  match a, b with
  | [], [] => true
  | x :: a, y :: b => (x =? y) && str_eqb a b
  | _, _ => false
  end.

(** [u128::from_str_radix]: an optional leading [+] (but not alone), then at
    least one digit; [None] on a bad digit or on overflow. *)
Fixpoint radix_digits (radix : Z) (s : list Z) (acc : Z) : option Z :=
  match s with
  | [] => Some acc
  | c :: r =>
    match to_digit radix c with
    | Some d =>
      let acc := acc * radix + d in
      if acc <? LIMB_MOD then radix_digits radix r acc else None
    | None => None
    end
  end.
Definition u128_from_str_radix (s : list Z) (radix : Z) : option Z :=
  match s with
  | [] => None
  | c :: r =>
    if (c =? ch "+") && negb (is_empty r) then radix_digits radix r 0
    else radix_digits radix s 0
  end.

(** ** Exponent suffix, common to both radices *)

(** The loop over the exponent's digits, src/ieee.rs:2248-2255 and 2354-2361;
    returns whether there was a digit and the saturated exponent. *)
Fixpoint exp_digits (s : list Z) (any : bool) (e : Z) : result (bool * Z) :=
  match s with
  | [] => Ok (any, e)
  | c :: r =>
    match to_digit 10 c with
    | Some v => exp_digits r true (sat32 (sat32 (e * 10) + v))
    | None => Err InvalidCharacterInExponent
    end
  end.
(** The optional sign, src/ieee.rs:2240-2246 and 2345-2351; returns
    [exp_minus] and the rest. *)
Definition exp_sign (s : list Z) : bool * list Z :=
  match s with
  | c :: r =>
    if c =? ch "-" then (true, r)
    else if c =? ch "+" then (false, r)
    else (false, s)
  | [] => (false, s)
  end.

(** ** Hexadecimal *)

(** The mutable variables of [from_hexadecimal_string], src/ieee.rs:2171-2186 *)
Record hex_state := mkHex {
  h_sig : Z;
  h_exp : Z;
  h_any_digits : bool;
  h_has_exp : bool;
  h_bit_pos : Z;
  h_loss : option Loss;
  h_first : option Z;
  h_dot : Z
}.

(** src/ieee.rs:2196-2230: one hexadecimal digit at offset [p] *)
Definition hex_digit (p v : Z) (st : hex_state) : outcome hex_state :=
  match h_first st, v with
  | None, 0 => Ret (mkHex (h_sig st) (h_exp st) true (h_has_exp st) (h_bit_pos st) (h_loss st) None (h_dot st))
  | f, _ =>
    let first := match f with None => p | Some q => q end in
    let bit_pos := h_bit_pos st - 4 in
    if 0 <=? bit_pos then
      let! d := shl128 v bit_pos in
      Ret (mkHex (Z.lor (h_sig st) d) (h_exp st) true (h_has_exp st) bit_pos (h_loss st) (Some first) (h_dot st))
    else
      let loss :=
        match h_loss st with
        | Some l =>
          if negb (v =? 0) then
            let l := if loss_eqb l ExactlyZero then LessThanHalf else l in
            let l := if loss_eqb l ExactlyHalf then MoreThanHalf else l in
            l
          else l
        | None =>
          if v =? 0 then ExactlyZero
          else if v <=? 7 then LessThanHalf
          else if v =? 8 then ExactlyHalf
          else MoreThanHalf
        end in
      Ret (mkHex (h_sig st) (h_exp st) true (h_has_exp st) bit_pos (Some loss) (Some first) (h_dot st))
  end.

(** src/ieee.rs:2188-2266, the loop over [s.char_indices()]; [n] is [s.len()]. *)
Fixpoint hex_loop (n p : Z) (s : list Z) (st : hex_state) : outcome (result hex_state) :=
  match s with
  | [] => Ret (Ok st)
  | c :: r =>
    if c =? ch "." then
      if negb (h_dot st =? n) then Ret (Err StringContainsMultipleDots)
      else hex_loop n (p + 1) r
             (mkHex (h_sig st) (h_exp st) (h_any_digits st) (h_has_exp st) (h_bit_pos st)
                (h_loss st) (h_first st) p)
    else
      match to_digit 16 c with
      | Some v =>
        let! st := hex_digit p v st in
        hex_loop n (p + 1) r st
      | None =>
        if (c =? ch "p") || (c =? ch "P") then
          if negb (h_any_digits st) then Ret (Err SignificandHasNoDigits)
          else
            let dot := if h_dot st =? n then p else h_dot st in
            let '(exp_minus, r) := exp_sign r in
            match exp_digits r (h_has_exp st) (h_exp st) with
            | Err e => Ret (Err e)
            | Ok (has_exp, e) =>
              if negb has_exp then Ret (Err ExponentHasNoDigits)
              else
                let! e := (if exp_minus then chk32 (- e) else Ret e) in
                Ret (Ok (mkHex (h_sig st) e (h_any_digits st) has_exp (h_bit_pos st)
                           (h_loss st) (h_first st) dot))
            end
        else Ret (Err InvalidCharacterInSignificand)
      end
  end.

(** src/ieee.rs:2170-2298 [from_hexadecimal_string] *)
Definition from_hexadecimal_string (S : Semantics) (s : list Z) (round : Round)
  : outcome (result (Z * Float)) :=
  let? st := hex_loop (len s) 0 s (mkHex 0 0 false false LIMB_BITS None None (len s)) in
  if negb (h_any_digits st) then Ret (Err SignificandHasNoDigits)
  else if negb (h_has_exp st) then Ret (Err HexStringsRequireAnExponent)
  else
    match h_first st with
    | None => Ret (Ok (OK, ZERO S))
    | Some first =>
      let dot := h_dot st in
      let! adj :=
        (if first <? dot then chk32 (dot - first)
         else
           let! d := usub first dot in
           let! d := usub d 1 in
           let! d := chk32 d in
           chk32 (- d)) in
      let adj := sat32 (sat32 (sat32 (sat32 (adj * 4) - 1) + PRECISION S) - LIMB_BITS) in
      let e := sat32 (h_exp st + adj) in
      let loss := match h_loss st with Some l => l | None => ExactlyZero end in
      let! r := normalize S (mkFloat (h_sig st) e Normal false) round loss in
      Ret (Ok r)
    end.

(** ** Decimal *)

(** The mutable variables of the scan, src/ieee.rs:2313-2319 *)
Record dec_state := mkDec {
  d_any_digits : bool;
  d_exp : Z;
  d_first : option Z;
  d_last : Z;
  d_dot : Z
}.

(** src/ieee.rs:2321-2373, the loop over [s.char_indices()] *)
Fixpoint dec_loop (n p : Z) (s : list Z) (st : dec_state) : outcome (result dec_state) :=
  match s with
  | [] => Ret (Ok st)
  | c :: r =>
    if c =? ch "." then
      if negb (d_dot st =? n) then Ret (Err StringContainsMultipleDots)
      else dec_loop n (p + 1) r (mkDec (d_any_digits st) (d_exp st) (d_first st) (d_last st) p)
    else
      match to_digit 10 c with
      | Some v =>
        dec_loop n (p + 1) r
          (if negb (v =? 0) then
             mkDec true (d_exp st)
               (match d_first st with None => Some p | f => f end) p (d_dot st)
           else mkDec true (d_exp st) (d_first st) (d_last st) (d_dot st))
      | None =>
        if (c =? ch "e") || (c =? ch "E") then
          if negb (d_any_digits st) then Ret (Err SignificandHasNoDigits)
          else
            let dot := if d_dot st =? n then p else d_dot st in
            let '(exp_minus, r) := exp_sign r in
            match exp_digits r false (d_exp st) with
            | Err e => Ret (Err e)
            | Ok (any_exp_digits, e) =>
              assertb (any_exp_digits || (e =? 0)) (
              let! e := (if exp_minus then chk32 (- e) else Ret e) in
              Ret (Ok (mkDec (d_any_digits st) e (d_first st) (d_last st) dot)))
            end
        else Ret (Err InvalidCharacterInSignificand)
      end
  end.

(** src/ieee.rs:2442-2457, the inner loop: as many digits as fit in a limb.
    Returns [val], [multiplier] and the remaining characters. *)
Fixpoint dec_chunk (chars : list Z) (val multiplier : Z) : outcome (Z * Z * list Z) :=
  match chars with
  | [] => Ret (val, multiplier, [])
  | c :: r =>
    if c =? ch "." then dec_chunk r val multiplier
    else
      match to_digit 10 c with
      | None => Panic
      | Some d =>
        let! multiplier := chk128 (multiplier * 10) in
        let! v10 := chk128 (val * 10) in
        let! val := chk128 (v10 + d) in
        if (LIMB_MAX - 9) / 10 <? multiplier then Ret (val, multiplier, r)
        else dec_chunk r val multiplier
      end
  end.

(** src/ieee.rs:2465-2480: [dec_sig = dec_sig * multiplier + carry] *)
Fixpoint mul_add_limbs (limbs : list Z) (multiplier carry : Z) : outcome (list Z) :=
  match limbs with
  | [] => Ret (if 0 <? carry then [carry] else [])
  | x :: r =>
    let! '(low, high) := widening_mul x multiplier in
    let '(low, overflow) := overflowing_add128 low carry in
    let! high := chk128 (high + b2z overflow) in
    let! r := mul_add_limbs r multiplier high in
    Ret (low :: r)
  end.

(** src/ieee.rs:2437-2481, the outer loop; every round but the last consumes a
    character, so [fuel = 1 + number of characters] is enough. *)
Fixpoint dec_sig_loop (fuel : nat) (chars dec_sig : list Z) : outcome (list Z) :=
  match fuel with
  | O => Diverge
  | Datatypes.S fuel =>
    let! '(val, multiplier, chars) := dec_chunk chars 0 1 in
    if multiplier =? 1 then Ret dec_sig
    else
      let! dec_sig := mul_add_limbs dec_sig multiplier val in
      dec_sig_loop fuel chars dec_sig
  end.

(** [scratch.resize(n, 0); sig::mul(&mut scratch, &mut 0, a, b, n * LIMB_BITS);
    pop trailing zero limbs], src/ieee.rs:2499-2503 and 2507-2511 *)
Definition mul_into (scratch a b : list Z) : outcome (list Z) :=
  let n := len a + len b in
  let scratch := resize scratch n in
  let! '(scratch, _, _) := Sig.mul scratch 0 a b (n * LIMB_BITS) in
  Ret (pop_zeros scratch).

(** src/ieee.rs:2497-2516, [while power > 0]; the state is
    [(r, r_scratch, p5, p5_scratch)].  [power] is a usize below 2^32, so 64
    rounds are enough. *)
Fixpoint pow5_loop (fuel : nat) (power : Z) (r r_scratch p5 p5_scratch : list Z)
  : outcome (list Z * list Z * list Z * list Z) :=
  match fuel with
  | O => Diverge
  | Datatypes.S fuel =>
    if 0 <? power then
      let! p5_scratch := mul_into p5_scratch p5 p5 in
      let '(p5, p5_scratch) := (p5_scratch, p5) in
      let! '(r, r_scratch) :=
        (if negb (Z.land power 1 =? 0) then
           let! r_scratch := mul_into r_scratch r p5 in
           Ret (r_scratch, r)
         else Ret (r, r_scratch)) in
      pow5_loop fuel (Z.shiftr power 1) r r_scratch p5 p5_scratch
    else Ret (r, r_scratch, p5, p5_scratch)
  end.
(** src/ieee.rs:2485-2519 *)
Definition FIRST_EIGHT_POWERS : list Z := [1; 5; 25; 125; 625; 3125; 15625; 78125].
Definition pow5_full (dec_exp : Z) : outcome (list Z * list Z * list Z * list Z) :=
  let! a := chk32 (Z.abs dec_exp) in
  let! p4 := get FIRST_EIGHT_POWERS 4 in
  let! r0 := get FIRST_EIGHT_POWERS (Z.land a 7) in
  pow5_loop 64 (Z.shiftr a 3) [r0] [] [p4] [].

(** src/ieee.rs:2527-2588 [calc_normal_from_limbs]; returns the buffer, the
    status and the exponent. *)
Definition calc_normal_from_limbs (calc_precision : Z) (buf limbs : list Z)
  : outcome (list Z * Z * Z) :=
  let buf := resize buf (limbs_for_bits calc_precision) in
  let! '(buf, loss, exp) := from_limbs buf limbs calc_precision in
  let omsb := Sig.omsb buf in
  assertb (negb (omsb =? 0)) (
  let! d := chk32 (as_i32 omsb - as_i32 calc_precision) in
  let final_exp := sat32 (exp + d) in
  if final_exp <? exp then
    assertb (loss_eqb loss ExactlyZero) (
    let! exp_change := chk32 (exp - final_exp) in
    let! '(buf, exp) := shift_left buf exp exp_change in
    Ret (buf, OK, exp))
  else
    let! '(buf, exp, loss, omsb) :=
      (if exp <? final_exp then
         let! exp_change := chk32 (final_exp - exp) in
         let! '(buf, exp, l) := shift_right buf exp exp_change in
         Ret (buf, exp, combine l loss, saturating_usub omsb exp_change)
       else Ret (buf, exp, loss, omsb)) in
    assertb (omsb =? calc_precision) (
    if loss_eqb loss ExactlyZero then Ret (buf, OK, exp)
    else
      let! up :=
        (if loss_eqb loss MoreThanHalf then Ret true
         else if loss_eqb loss ExactlyHalf then get_bit buf 0
         else Ret false) in
      if up then
        let '(buf, c) := increment buf in
        assertb (c =? 0) (
        if Sig.omsb buf =? calc_precision + 1 then
          let! '(buf, exp, _) := shift_right buf exp 1 in
          Ret (buf, INEXACT, exp)
        else Ret (buf, INEXACT, exp))
      else Ret (buf, INEXACT, exp))).

(** src/ieee.rs:2648-2676 *)
Definition ulps_from_boundary (sig_calc : list Z) (calc_precision used_bits : Z) (round : Round)
  : outcome Z :=
  let! b := usub calc_precision used_bits in
  let! bits := usub b 1 in
  let i := bits / LIMB_BITS in
  let! x := get sig_calc i in
  let! mask := shr128 LIMB_MAX (LIMB_BITS - 1 - bits mod LIMB_BITS) in
  let limb := Z.land x mask in
  let! boundary :=
    (match round with
     | NearestTiesToEven | NearestTiesToAway => shl128 1 (bits mod LIMB_BITS)
     | _ => Ret 0
     end) in
  if i =? 0 then
    let delta := wrap128 (limb - boundary) in
    Ret (Z.min delta (wrap128 (- delta)))
  else
    let! s := slice_to sig_calc i in
    let! middle := slice_from s 1 in
    let! s0 := get sig_calc 0 in
    if limb =? boundary then
      if negb (is_all_zeros middle) then Ret LIMB_MAX else Ret s0
    else if limb =? wrap128 (boundary - 1) then
      if existsb (fun x => negb (wrap128 (- x) =? 1)) middle then Ret LIMB_MAX
      else Ret (wrap128 (- s0))
    else Ret LIMB_MAX.

(** [x.saturating_mul(2)] on u128 *)
Definition sat128 (x : Z) : Z := Z.min LIMB_MAX x.

(** src/ieee.rs:2522-2693, the attempts with increasing precision.  The
    precision of attempt [a] is [(128 << a) - 1]; [attempt] is bounded by the
    width of usize, so 57 attempts is all the code could ever make. *)
Fixpoint dec_attempts (fuel : nat) (S : Semantics) (attempt : Z)
    (dec_sig pow5 : list Z) (dec_exp : Z) (round : Round)
    (sig_calc pow5_calc sig_scratch : list Z) : outcome (Z * Float) :=
  match fuel with
  | O => Diverge
  | Datatypes.S fuel =>
    let calc_precision := Z.shiftl LIMB_BITS attempt - 1 in
    let! '(sig_calc, status, exp) := calc_normal_from_limbs calc_precision sig_calc dec_sig in
    let! '(pow5_calc, pow5_status, pow5_exp) :=
      calc_normal_from_limbs calc_precision pow5_calc pow5 in
    let! exp := chk32 (exp + dec_exp) in
    let used_bits := PRECISION S in
    let! truncated_bits := usub calc_precision used_bits in
    let half_ulp_err1 := b2z (negb (status =? OK)) in
    let! '(sig_calc, sig_scratch, pow5_calc, exp, calc_loss, half_ulp_err2, used_bits, truncated_bits) :=
      (if 0 <=? dec_exp then
         let! exp := chk32 (exp + pow5_exp) in
         let sig_scratch := resize sig_scratch (len sig_calc + len pow5_calc) in
         let! '(sig_scratch, exp, calc_loss) :=
           Sig.mul sig_scratch exp sig_calc pow5_calc calc_precision in
         Ret (sig_scratch, sig_calc, pow5_calc, exp, calc_loss,
              b2z (negb (pow5_status =? OK)), used_bits, truncated_bits)
       else
         let! exp := chk32 (exp - pow5_exp) in
         let sig_scratch := resize sig_scratch (len sig_calc) in
         let! '(q, exp, calc_loss) := Sig.div sig_scratch exp sig_calc pow5_calc calc_precision in
         let! '(used_bits, truncated_bits) :=
           (if exp <? MIN_EXP S then
              let! d := chk32 (MIN_EXP S - exp) in
              let truncated_bits := truncated_bits + d in
              Ret (saturating_usub calc_precision truncated_bits, truncated_bits)
            else Ret (used_bits, truncated_bits)) in
         Ret (q, sig_calc, pow5_calc, exp, calc_loss,
              2 * b2z (negb (pow5_status =? OK) || negb (loss_eqb calc_loss ExactlyZero)),
              used_bits, truncated_bits)) in
    let! cp1 := usub calc_precision 1 in
    let! top := get_bit sig_calc cp1 in
    assertb top (
    assertb ((half_ulp_err1 <? 2) || (half_ulp_err2 <? 2) || (half_ulp_err1 + half_ulp_err2 <? 8)) (
    let inexact := b2z (negb (loss_eqb calc_loss ExactlyZero)) in
    let half_ulp_err :=
      if half_ulp_err1 + half_ulp_err2 =? 0 then inexact * 2
      else inexact + 2 * (half_ulp_err1 + half_ulp_err2) in
    let! ulps := ulps_from_boundary sig_calc calc_precision used_bits round in
    if half_ulp_err <=? sat128 (ulps * 2) then
      let! lsb := usub calc_precision used_bits in
      let! l := extract [0] sig_calc used_bits lsb in
      let! s0 := get l 0 in
      let! d := usub (PRECISION S) used_bits in
      let! e := chk32 (exp + as_i32 d) in
      let! loss := through_truncation sig_calc truncated_bits in
      normalize S (mkFloat s0 e Normal false) round loss
    else
      dec_attempts fuel S (attempt + 1) dec_sig pow5 dec_exp round sig_calc pow5_calc sig_scratch))
  end.

(** src/ieee.rs:2300-2694 [from_decimal_string].  After a [Sig.div] the code
    keeps the (clobbered) dividend and divisor buffers as scratch space; every
    later use resizes and overwrites all of it, and the model keeps the
    unclobbered buffers instead. *)
Definition from_decimal_string (S : Semantics) (s : list Z) (round : Round)
  : outcome (result (Z * Float)) :=
  let? st := dec_loop (len s) 0 s (mkDec false 0 None 0 (len s)) in
  if negb (d_any_digits st) then Ret (Err SignificandHasNoDigits)
  else
    match d_first st with
    | None => Ret (Ok (OK, ZERO S))
    | Some first =>
      let dot := d_dot st in
      let last := d_last st in
      let dec_exp :=
        if last <? dot then sat32 (d_exp st + as_i32 (dot - last - 1))
        else sat32 (d_exp st - as_i32 (last - dot)) in
      let! n := usub last first in
      let! significand_digits := usub (n + 1) (b2z ((first <? dot) && (dot <? last))) in
      let! sd1 := chk32 (as_i32 significand_digits - 1) in
      let normalized_exp := sat32 (dec_exp + sd1) in
      let! max12655 := chk32 (12655 * MAX_EXP S) in
      let! min8651 := chk32 (8651 * (MIN_EXP S - PRECISION S)) in
      if max12655 <=? sat32 (sat32 (normalized_exp - 1) * 42039) then
        Ret (Ok (overflow_result S round))
      else if sat32 (sat32 (normalized_exp + 1) * 28738) <=? min8651 then
        Ret (Ok (Z.lor UNDERFLOW INEXACT,
                 if round_eqb round TowardPositive then SMALLEST S else ZERO S))
      else
        let! tail := slice_from s first in
        let! chars := slice_to tail (last + 1 - first) in
        let! dec_sig := dec_sig_loop (Datatypes.S (List.length chars)) chars [] in
        let! '(p5full, pow5_calc, sig_calc, sig_scratch) := pow5_full dec_exp in
        let! r := dec_attempts 57 S 0 dec_sig p5full dec_exp round sig_calc pow5_calc sig_scratch in
        Ret (Ok r)
    end.

(** ** [from_str_r] *)

(** src/ieee.rs:1604-1639: the NaN alternative of the special cases *)
Definition parse_nan (S : Semantics) (s : list Z) : option Float :=
  let '(is_signaling, s) :=
    match strip_prefix_any [ch "s"; ch "S"] s with
    | Some s => (true, s)
    | None => (false, s)
    end in
  match (match strip_prefix (bytes "nan") s with
         | Some s => Some s
         | None => strip_prefix (bytes "NaN") s
         end) with
  | None => None
  | Some s =>
    let s :=
      match strip_prefix (bytes "(") s with
      | Some s1 =>
        match strip_suffix (bytes ")") s1 with
        | Some s2 => if negb (is_empty s2) then s2 else s
        | None => s
        end
      | None => s
      end in
    let make (payload : option Z) := if is_signaling then snan S payload else qnan S payload in
    if is_empty s then Some (make None)
    else
      let '(radix, s) :=
        match strip_prefix (bytes "0") s with
        | Some s1 =>
          if is_empty s1 then (10, s)
          else
            match strip_prefix_any [ch "x"; ch "X"] s1 with
            | Some s2 => (16, s2)
            | None => (8, s1)
            end
        | None => (10, s)
        end in
      match u128_from_str_radix s radix with
      | Some p => Some (make (Some p))
      | None => None
      end
  end.

(** src/ieee.rs:1582-1670 [from_str_r] *)
Definition from_str_r (S : Semantics) (s : list Z) (round : Round) : outcome (result (Z * Float)) :=
  if is_empty s then Ret (Err InvalidStringLength)
  else
    let '(minus, s) :=
      match strip_prefix (bytes "-") s with Some s => (true, s) | None => (false, s) end in
    let '(explicit_plus, s) :=
      match strip_prefix (bytes "+") s with
      | Some s1 => if negb minus then (true, s1) else (false, s)
      | None => (false, s)
      end in
    let special :=
      if str_eqb s (bytes "Inf") && (minus || explicit_plus) then Some (INFINITY S)
      else if (str_eqb s (bytes "inf") || str_eqb s (bytes "INFINITY")) && negb explicit_plus
      then Some (INFINITY S)
      else if negb explicit_plus then parse_nan S s
      else None in
    match special with
    | Some r => Ret (Ok (OK, negate_if r minus))
    | None =>
      if is_empty s then Ret (Err StringHasNoDigits)
      else
        let round := round_negate_if round minus in
        let '(is_hex, s) :=
          match strip_prefix (bytes "0") s with
          | Some s1 =>
            match strip_prefix_any [ch "x"; ch "X"] s1 with
            | Some s2 => (true, s2)
            | None => (false, s)
            end
          | None => (false, s)
          end in
        let? '(status, r) :=
          (if is_hex then
             if is_empty s then Ret (Err InvalidString)
             else from_hexadecimal_string S s round
           else from_decimal_string S s round) in
        Ret (Ok (status, negate_if r minus))
    end.
