(** * Fmt.v -- model of [impl Display for IeeeFloat<S>] (src/ieee.rs:525-807).

    The output is the list of the bytes written to the formatter.  The three
    formatter parameters the code reads are arguments: [f.width()],
    [f.precision()] and [f.alternate()]. *)
From Coq Require Import ZArith List Bool String.
From Verif Require Import Machine Sig Ieee Parse.
Import ListNotations.
Local Open Scope Z_scope.

(** [n] copies of the character '0' *)
Definition zeros (n : Z) : list Z := repeat (ch "0") (Z.to_nat n).

(** Decimal digits of a non-negative integer, as [core::fmt] prints them
    (no leading zero, "0" for zero); at most 10 digits for an i32. *)
Fixpoint dec_digits (fuel : nat) (n : Z) (acc : list Z) : list Z :=
  match fuel with
  | O => acc
  | Datatypes.S fuel =>
    let acc := (ch "0" + n mod 10) :: acc in
    if n <? 10 then acc else dec_digits fuel (n / 10) acc
  end.
(** [write!(f, "{:+}", e)] *)
Definition fmt_plus (e : Z) : list Z :=
  (if e <? 0 then ch "-" else ch "+") :: dec_digits 20 (Z.abs e) [].
(** [write!(f, "{:+03}", e)]: sign-aware zero padding to width 3 *)
Definition fmt_plus03 (e : Z) : list Z :=
  let d := dec_digits 20 (Z.abs e) [] in
  (if e <? 0 then ch "-" else ch "+") :: zeros (2 - len d) ++ d.

(** src/ieee.rs:608-628: [while texp != 0], the state is
    [(sig, sig_scratch, p5, p5_scratch)]; [texp] is an i32, so 64 rounds are
    enough. *)
Fixpoint fmt_pow5_loop (fuel : nat) (texp : Z) (sg sig_scratch p5 p5_scratch : list Z)
  : outcome (list Z) :=
  match fuel with
  | O => Diverge
  | Datatypes.S fuel =>
    if negb (texp =? 0) then
      let! '(p5, p5_scratch) :=
        (if is_empty p5 then Ret (p5 ++ [5], p5_scratch)
         else
           let! p5_scratch := mul_into p5_scratch p5 p5 in
           Ret (p5_scratch, p5)) in
      let! '(sg, sig_scratch) :=
        (if negb (Z.land texp 1 =? 0) then
           let! sig_scratch := mul_into sig_scratch sg p5 in
           Ret (sig_scratch, sg)
         else Ret (sg, sig_scratch)) in
      fmt_pow5_loop fuel (Z.shiftr texp 1) sg sig_scratch p5 p5_scratch
    else Ret sg
  end.

(** src/ieee.rs:641-657: [rem <- sig % 10; sig <- sig / 10] on 32-bit chunks,
    then drop zero limbs *)
Definition div10 (sg : list Z) : outcome (list Z * Z) :=
  let! '(sg, rem) :=
    each_chunk sg 32 (fun chunk rem =>
      let chunk := chunk mod 2 ^ 32 in
      let combined := Z.lor (Z.shiftl rem 32) chunk in
      Ret ((combined / 10) mod 2 ^ 32, (combined mod 10) mod 2 ^ 8)) 0 in
  Ret (pop_zeros sg, rem).

(** src/ieee.rs:640-675: [while !sig.is_empty()], filling the buffer (least
    significant digit first); returns the buffer and the exponent.  A digit is
    produced per round, so the number of bits of [sig] is enough fuel. *)
Fixpoint digits_loop (fuel : nat) (sg : list Z) (e : Z) (discard : Z) (in_trail : bool) (buffer : list Z)
  : outcome (list Z * Z) :=
  match fuel with
  | O => Diverge
  | Datatypes.S fuel =>
    if is_empty sg then Ret (buffer, e)
    else
      let! '(sg, digit) := div10 sg in
      if 0 <? discard then
        let! e := chk32 (e + 1) in
        digits_loop fuel sg e (discard - 1) in_trail buffer
      else if in_trail && (digit =? 0) then
        let! e := chk32 (e + 1) in
        digits_loop fuel sg e discard in_trail buffer
      else
        digits_loop fuel sg e discard false (buffer ++ [ch "0" + digit])
  end.

(** src/ieee.rs:688-693: [while first_sig < buffer.len() && buffer[first_sig] == b'0'];
    counts the leading zeros of the rest of the buffer *)
Fixpoint count_zeros (buffer : list Z) : Z :=
  match buffer with
  | c :: r => if c =? ch "0" then 1 + count_zeros r else 0
  | [] => 0
  end.
(** src/ieee.rs:695-705: the decimal add-with-carry on [buffer[first_sig..]];
    returns the number of nines passed and the updated slice *)
Fixpoint carry_nines (buffer : list Z) : Z * list Z :=
  match buffer with
  | c :: r =>
    if c =? ch "9" then let '(n, r) := carry_nines r in (1 + n, c :: r)
    else (0, (c + 1) :: r)
  | [] => (0, [])
  end.

(** src/ieee.rs:679-714: drop down to [precision] digits *)
Definition round_buffer (buffer : list Z) (e precision : Z) : outcome (list Z * Z) :=
  if precision <? len buffer then
    let first_sig := len buffer - precision in
    let! f1 := usub first_sig 1 in
    let! d := get buffer f1 in
    let! tail := slice_from buffer first_sig in
    let '(skip, tail) :=
      if d <? ch "5" then (count_zeros tail, tail) else carry_nines tail in
    let! e := chk32 (e + as_i32 (first_sig + skip)) in
    let! rest := slice_from tail skip in
    Ret (if is_empty rest then [ch "1"] else rest, e)
  else Ret (buffer, e).

(** src/ieee.rs:719-739: choice of the notation *)
Definition use_scientific (width precision e digits : Z) : outcome bool :=
  if width =? 0 then Ret true
  else if 0 <=? e then Ret ((width <? e) || (precision <? digits + e))
  else
    let! d1 := usub digits 1 in
    let! msd := chk32 (e + as_i32 d1) in
    if 0 <=? msd then Ret false
    else
      let! nm := chk32 (- msd) in
      Ret (width <? nm).

(** src/ieee.rs:742-772: scientific notation *)
Definition write_scientific (buffer : list Z) (e precision : Z) (alternate : bool)
  : outcome (list Z) :=
  let digits := len buffer in
  let! de := chk32 (as_i32 digits - 1) in
  let! e := chk32 (e + de) in
  let! d1 := usub digits 1 in
  let! top := get buffer d1 in
  let! low := slice_to buffer d1 in
  let truncate_zero := negb alternate in
  let body := if (digits =? 1) && truncate_zero then [ch "0"] else rev low in
  let! fill :=
    (if negb truncate_zero && (d1 <? precision) then
       let! a := usub precision digits in Ret (zeros (a + 1))
     else Ret []) in
  Ret ([top; ch "."] ++ body ++ fill
       ++ [if alternate then ch "e" else ch "E"]
       ++ (if truncate_zero then fmt_plus e else fmt_plus03 e)).

(** src/ieee.rs:774-805: positional notation *)
Definition write_positional (buffer : list Z) (e : Z) : outcome (list Z) :=
  let digits := len buffer in
  if 0 <=? e then Ret (rev buffer ++ zeros e)
  else
    let! unit_place := chk32 (- e) in
    if unit_place <? digits then
      let! hi := slice_from buffer unit_place in
      let! lo := slice_to buffer unit_place in
      Ret (rev hi ++ [ch "."] ++ rev lo)
    else Ret (bytes "0." ++ zeros (unit_place - digits) ++ rev buffer).

(** src/ieee.rs:526-806 [fmt].  [precision] comes from the caller: the overflow
    check of [precision * 196 + 58] (a [usize], here of 64 bits) is modelled. *)
Definition fmt (S : Semantics) (x : Float) (f_width f_precision : option Z) (alternate : bool)
  : outcome (list Z) :=
  let width := match f_width with Some w => w | None => 3 end in
  match category x with
  | Infinity => Ret (if is_negative x then bytes "-Inf" else bytes "+Inf")
  | NaN => Ret (bytes "NaN")
  | Zero =>
    Ret ((if is_negative x then [ch "-"] else [])
         ++ (if width =? 0 then
               if alternate then
                 bytes "0.0"
                 ++ (match f_precision with Some n => zeros (n - 1) | None => [] end)
                 ++ bytes "e+00"
               else bytes "0.0E+0"
             else [ch "0"]))
  | Normal =>
    let precision := match f_precision with Some p => p | None => 2 + PRECISION S * 59 / 196 end in
    let! e := chk32 (exp x - (PRECISION S - 1)) in
    let tz := trailing_zeros128 (sig x) in
    let! '(sg, e, _) := shift_right [sig x] e tz in
    let! '(sg, e) :=
      (if e =? 0 then Ret (sg, e)
       else if 0 <? e then
         let sg := resize sg (limbs_for_bits (PRECISION S + e)) in
         shift_left sg e e
       else
         let! texp := chk32 (- e) in
         let! sg := fmt_pow5_loop 64 texp sg [] [] [] in
         Ret (sg, e)) in
    assertb (precision * 196 + 58 <? 2 ^ 64) (
    let required := (precision * 196 + 58) / 59 in
    let omsb := Sig.omsb sg in
    let discard := saturating_usub omsb required * 59 / 196 in
    let! '(buffer, e) := digits_loop (Datatypes.S (Z.to_nat (128 * len sg))) sg e discard true [] in
    assertb (negb (is_empty buffer)) (
    let! '(buffer, e) := round_buffer buffer e precision in
    let! sci := use_scientific width precision e (len buffer) in
    let! body :=
      (if sci then write_scientific buffer e precision alternate
       else write_positional buffer e) in
    Ret ((if is_negative x then [ch "-"] else []) ++ body)))
  end.
