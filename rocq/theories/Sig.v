(** * Sig.v -- model of [mod sig] and [enum Loss] of src/ieee.rs.

    A limb slice is a little-endian [list Z] of u128 values.  In-place updates
    return the new slice; loops keep the order in which the code reads and
    writes the slice. *)
From Coq Require Import ZArith List Bool.
From Verif Require Import Machine.
Import ListNotations.
Local Open Scope Z_scope.

(** src/ieee.rs:50-53 [limbs_for_bits] *)
Definition limbs_for_bits (bits : Z) : Z := (bits + LIMB_BITS - 1) / LIMB_BITS.

(** src/ieee.rs:74-82 [enum Loss] *)
Inductive Loss := ExactlyZero | LessThanHalf | ExactlyHalf | MoreThanHalf.

(** [==] on the derived [PartialEq] of [Loss], src/ieee.rs:75 *)
Definition loss_eqb (a b : Loss) : bool :=
  match a, b with
  | ExactlyZero, ExactlyZero | LessThanHalf, LessThanHalf
  | ExactlyHalf, ExactlyHalf | MoreThanHalf, MoreThanHalf => true
  | _, _ => false
  end.

(** src/ieee.rs:2700-2711 [Loss::combine] *)
Definition combine (more_significant less_significant : Loss) : Loss :=
  if negb (loss_eqb less_significant ExactlyZero) then
    if loss_eqb more_significant ExactlyZero then LessThanHalf
    else if loss_eqb more_significant ExactlyHalf then MoreThanHalf
    else more_significant
  else more_significant.

(** src/ieee.rs:2749-2751 [sig::is_all_zeros] *)
Definition is_all_zeros (limbs : list Z) : bool := forallb (fun l => l =? 0) limbs.

(** src/ieee.rs:2716-2738 [Loss::through_truncation] *)
Definition through_truncation (limbs : list Z) (bits : Z) : outcome Loss :=
  if bits =? 0 then Ret ExactlyZero
  else
    let! half_bit := usub bits 1 in
    let half_limb := half_bit / LIMB_BITS in
    let! '(half_limb, rest) :=
      (if half_limb <? len limbs then
         let! h := get limbs half_limb in
         let! r := slice_to limbs half_limb in
         Ret (h, r)
       else Ret (0, limbs)) in
    let! half := shl128 1 (half_bit mod LIMB_BITS) in
    let has_half := negb (Z.land half_limb half =? 0) in
    let! half_m1 := chk128 (half - 1) in
    let has_rest := negb (Z.land half_limb half_m1 =? 0) || negb (is_all_zeros rest) in
    Ret (match has_half, has_rest with
         | false, false => ExactlyZero
         | false, true => LessThanHalf
         | true, false => ExactlyHalf
         | true, true => MoreThanHalf
         end).

(** src/ieee.rs:2755-2763 [sig::olsb] *)
Fixpoint olsb_from (i : Z) (limbs : list Z) : Z :=
  match limbs with
  | [] => 0
  | x :: r => if x =? 0 then olsb_from (i + 1) r else i * LIMB_BITS + trailing_zeros128 x + 1
  end.
Definition olsb (limbs : list Z) : Z := olsb_from 0 limbs.

(** src/ieee.rs:2767-2775 [sig::omsb]; [rlimbs] is the slice from its last limb
    down, [n] the number of limbs in it (so the current index is [n - 1]). *)
Fixpoint omsb_rev (rlimbs : list Z) (n : Z) : Z :=
  match rlimbs with
  | [] => 0
  | x :: r => if x =? 0 then omsb_rev r (n - 1) else n * LIMB_BITS - leading_zeros128 x
  end.
Definition omsb (limbs : list Z) : Z := omsb_rev (rev limbs) (len limbs).

(** src/ieee.rs:2779-2789 [sig::cmp] *)
Fixpoint cmp_pairs (l : list (Z * Z)) : comparison :=
  match l with
  | [] => Eq
  | (a, b) :: r =>
    match a ?= b with
    | Eq => cmp_pairs r
    | o => o
    end
  end.
Definition cmp (a b : list Z) : outcome comparison :=
  assertb (len a =? len b) (Ret (cmp_pairs (rev (List.combine a b)))).

(** src/ieee.rs:2793-2795 [sig::get_bit] *)
Definition get_bit (limbs : list Z) (bit : Z) : outcome bool :=
  let! l := get limbs (bit / LIMB_BITS) in
  let! m := shl128 1 (bit mod LIMB_BITS) in
  Ret (negb (Z.land l m =? 0)).

(** src/ieee.rs:2799-2801 [sig::set_bit] *)
Definition set_bit (limbs : list Z) (bit : Z) : outcome (list Z) :=
  let! l := get limbs (bit / LIMB_BITS) in
  let! m := shl128 1 (bit mod LIMB_BITS) in
  set limbs (bit / LIMB_BITS) (Z.lor l m).

(** src/ieee.rs:2805-2834 [sig::shift_left] *)
Definition shift_left (dst : list Z) (exp : Z) (bits : Z) : outcome (list Z * Z) :=
  if 0 <? bits then
    let! exp := chk32 (exp - as_i32 bits) in
    let jump := bits / LIMB_BITS in
    let shift := bits mod LIMB_BITS in
    let! dst :=
      for_each (rev (zrange 0 (len dst)))
        (fun i dst =>
           let! limb :=
             (if i <? jump then Ret 0
              else
                let! limb := get dst (i - jump) in
                if 0 <? shift then
                  let! limb := shl128 limb shift in
                  if jump + 1 <=? i then
                    let! x := get dst (i - jump - 1) in
                    let! y := shr128 x (LIMB_BITS - shift) in
                    Ret (Z.lor limb y)
                  else Ret limb
                else Ret limb) in
           set dst i limb) dst in
    Ret (dst, exp)
  else Ret (dst, exp).

(** src/ieee.rs:2838-2871 [sig::shift_right] *)
Definition shift_right (dst : list Z) (exp : Z) (bits : Z) : outcome (list Z * Z * Loss) :=
  let! loss := through_truncation dst bits in
  if 0 <? bits then
    let! exp := chk32 (exp + as_i32 bits) in
    let jump := bits / LIMB_BITS in
    let shift := bits mod LIMB_BITS in
    let! dst :=
      for_each (zrange 0 (len dst))
        (fun i dst =>
           let! limb :=
             (if len dst <=? i + jump then Ret 0
              else
                let! limb := get dst (i + jump) in
                if 0 <? shift then
                  let! limb := shr128 limb shift in
                  if i + jump + 1 <? len dst then
                    let! x := get dst (i + jump + 1) in
                    let! y := shl128 x (LIMB_BITS - shift) in
                    Ret (Z.lor limb y)
                  else Ret limb
                else Ret limb) in
           set dst i limb) dst in
    Ret (dst, exp, loss)
  else Ret (dst, exp, loss).

(** src/ieee.rs:2877-2906 [sig::extract] *)
Definition extract (dst src : list Z) (src_bits src_lsb : Z) : outcome (list Z) :=
  if src_bits =? 0 then Ret dst
  else
    let dst_limbs := limbs_for_bits src_bits in
    assertb (dst_limbs <=? len dst) (
    let! src := slice_from src (src_lsb / LIMB_BITS) in
    let! low := slice_to src dst_limbs in
    let shift := src_lsb mod LIMB_BITS in
    let! '(low, _, _) := shift_right low 0 shift in
    let n := dst_limbs * LIMB_BITS - shift in
    let! low :=
      (if n <? src_bits then
         let! m := shl128 1 (src_bits - n) in
         let! mask := chk128 (m - 1) in
         let! last := get low (dst_limbs - 1) in
         let! s := get src dst_limbs in
         let! x := shl128 (Z.land s mask) (n mod LIMB_BITS) in
         set low (dst_limbs - 1) (Z.lor last x)
       else if (src_bits <? n) && (0 <? src_bits mod LIMB_BITS) then
         let! m := shl128 1 (src_bits mod LIMB_BITS) in
         let! mask := chk128 (m - 1) in
         let! last := get low (dst_limbs - 1) in
         set low (dst_limbs - 1) (Z.land last mask)
       else Ret low) in
    (* Clear high limbs. *)
    let! high := slice_from dst dst_limbs in
    Ret (low ++ map (fun _ => 0) high)).

(** src/ieee.rs:2911-2921 [sig::from_limbs]; returns [dst], the loss and the
    exponent. *)
Definition from_limbs (dst src : list Z) (precision : Z) : outcome (list Z * Loss * Z) :=
  let omsb := omsb src in
  if precision <=? omsb then
    let! dst := extract dst src precision (omsb - precision) in
    let! loss := through_truncation src (omsb - precision) in
    let! e := chk32 (as_i32 omsb - 1) in
    Ret (dst, loss, e)
  else
    let! dst := extract dst src omsb 0 in
    let! e := chk32 (as_i32 precision - 1) in
    Ret (dst, ExactlyZero, e).

(** src/ieee.rs:2927-2936 [sig::each_chunk]; the [FnMut] closure is a function
    of the chunk and of its captured state. *)
Definition each_chunk_limb {S} (bits : Z) (f : Z -> S -> outcome (Z * S)) (limb : Z) (s : S)
  : outcome (Z * S) :=
  for_each (rev (zrange 0 (LIMB_BITS / bits)))
    (fun i '(r, s) =>
       let! x := shr128 limb (i * bits) in
       let! m := shl128 1 bits in
       let! mask := chk128 (m - 1) in
       let! '(y, s) := f (Z.land x mask) s in
       let! y := shl128 y (i * bits) in
       Ret (Z.lor r y, s)) (0, s).
(** the loop over [limbs.iter_mut().rev()] *)
Fixpoint each_chunk_rev {S} (bits : Z) (f : Z -> S -> outcome (Z * S)) (rlimbs : list Z) (s : S)
  : outcome (list Z * S) :=
  match rlimbs with
  | [] => Ret ([], s)
  | x :: r =>
    let! '(y, s) := each_chunk_limb bits f x s in
    let! '(r, s) := each_chunk_rev bits f r s in
    Ret (y :: r, s)
  end.
Definition each_chunk {S} (limbs : list Z) (bits : Z) (f : Z -> S -> outcome (Z * S)) (s : S)
  : outcome (list Z * S) :=
  assertb (LIMB_BITS mod bits =? 0) (
  let! '(r, s) := each_chunk_rev bits f (rev limbs) s in
  Ret (rev r, s)).

(** src/ieee.rs:2940-2949 [sig::increment] *)
Fixpoint increment (dst : list Z) : list Z * Z :=
  match dst with
  | [] => ([], 1)
  | x :: r =>
    let x := wrap128 (x + 1) in
    if negb (x =? 0) then (x :: r, 0)
    else let '(r, c) := increment r in (x :: r, c)
  end.

(** src/ieee.rs:2953-2962 [sig::decrement] *)
Fixpoint decrement (dst : list Z) : list Z * Z :=
  match dst with
  | [] => ([], 1)
  | x :: r =>
    let x := wrap128 (x - 1) in
    if negb (x =? LIMB_MAX) then (x :: r, 0)
    else let '(r, c) := decrement r in (x :: r, c)
  end.

(** src/ieee.rs:2966-2977 [sig::add]; [zip] stops at the shorter slice. *)
Fixpoint add_loop (a b : list Z) (c : Z) : list Z * Z :=
  match a, b with
  | x :: a, y :: b =>
    let '(r, o1) := overflowing_add128 x y in
    let '(r, o2) := overflowing_add128 r c in
    let '(rest, c) := add_loop a b (b2z (o1 || o2)) in
    (r :: rest, c)
  | _, _ => (a, c)
  end.
Definition add (a b : list Z) (c : Z) : outcome (list Z * Z) :=
  assertb (c <=? 1) (Ret (add_loop a b c)).

(** src/ieee.rs:2981-2992 [sig::sub] *)
Fixpoint sub_loop (a b : list Z) (c : Z) : list Z * Z :=
  match a, b with
  | x :: a, y :: b =>
    let '(r, o1) := overflowing_sub128 x y in
    let '(r, o2) := overflowing_sub128 r c in
    let '(rest, c) := sub_loop a b (b2z (o1 || o2)) in
    (r :: rest, c)
  | _, _ => (a, c)
  end.
Definition sub (a b : list Z) (c : Z) : outcome (list Z * Z) :=
  assertb (c <=? 1) (Ret (sub_loop a b c)).

(** src/ieee.rs:2996-3052 [sig::add_or_sub]; returns [a_sig], [a_exp],
    [a_sign] and the loss.  [b_sig] is scratch for both callers, so its final
    contents are dropped. *)
Definition add_or_sub (a_sig : list Z) (a_exp : Z) (a_sign : bool)
    (b_sig : list Z) (b_exp : Z) (b_sign : bool) : outcome (list Z * Z * bool * Loss) :=
  let! bits := chk32 (a_exp - b_exp) in
  if xorb a_sign b_sign then
    let! '(a_sig, a_exp, b_sig, loss) :=
      (if bits =? 0 then Ret (a_sig, a_exp, b_sig, ExactlyZero)
       else if 0 <? bits then
         let! '(b_sig, _, loss) := shift_right b_sig 0 (bits - 1) in
         let! '(a_sig, a_exp) := shift_left a_sig a_exp 1 in
         Ret (a_sig, a_exp, b_sig, loss)
       else
         let! nb := chk32 (- bits) in
         let! '(a_sig, a_exp, loss) := shift_right a_sig a_exp (nb - 1) in
         let! '(b_sig, _) := shift_left b_sig 0 1 in
         Ret (a_sig, a_exp, b_sig, loss)) in
    let borrow := b2z (negb (loss_eqb loss ExactlyZero)) in
    let! c := cmp a_sig b_sig in
    let! '(a_sig, a_sign) :=
      (match c with
       | Lt =>
         let! '(b_sig, out) := sub b_sig a_sig borrow in
         assertb (out =? 0) (
         assertb (len a_sig =? len b_sig) (Ret (b_sig, negb a_sign)))
       | _ =>
         let! '(a_sig, out) := sub a_sig b_sig borrow in
         assertb (out =? 0) (Ret (a_sig, a_sign))
       end) in
    Ret (a_sig, a_exp, a_sign,
         match loss with
         | LessThanHalf => MoreThanHalf
         | MoreThanHalf => LessThanHalf
         | _ => loss
         end)
  else
    let! '(a_sig, a_exp, b_sig, loss) :=
      (if 0 <? bits then
         let! '(b_sig, _, loss) := shift_right b_sig 0 bits in
         Ret (a_sig, a_exp, b_sig, loss)
       else
         let! nb := chk32 (- bits) in
         let! '(a_sig, a_exp, loss) := shift_right a_sig a_exp nb in
         Ret (a_sig, a_exp, b_sig, loss)) in
    let! '(a_sig, out) := add a_sig b_sig 0 in
    assertb (out =? 0) (Ret (a_sig, a_exp, a_sign, loss)).

(** src/ieee.rs:3062-3081 [sig::widening_mul] *)
Definition HALF_BITS : Z := LIMB_BITS / 2.
Definition select (limb i : Z) : outcome Z :=
  let! x := shr128 limb (i * HALF_BITS) in
  let! m := shl128 1 HALF_BITS in
  let! mask := chk128 (m - 1) in
  Ret (Z.land x mask).
Definition widening_mul (a b : Z) : outcome (Z * Z) :=
  if (a =? 0) || (b =? 0) then Ret (0, 0)
  else
    let! wide :=
      for_each [0; 1] (fun i wide =>
        for_each [0; 1] (fun j wide =>
          let! x := select a i in
          let! y := select b j in
          let! xy := chk128 (x * y) in
          let! '(x, _) := shift_left [xy; 0] 0 ((i + j) * HALF_BITS) in
          let! '(wide, c) := add wide x 0 in
          assertb (c =? 0) (Ret wide)) wide) [0; 0] in
    match wide with
    | [lo; hi] => Ret (lo, hi)
    | _ => Panic
    end.

(** src/ieee.rs:3085-3151 [sig::mul]; returns [dst], [exp] and the loss. *)
Definition mul (dst : list Z) (exp : Z) (a b : list Z) (precision : Z) : outcome (list Z * Z * Loss) :=
  let '(a, b) := if len b <? len a then (b, a) else (a, b) in
  let! _ := slice_to dst (len b) in
  let! dst := for_each (zrange 0 (len b)) (fun i dst => set dst i 0) dst in
  let! dst :=
    for_each (zrange 0 (len a)) (fun i dst =>
      let! '(dst, carry) :=
        for_each (zrange 0 (len b)) (fun j '(dst, carry) =>
          let! ai := get a i in
          let! bj := get b j in
          let! '(low, high) := widening_mul ai bj in
          (* Now add carry. *)
          let '(low, overflow) := overflowing_add128 low carry in
          let! high := chk128 (high + b2z overflow) in
          (* And now [dst[i + j]], and store the new low part there. *)
          let! d := get dst (i + j) in
          let '(low, overflow) := overflowing_add128 low d in
          let! high := chk128 (high + b2z overflow) in
          let! dst := set dst (i + j) low in
          Ret (dst, high)) (dst, 0) in
      set dst (i + len b) carry) dst in
  let! exp := chk32 (exp + 2) in
  let! p1 := chk32 (as_i32 precision + 1) in
  let! exp := chk32 (exp - p1) in
  let omsb := omsb dst in
  if omsb <=? precision then Ret (dst, exp, ExactlyZero)
  else shift_right dst exp (omsb - precision).

(** src/ieee.rs:3188-3198, the [lost_fraction] closure of [sig::div] *)
Definition lost_fraction (dividend divisor : list Z) : outcome Loss :=
  let! c := cmp dividend divisor in
  Ret (match c with
       | Gt => MoreThanHalf
       | Eq => ExactlyHalf
       | Lt => if is_all_zeros dividend then ExactlyZero else LessThanHalf
       end).

(** src/ieee.rs:3202-3226, the body of [try_short_div!]; [half] is 16, 32 or 64
    and [as $H] is reduction modulo [2^half]. *)
Definition short_div (quotient dividend divisor : list Z) (olsb_divisor divisor_bits half : Z)
  : outcome (list Z * Loss) :=
  let! sh := usub olsb_divisor 1 in
  let! '(divisor, _, _) := shift_right divisor 0 sh in
  let! d0 := get divisor 0 in
  let divisor := d0 mod 2 ^ half in
  let! top_limb := (match rev dividend with x :: _ => Ret x | [] => Panic end) in
  let! db1 := usub divisor_bits 1 in
  let! sh := usub LIMB_BITS db1 in
  let! rem := shr128 top_limb sh in
  let rem := rem mod 2 ^ half in
  let! '(dividend, _) := shift_left dividend 0 db1 in
  let! '(dividend, rem) :=
    each_chunk dividend half (fun chunk rem =>
      let chunk := chunk mod 2 ^ half in
      let combined := Z.lor (Z.shiftl rem half) chunk in
      if divisor =? 0 then Panic
      else Ret ((combined / divisor) mod 2 ^ half, (combined mod divisor) mod 2 ^ half)) rem in
  assertb (len quotient =? len dividend) (
  let! rem2 := shl128 rem 1 in
  let! loss := lost_fraction [rem2] [divisor] in
  Ret (dividend, loss)).

(** src/ieee.rs:3156-3247 [sig::div]; returns the quotient, [exp] and the loss.
    [dividend] and [divisor] are scratch for the callers. *)
Definition div (quotient : list Z) (exp : Z) (dividend divisor : list Z) (precision : Z)
  : outcome (list Z * Z * Loss) :=
  (* Normalize the divisor. *)
  let! bits := usub precision (omsb divisor) in
  let! '(divisor, _) := shift_left divisor 0 bits in
  let! exp := chk32 (exp + as_i32 bits) in
  (* Normalize the dividend. *)
  let! bits := usub precision (omsb dividend) in
  let! '(dividend, exp) := shift_left dividend exp bits in
  (* Division by 1. *)
  let olsb_divisor := olsb divisor in
  if olsb_divisor =? precision then
    assertb (len quotient =? len dividend) (Ret (dividend, exp, ExactlyZero))
  else
    let! c := cmp dividend divisor in
    let! '(dividend, exp) :=
      (match c with
       | Lt =>
         let! '(dividend, exp) := shift_left dividend exp 1 in
         let! c := cmp dividend divisor in
         match c with
         | Lt => Panic
         | _ => Ret (dividend, exp)
         end
       | _ => Ret (dividend, exp)
       end) in
    let! o1 := usub olsb_divisor 1 in
    let! divisor_bits := usub precision o1 in
    if divisor_bits * 2 <=? 16 then
      let! '(q, loss) := short_div quotient dividend divisor olsb_divisor divisor_bits 16 in
      Ret (q, exp, loss)
    else if divisor_bits * 2 <=? 32 then
      let! '(q, loss) := short_div quotient dividend divisor olsb_divisor divisor_bits 32 in
      Ret (q, exp, loss)
    else if divisor_bits * 2 <=? 64 then
      let! '(q, loss) := short_div quotient dividend divisor olsb_divisor divisor_bits 64 in
      Ret (q, exp, loss)
    else
      let! _ := slice_to quotient (limbs_for_bits precision) in
      let! quotient := for_each (zrange 0 (limbs_for_bits precision)) (fun i q => set q i 0) quotient in
      (* Long division. *)
      let! '(quotient, dividend) :=
        for_each (rev (zrange 0 precision)) (fun bit '(quotient, dividend) =>
          let! c := cmp dividend divisor in
          let! '(quotient, dividend) :=
            (match c with
             | Lt => Ret (quotient, dividend)
             | _ =>
               let! '(dividend, _) := sub dividend divisor 0 in
               let! quotient := set_bit quotient bit in
               Ret (quotient, dividend)
             end) in
          let! '(dividend, _) := shift_left dividend 0 1 in
          Ret (quotient, dividend)) (quotient, dividend) in
      let! loss := lost_fraction dividend divisor in
      Ret (quotient, exp, loss).
