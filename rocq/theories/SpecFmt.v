(** * SpecFmt.v -- what [Display] is expected to print.

    Nothing here mentions the code that prints. *)
From Coq Require Import ZArith Reals List.
From Flocq Require Import Core.
From Verif Require Import Ieee Spec SpecStr.
Import ListNotations.
Local Open Scope Z_scope.

(** ** The decimal number that is printed *)

(** [q] is the exponent of the [P]-th significant decimal digit of the positive
    number [v] *)
Definition last_place (P : Z) (v : R) (q : Z) : Prop :=
  (bpow r10 (P - 1) * bpow r10 q <= v < bpow r10 P * bpow r10 q)%R.
(** [n * 10^k] is [v] reduced to [P] significant digits, trailing zeros removed.
    The reduction is to nearest, ties away from zero, or it is towards zero; the
    latter only if the first digit of [v] is at least 5 (the code then keeps
    exactly the digits it has and does not look at the discarded ones). *)
Record shortened (P : Z) (v : R) (n k : Z) : Prop := {
  short_digits : 0 < n < 10 ^ P;
  short_trim : n mod 10 <> 0;
  short_close : exists q, last_place P v q /\ q <= k /\
    ((IZR n * bpow r10 k - / 2 * bpow r10 q <= v < IZR n * bpow r10 k + / 2 * bpow r10 q)%R \/
     ((IZR n * bpow r10 k <= v < IZR n * bpow r10 k + bpow r10 q)%R /\ (5 * bpow r10 (P - 1) * bpow r10 q <= v)%R)) }.

(** The exact decimal expansion [N * 10^e] of [v], no longer than necessary after the point *)
Definition expansion (v : R) (N e : Z) : Prop := v = (IZR N * bpow r10 e)%R /\ 0 < N /\ e <= 0 /\ (e < 0 -> N mod 10 <> 0).

(** Of the digits of [N] the last [dropped P N] are not looked at if [N] has more
    bits than [P] digits can need; 196/59 is slightly more than the logarithm of
    10 to base 2 *)
Definition dropped (P N : Z) : Z := Z.max 0 (Z.log2 N + 1 - (196 * P + 58) / 59) * 59 / 196.
(** [n * 10^k] is what is printed of [N * 10^e]: without trailing zeros, either the
    digits that are left after dropping some, if there are no more than [P] of
    them, or [N * 10^e] rounded to [P] digits, ties away from zero *)
Inductive selected (P N e n k : Z) : Prop :=
| selected_cut j : n mod 10 <> 0 -> N / 10 ^ dropped P N < 10 ^ P ->
    0 <= j -> k = e + dropped P N + j -> n * 10 ^ j = N / 10 ^ dropped P N -> selected P N e n k
| selected_rounded w j : n mod 10 <> 0 -> 10 ^ P <= N / 10 ^ dropped P N ->
    1 <= w -> 10 ^ (P - 1) <= N / 10 ^ w < 10 ^ P ->
    0 <= j -> k = e + w + j -> n * 10 ^ j = (N + 5 * 10 ^ (w - 1)) / 10 ^ w -> selected P N e n k.

(** ** Its text *)

(** a signed decimal exponent with at least [least] digits, and no more than needed *)
Definition exponent_text (least e : Z) (t : list Z) : Prop :=
  exists ds, t = (if e <? 0 then 45 else 43) :: ds /\ digits 10 ds (Z.abs e) /\ least <= Z.of_nat (length ds) /\
    (Z.of_nat (length ds) = least \/ 10 ^ (Z.of_nat (length ds) - 1) <= Z.abs e).
(** [n] has the digits [ds], the first of which is not 0 *)
Definition numeral (ds : list Z) (n : Z) : Prop := digits 10 ds n /\ ds <> [] /\ 10 ^ (Z.of_nat (length ds) - 1) <= n.
Definition zero_digits (n : Z) : list Z := repeat 48 (Z.to_nat n).
(** Is a number of [d] digits followed by the exponent [k] printed in scientific
    notation?  Yes, if the width is 0, if more than [width] zeros would have to be
    appended or more than [P] digits printed, or if there would be [width] or more
    zeros after the point. *)
Definition scientific (width P d k : Z) : Prop :=
  width = 0 \/ (0 <= k /\ (width < k \/ P < d + k)) \/ (k < 0 /\ k + d - 1 < - width).
Inductive layout (width P : Z) (alternate : bool) (n k : Z) : list Z -> Prop :=
(** 1.25E+7; 2.0E-3; the alternate form is 1.2500e+07 for P = 4 *)
| layout_scientific c r x : numeral (c :: r) n -> scientific width P (Z.of_nat (length (c :: r))) k ->
    exponent_text (if alternate then 2 else 1) (k + Z.of_nat (length r)) x ->
    layout width P alternate n k
      (c :: 46 :: (if alternate then r ++ zero_digits (P - Z.of_nat (length r)) ++ 101 :: x
                   else match r with [] => [48] | _ => r end ++ 69 :: x))
(** 1500 *)
| layout_integer ds : numeral ds n -> ~ scientific width P (Z.of_nat (length ds)) k -> 0 <= k ->
    layout width P alternate n k (ds ++ zero_digits k)
(** 12.5 *)
| layout_point ip fp : numeral (ip ++ fp) n -> ~ scientific width P (Z.of_nat (length (ip ++ fp))) k -> ip <> [] ->
    Z.of_nat (length fp) = - k -> k < 0 ->
    layout width P alternate n k (ip ++ 46 :: fp)
(** 0.0125 *)
| layout_small ds : numeral ds n -> ~ scientific width P (Z.of_nat (length ds)) k -> Z.of_nat (length ds) <= - k ->
    layout width P alternate n k (48 :: 46 :: zero_digits (- k - Z.of_nat (length ds)) ++ ds).

(** The whole text of a nonzero number [v] of sign [g] *)
Definition printed (width P : Z) (alternate g : bool) (v : R) (s : list Z) : Prop :=
  exists n k t, shortened P v n k /\ layout width P alternate n k t /\ s = (if g then [45] else []) ++ t.

(** The only text [Display] gives for it *)
Definition printed_exactly (width P : Z) (alternate g : bool) (v : R) (s : list Z) : Prop :=
  exists N e n k t, expansion v N e /\ selected P N e n k /\ layout width P alternate n k t /\ s = (if g then [45] else []) ++ t.

(** The width and the precision that apply if none is given *)
Definition chosen_width (w : option Z) : Z := match w with Some w => w | None => 3 end.
Definition chosen_precision (S : Semantics) (p : option Z) : Z := match p with Some p => p | None => 2 + PRECISION S * 59 / 196 end.
(** The largest precision [P] with [196 * P + 58 < 2^64] *)
Definition largest_precision : Z := 94116041192395671.
(** the texts of zero: "0", or, for the width 0, "0.0E+0" or "0.000e+00" *)
Inductive zero_text (width : Z) (p : option Z) (alternate : bool) : list Z -> Prop :=
| zero_plain : width <> 0 -> zero_text width p alternate [48]
| zero_scientific : width = 0 -> alternate = false -> zero_text width p alternate [48; 46; 48; 69; 43; 48]
| zero_alternate : width = 0 -> alternate = true ->
    zero_text width p alternate (48 :: 46 :: zero_digits (match p with Some n => Z.max 1 n | None => 1 end) ++ [101; 43; 48; 48]).
