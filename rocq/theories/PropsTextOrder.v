(** * PropsTextOrder.v -- C87: texts and the order of the numbers *)
From Coq Require Import ZArith Reals List Bool String.
From Flocq Require Import Core.
From Verif Require Import Machine Ieee Ppc Parse Fmt Spec SpecStr SpecFmt SpecPair Samples FmtRefute TextOrder.
Local Open Scope Z_scope.

(** ** C87

    Reading keeps the order: of two literals the one denoting the larger number
    is not read as the smaller one.  (Formats without infinities read what is too
    large as NaN.) *)
Theorem C87_read : forall S s s' g g' x x' m, sem_ok S -> dec_ok S -> dec_text s g x -> dec_text s' g' x' ->
  len s < 2 ^ 25 -> len s' < 2 ^ 25 -> m = NearestTiesToEven \/ m = NearestTiesToAway -> (x <= x')%R ->
  exists st f st' f', from_str_r S s m = Ret (Ok (st, f)) /\ from_str_r S s' m = Ret (Ok (st', f')) /\
    (category f <> NaN -> category f' <> NaN -> exists a b, ext_of S f = Some a /\ ext_of S f' = Some b /\ ext_le a b).
Proof. exact from_str_dec_monotone. Qed.
Print Assumptions C87_read.
Theorem C87_read_hexadecimal : forall S s s' g g' x x' m, sem_ok S -> PRECISION S <= 125 -> hex_text s g x -> hex_text s' g' x' ->
  len s + 2 ^ 20 <= 2 ^ 29 -> len s' + 2 ^ 20 <= 2 ^ 29 -> (x <= x')%R ->
  exists st f st' f', from_str_r S s m = Ret (Ok (st, f)) /\ from_str_r S s' m = Ret (Ok (st', f')) /\
    (category f <> NaN -> category f' <> NaN -> exists a b, ext_of S f = Some a /\ ext_of S f' = Some b /\ ext_le a b).
Proof. exact from_str_hex_monotone. Qed.
Print Assumptions C87_read_hexadecimal.
Example C87_read_example : dec_text (bytes "-6.25e-2") true (- (625 * bpow r10 (-4))) /\ dec_text (bytes "0.7") false (7 * bpow r10 (-1)) /\
  (- (625 * bpow r10 (-4)) <= 7 * bpow r10 (-1))%R /\
  from_str_r HalfS (bytes "-6.25e-2") NearestTiesToAway = Ret (Ok (OK, mkFloat 1024 (-4) Normal true)) /\
  from_str_r HalfS (bytes "0.7") NearestTiesToAway = Ret (Ok (INEXACT, mkFloat 1434 (-1) Normal false)).
Proof. exact reading_sample. Qed.

(** Printing with enough digits keeps it, and different numbers are printed
    differently. *)
Theorem C87_print_digits : forall S x x' w w' p p' alternate alternate', sem_ok S -> wf S x -> wf S x' -> category x = Normal -> category x' = Normal ->
  0 <= chosen_width w -> 0 <= chosen_width w' -> 1 <= chosen_precision S p <= largest_precision -> 1 <= chosen_precision S p' <= largest_precision ->
  2 ^ PRECISION S < 10 ^ (chosen_precision S p - 1) -> 2 ^ PRECISION S < 10 ^ (chosen_precision S p' - 1) ->
  (value S x < value S x')%R ->
  exists s s' y y', fmt S x w p alternate = Ret s /\ fmt S x' w' p' alternate' = Ret s' /\ dec_text s (sign x) y /\ dec_text s' (sign x') y' /\ (y < y')%R.
Proof. exact fmt_strict. Qed.
Print Assumptions C87_print_digits.
Theorem C87_print_default : forall S x x' w w' alternate alternate', sem_ok S -> wf S x -> wf S x' -> category x = Normal -> category x' = Normal ->
  0 <= chosen_width w -> 0 <= chosen_width w' -> (value S x < value S x')%R ->
  exists s s' y y', fmt S x w None alternate = Ret s /\ fmt S x' w' None alternate' = Ret s' /\ dec_text s (sign x) y /\ dec_text s' (sign x') y' /\ (y < y')%R.
Proof. exact fmt_strict_default. Qed.
Print Assumptions C87_print_default.
Example C87_print_example : let x := mkFloat 8388608 13 Normal true in let x' := mkFloat 16777215 12 Normal true in
  wf SingleS x /\ wf SingleS x' /\ (value SingleS x < value SingleS x')%R /\
  fmt SingleS x None None false = Ret (bytes "-8192") /\ fmt SingleS x' None None false = Ret (bytes "-8191.99951").
Proof. exact strict_sample. Qed.
Theorem C87_pair : forall F, pair_ok F -> forall x x' w w' alternate alternate', canonical_pair F x -> canonical_pair F x' ->
  category (d0 x) = Normal -> category (d0 x') = Normal -> 0 <= chosen_width w -> 0 <= chosen_width w' -> (operand F x < operand F x')%R ->
  exists s s' y y', dd_fmt F x w None alternate = Ret s /\ dd_fmt F x' w' None alternate' = Ret s' /\
    dec_text s (sign (d0 x)) y /\ dec_text s' (sign (d0 x')) y' /\ (y < y')%R.
Proof. exact dd_fmt_strict. Qed.
Print Assumptions C87_pair.

(** With any number of digits [P] it keeps it, except that two numbers beginning
    with a digit from 5 to 9 and lying strictly between the same two neighbouring
    decimals of [P] digits can be printed as these in the wrong order.  Missing
    for the order itself: exactly these cases, in which it can fail
    ([C87_print_refuted]).  The formats, too, may differ. *)
Theorem C87_print_partial : forall S S' x x' w w' p p' alternate alternate' P, sem_ok S -> sem_ok S' -> wf S x -> wf S' x' -> category x = Normal -> category x' = Normal ->
  0 <= chosen_width w -> 0 <= chosen_width w' -> chosen_precision S p = P -> chosen_precision S' p' = P -> 1 <= P <= largest_precision ->
  (value S x <= value S' x')%R ->
  exists s s' y y', fmt S x w p alternate = Ret s /\ fmt S' x' w' p' alternate' = Ret s' /\ dec_text s (sign x) y /\ dec_text s' (sign x') y' /\
    ((y <= y')%R \/
     exists q, last_place P (Rabs (value S x)) q /\ last_place P (Rabs (value S' x')) q /\
       (5 * bpow r10 (P - 1) * bpow r10 q <= Rabs (value S x))%R /\ (5 * bpow r10 (P - 1) * bpow r10 q <= Rabs (value S' x'))%R /\
       y = (y' + bpow r10 q)%R /\ (y' < value S x)%R /\ (value S' x' < y)%R).
Proof. exact fmt_order. Qed.
Print Assumptions C87_print_partial.
(** 8191 and 8192, with two digits *)
Theorem C87_print_refuted : exists x x' s s' y y', wf SingleS x /\ wf SingleS x' /\ category x = Normal /\ category x' = Normal /\
  (value SingleS x < value SingleS x')%R /\ fmt SingleS x None (Some 2) false = Ret s /\ fmt SingleS x' None (Some 2) false = Ret s' /\
  dec_text s (sign x) y /\ dec_text s' (sign x') y' /\ (y' < y)%R.
Proof. exact printing_disordered. Qed.
Print Assumptions C87_print_refuted.
Example C87_disorder : let x := mkFloat 16775168 12 Normal false in let x' := mkFloat 8388608 13 Normal false in
  wf SingleS x /\ wf SingleS x' /\ value SingleS x = 8191%R /\ value SingleS x' = 8192%R /\
  fmt SingleS x None (Some 2) false = Ret (bytes "8.2E+3") /\ fmt SingleS x' None (Some 2) false = Ret (bytes "8.1E+3") /\
  dec_text (bytes "8.2E+3") false 8200 /\ dec_text (bytes "8.1E+3") false 8100.
Proof. exact disorder. Qed.
