(** * PropsDec.v -- C83: decimal numbers read and printed again *)
From Coq Require Import ZArith Reals List Bool String.
From Flocq Require Import Core.
From Verif Require Import Machine Ieee Ppc Spec Formats Parse Samples SpecStr StrTop Fmt SpecFmt SpecPair PairSamples DecBack.
Import ListNotations.
Local Open Scope Z_scope.

(** ** C83

    [dec_text s g x]: the bytes [s] are a decimal literal for [x].  The literal
    has at most [P] significant digits: |x| = n * 10^j with n < 10^P.  The format
    can tell all such numbers apart: 10^P < 2^(PRECISION - 1).  Read to nearest and
    printed with the precision [P] it becomes a literal for [x] again, or for the
    decimal of [P] digits next to it toward zero; the latter only if it was
    rounded toward zero to a number whose first digit is one of 5 to 9. *)
Theorem C83_outcome : forall S s g x w P alternate m n j, sem_ok S -> dec_ok S -> dec_text s g x -> len s < 2 ^ 25 ->
  m = NearestTiesToEven \/ m = NearestTiesToAway -> 0 <= chosen_width w -> 1 <= P <= largest_precision ->
  10 ^ P < 2 ^ (PRECISION S - 1) -> Rabs x = (IZR n * bpow r10 j)%R -> 0 < n < 10 ^ P ->
  (min_normal S <= Rabs x)%R -> (Rabs (rounded S m x) <= max_finite S)%R ->
  exists st f t y, from_str_r S s m = Ret (Ok (st, f)) /\ wf S f /\ category f = Normal /\ value S f = rounded S m x /\
    fmt S f w (Some P) alternate = Ret t /\ dec_text t g y /\
    (y = x \/
     exists q, (5 * bpow r10 q <= Rabs (value S f) < bpow r10 (q + 1))%R /\ (Rabs (value S f) < Rabs x)%R /\
       (Rabs y = Rabs x - bpow r10 (q - (P - 1)))%R).
Proof. exact decimal_outcome. Qed.
Print Assumptions C83_outcome.
(** the round trip; missing is what [C83_refuted] shows to fail: numbers rounded
    toward zero whose first digit is one of 5 to 9 *)
Theorem C83_partial : forall S s g x w P alternate m n j, sem_ok S -> dec_ok S -> dec_text s g x -> len s < 2 ^ 25 ->
  m = NearestTiesToEven \/ m = NearestTiesToAway -> 0 <= chosen_width w -> 1 <= P <= largest_precision ->
  10 ^ P < 2 ^ (PRECISION S - 1) -> Rabs x = (IZR n * bpow r10 j)%R -> 0 < n < 10 ^ P ->
  (min_normal S <= Rabs x)%R -> (Rabs (rounded S m x) <= max_finite S)%R ->
  (Rabs x <= Rabs (rounded S m x))%R \/ (exists q, (bpow r10 q <= Rabs (rounded S m x) < 5 * bpow r10 q)%R) ->
  exists st f t, from_str_r S s m = Ret (Ok (st, f)) /\ fmt S f w (Some P) alternate = Ret t /\ dec_text t g x.
Proof. exact decimal_back. Qed.
Print Assumptions C83_partial.
(** 0.7 read as a double and printed with 15 digits is 0.699999999999999 *)
Theorem C83_refuted : exists S s x n j P st f t y, sem_ok S /\ dec_ok S /\ dec_text s false x /\ 1 <= P /\ 10 ^ P < 2 ^ (PRECISION S - 1) /\
  Rabs x = (IZR n * bpow r10 j)%R /\ 0 < n < 10 ^ P /\ (min_normal S <= Rabs x)%R /\ (Rabs (rounded S NearestTiesToEven x) <= max_finite S)%R /\
  from_str_r S s NearestTiesToEven = Ret (Ok (st, f)) /\ fmt S f None (Some P) false = Ret t /\ dec_text t false y /\ (y < x)%R.
Proof. exact decimal_back_refuted. Qed.
Print Assumptions C83_refuted.
Example C83_example : let s := bytes "-3.14159265358979" in let x := (- (314159265358979 * bpow r10 (-14)))%R in
  dec_text s true x /\ Rabs x = (314159265358979 * bpow r10 (-14))%R /\ (min_normal DoubleS <= Rabs x)%R /\
  (Rabs (rounded DoubleS NearestTiesToEven x) <= max_finite DoubleS)%R /\
  (exists q, (bpow r10 q <= Rabs (rounded DoubleS NearestTiesToEven x) < 5 * bpow r10 q)%R) /\ 10 ^ 15 < 2 ^ (PRECISION DoubleS - 1) /\
  from_str_r DoubleS s NearestTiesToEven = Ret (Ok (INEXACT, mkFloat 7074237752028433 1 Normal true)) /\
  fmt DoubleS (mkFloat 7074237752028433 1 Normal true) None (Some 15) false = Ret s.
Proof. exact decimal_sample. Qed.

(** Pairs: the literal is read into the double width and split, so the digits
    are those of twice the precision. *)
Theorem C83_pair_outcome : forall F, pair_ok F -> forall s g x w P alternate m n j, dec_ok (FallbackS F) -> dec_text s g x -> len s < 2 ^ 25 ->
  m = NearestTiesToEven \/ m = NearestTiesToAway -> 0 <= chosen_width w -> 1 <= P <= largest_precision ->
  10 ^ P < 2 ^ (2 * PRECISION F - 1) -> Rabs x = (IZR n * bpow r10 j)%R -> 0 < n < 10 ^ P ->
  (min_normal (FallbackS F) <= Rabs x)%R -> (Rabs (rounded F NearestTiesToEven (rounded (FallbackS F) m x)) <= max_finite F)%R ->
  exists st r t y, dd_from_str_r F s m = Ret (Ok (st, r)) /\ canonical_pair F r /\ pair_value F r = rounded (FallbackS F) m x /\
    dd_fmt F r w (Some P) alternate = Ret t /\ dec_text t g y /\
    (y = x \/
     exists q, (5 * bpow r10 q <= Rabs (pair_value F r) < bpow r10 (q + 1))%R /\ (Rabs (pair_value F r) < Rabs x)%R /\
       (Rabs y = Rabs x - bpow r10 (q - (P - 1)))%R).
Proof. exact dd_decimal_outcome. Qed.
Print Assumptions C83_pair_outcome.
(** missing as in [C83_partial] *)
Theorem C83_pair_partial : forall F, pair_ok F -> forall s g x w P alternate m n j, dec_ok (FallbackS F) -> dec_text s g x -> len s < 2 ^ 25 ->
  m = NearestTiesToEven \/ m = NearestTiesToAway -> 0 <= chosen_width w -> 1 <= P <= largest_precision ->
  10 ^ P < 2 ^ (2 * PRECISION F - 1) -> Rabs x = (IZR n * bpow r10 j)%R -> 0 < n < 10 ^ P ->
  (min_normal (FallbackS F) <= Rabs x)%R -> (Rabs (rounded F NearestTiesToEven (rounded (FallbackS F) m x)) <= max_finite F)%R ->
  (Rabs x <= Rabs (rounded (FallbackS F) m x))%R \/ (exists q, (bpow r10 q <= Rabs (rounded (FallbackS F) m x) < 5 * bpow r10 q)%R) ->
  exists st r t, dd_from_str_r F s m = Ret (Ok (st, r)) /\ dd_fmt F r w (Some P) alternate = Ret t /\ dec_text t g x.
Proof. exact dd_decimal_back. Qed.
Print Assumptions C83_pair_partial.
(** 0.6 read as a DoubleDouble and printed with 31 digits is 0.5999...9 *)
Theorem C83_pair_refuted : exists F s x n j P st r t y, pair_ok F /\ dec_ok (FallbackS F) /\ dec_text s false x /\ 1 <= P /\ 10 ^ P < 2 ^ (2 * PRECISION F - 1) /\
  Rabs x = (IZR n * bpow r10 j)%R /\ 0 < n < 10 ^ P /\ (min_normal (FallbackS F) <= Rabs x)%R /\
  (Rabs (rounded F NearestTiesToEven (rounded (FallbackS F) NearestTiesToEven x)) <= max_finite F)%R /\
  dd_from_str_r F s NearestTiesToEven = Ret (Ok (st, r)) /\ dd_fmt F r None (Some P) false = Ret t /\ dec_text t false y /\ (y < x)%R.
Proof. exact dd_decimal_back_refuted. Qed.
Print Assumptions C83_pair_refuted.
Example C83_pair_example : let s := bytes "0.3" in let x := (3 * bpow r10 (-1))%R in let r := mkDF (mkFloat 5404319552844595 (-2) Normal false) (mkFloat 7205759403792792 (-57) Normal false) in
  dec_text s false x /\ Rabs x = (3 * bpow r10 (-1))%R /\ (min_normal (FallbackS DoubleS) <= Rabs x)%R /\
  (Rabs (rounded DoubleS NearestTiesToEven (rounded (FallbackS DoubleS) NearestTiesToEven x)) <= max_finite DoubleS)%R /\
  (exists q, (bpow r10 q <= Rabs (rounded (FallbackS DoubleS) NearestTiesToEven x) < 5 * bpow r10 q)%R) /\ 10 ^ 31 < 2 ^ (2 * PRECISION DoubleS - 1) /\
  dd_from_str_r DoubleS s NearestTiesToEven = Ret (Ok (INEXACT, r)) /\ dd_fmt DoubleS r None (Some 31) false = Ret s.
Proof. exact dd_decimal_sample. Qed.
