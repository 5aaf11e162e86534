(** * StrSamples.v -- concrete texts that meet the hypotheses of the theorems on strings *)
From Coq Require Import ZArith Reals List Bool Lia Lra String.
From Flocq Require Import Core.
From Verif Require Import Machine Ieee Spec Formats Parse SpecStr StrHex StrSyntax StrAtt StrDecimal StrTop.
Import ListNotations.
Local Open Scope Z_scope.

Ltac digits_of r t n := let H := fresh in
  assert (H : exists k, digits r t k /\ k = n);
  [ eexists; split; [repeat (first [exact (digits_nil r) | eapply (digits_cons r); [lia|first [apply (dc_decimal 0)|apply (dc_decimal 1)|apply (dc_decimal 2)|apply (dc_decimal 3)|apply (dc_decimal 4)|apply (dc_decimal 5)|apply (dc_decimal 6)|apply (dc_decimal 7)|apply (dc_decimal 8)|apply (dc_decimal 9)]; lia|lia|]])|reflexivity]
  | let k := fresh in let E := fresh in destruct H as [k [H E]]; rewrite E in H; clear E; exact H].
Example hex_sample : hex_text (bytes "-0x1.8p-3") true (- (24 * bpow r2 (-7))).
Proof.
  change (bytes "-0x1.8p-3") with ([45] ++ 48 :: 120 :: ([49] ++ 46 :: [56]) ++ 112 :: 45 :: [51]).
  apply (hex_text_intro [45] true); [constructor|left; reflexivity|].
  change (-7) with (-3 - 4 * Z.of_nat (List.length [56])). apply hex_intro.
  - apply mantissa_point; [digits_of 16 ([49] ++ [56]) 24|discriminate].
  - left; reflexivity.
  - apply (exponent_minus [51] 3). digits_of 10 [51] 3.
  - exists 51, 3. split; [right; left; reflexivity|apply (dc_decimal 3); lia].
Qed.
Example hex_sample_run : from_str_r SingleS (bytes "-0x1.8p-3") NearestTiesToEven = Ret (Ok (OK, mkFloat 12582912 (-3) Normal true)).
Proof. vm_compute. reflexivity. Qed.
(** a numeral with more digits than fit, rounded up *)
Example hex_round_run : from_str_r HalfS (bytes "0x1.00200000000000000000000000000000000000000001p0") NearestTiesToEven =
  Ret (Ok (INEXACT, mkFloat 1025 0 Normal false)).
Proof. vm_compute. reflexivity. Qed.
(** a negative signaling NaN with the octal payload 017 *)
Example nan_sample : nan_text (bytes "-snan(017)") true true (Some 15).
Proof.
  change (bytes "-snan(017)") with ([45] ++ [115] ++ [110; 97; 110] ++ 40 :: [48; 49; 55] ++ [41]).
  apply nan_intro; [right; split; reflexivity|right; split; [left|]; reflexivity|left; reflexivity|].
  right. exists 15. split; [|reflexivity]. right. exists [48; 49; 55]. split; [reflexivity|].
  apply payload_oct. apply pd_plain; [digits_of 8 [49; 55] 15|discriminate|lia].
Qed.
Example nan_sample_run : from_str_r SingleS (bytes "-snan(017)") NearestTiesToEven = Ret (Ok (OK, mkFloat 15 128 NaN true)).
Proof. vm_compute. reflexivity. Qed.
(** texts that look like numbers but are rejected *)
Example rejected_runs : forall m, map (fun t => from_str_r SingleS t m)
  (map bytes ["1..2"; "0x1.8"; "-+1"; "."; "1e5x"; "+nan"; "Inf"; "nan()"; "0x"; "e1"]%string) =
  [Ret (Err StringContainsMultipleDots); Ret (Err HexStringsRequireAnExponent); Ret (Err InvalidCharacterInSignificand);
   Ret (Err SignificandHasNoDigits); Ret (Err InvalidCharacterInExponent); Ret (Err InvalidCharacterInSignificand);
   Ret (Err InvalidCharacterInSignificand); Ret (Err InvalidCharacterInSignificand); Ret (Err InvalidString); Ret (Err SignificandHasNoDigits)].
Proof. intros []; vm_compute; reflexivity. Qed.

(** ** Decimal texts *)
Example dec_sample : dec_text (bytes "-6.25e-2") true (- (625 * bpow r10 (-4))).
Proof.
  change (bytes "-6.25e-2") with ([45] ++ ([54] ++ 46 :: [50; 53]) ++ 101 :: 45 :: [50]).
  apply (dec_text_intro [45] true); [constructor|].
  change (-4) with (-2 - Z.of_nat (List.length [50; 53])). apply dec_exp.
  - apply mantissa_point; [digits_of 10 ([54] ++ [50; 53]) 625|discriminate].
  - left; reflexivity.
  - apply (exponent_minus [50] 2). digits_of 10 [50] 2.
Qed.
Example dec_sample_short : short (Rabs (- (625 * bpow r10 (-4)))).
Proof.
  exists 625, (-4). split; [lia|]. split; [lia|]. rewrite Rabs_Ropp, Rabs_pos_eq; [reflexivity|]. apply Rmult_le_pos; [apply IZR_le; lia|apply bpow_ge_0].
Qed.
Example dec_sample_binary : exists n e, Z.abs n < 2 ^ 127 /\ (- (625 * bpow r10 (-4)))%R = (IZR n * bpow r2 e)%R.
Proof.
  exists (-1), (-4). split; [lia|]. change (bpow r10 (-4)) with (/ IZR 10000)%R. change (bpow r2 (-4)) with (/ IZR 16)%R. field.
Qed.
Example dec_sample_run : forall m, from_str_r HalfS (bytes "-6.25e-2") m = Ret (Ok (OK, mkFloat 1024 (-4) Normal true)).
Proof. intros []; vm_compute; reflexivity. Qed.
(** half-way between two doubles but for the last of its digits, which is the
    137th; a subnormal; numbers that overflow and underflow *)
Example dec_long_run : map (fun t => from_str_r DoubleS t NearestTiesToEven)
  [bytes "9007199254740993"; bytes "9007199254740993." ++ repeat 48 120 ++ bytes "1"; bytes "3e-324"; bytes "1e99999999999"; bytes "1e-400"] =
  [Ret (Ok (INEXACT, mkFloat 4503599627370496 53 Normal false)); Ret (Ok (INEXACT, mkFloat 4503599627370497 53 Normal false));
   Ret (Ok (Z.lor UNDERFLOW INEXACT, mkFloat 1 (-1022) Normal false)); Ret (Ok (Z.lor OVERFLOW INEXACT, mkFloat 0 1024 Infinity false));
   Ret (Ok (Z.lor UNDERFLOW INEXACT, mkFloat 0 (-1023) Zero false))].
Proof. vm_compute. reflexivity. Qed.
