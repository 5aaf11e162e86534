(** * DecBack.v -- a decimal number read and printed again *)
From Coq Require Import ZArith Reals List Bool Lia Lra String.
From Flocq Require Import Core Relative.
From Verif Require Import Machine Sig SpecSig Limbs SigProofs Ieee Ppc Spec Formats Norm Arith Int Integral Algebra Special Order SpecPair Pair PairOps Eft PairSamples PairBase PairMore
  Parse SpecStr StrHex StrScan StrSyntax StrNum StrAtt StrLoop StrDecimal StrCell StrTop Fmt FmtNum SpecFmt FmtTop FmtBack Samples
  FmtRefute.
Import ListNotations.
Local Open Scope Z_scope.
Ltac Zify.zify_post_hook ::= idtac.

(** a decimal of [P] digits, and a number [v] within half a unit in the last of
    [p] bits of it: printed with [P] digits [v] is the decimal, or one unit less,
    the latter only if [v] is smaller and begins with a digit from 5 to 9 *)
Theorem shortened_back : forall p P x v m j n k, 1 <= P -> 1 <= p -> 10 ^ P < 2 ^ (p - 1) ->
  x = (IZR m * bpow r10 j)%R -> 0 < m < 10 ^ P -> (Rabs (v - x) <= bpow r2 (- p) * x)%R -> shortened P v n k ->
  (IZR n * bpow r10 k)%R = x \/
  exists q, last_place P v q /\ (v < x)%R /\ (5 * bpow r10 (P - 1) * bpow r10 q <= v)%R /\ (IZR n * bpow r10 k = x - bpow r10 q)%R.
Proof.
  intros p P x v m j n k HP Hp Hd Ex Hm Er [_ _ [q [[L1 L2] [Hk H]]]].
  assert (TP : (bpow r10 P = IZR (10 ^ P))%R) by (apply bpow10_pos; lia).
  assert (TB : (IZR (10 ^ P) + 1 <= bpow r2 (p - 1))%R).
  { rewrite <- (IZR_pow2 (p - 1)) by lia. rewrite <- plus_IZR. apply IZR_le. lia. }
  assert (T1 : (10 <= IZR (10 ^ P))%R).
  { apply IZR_le. replace P with (1 + (P - 1)) by lia. rewrite Z.pow_add_r by lia. change (10 ^ 1) with 10. assert (0 < 10 ^ (P - 1)) by (apply Z.pow_pos_nonneg; lia). lia. }
  set (D := IZR (10 ^ P)) in *. rewrite TP in L2.
  assert (E2 : (bpow r2 (- p) = / (2 * bpow r2 (p - 1)))%R).
  { rewrite bpow_opp. f_equal. replace p with (1 + (p - 1)) at 1 by lia. rewrite bpow_plus. reflexivity. }
  set (B := bpow r2 (p - 1)) in *. rewrite E2 in Er.
  assert (B0 : (0 < B)%R) by lra. assert (I0 : (0 < / (2 * B))%R) by (apply Rinv_0_lt_compat; lra).
  assert (IB : (/ (2 * B) * B = / 2)%R) by (field; lra).
  pose proof (bpow_gt_0 r10 q) as Q. pose proof (bpow_gt_0 r10 j) as J. set (u := bpow r10 q) in *.
  assert (x0 : (0 < x)%R) by (rewrite Ex; apply Rmult_lt_0_compat; [apply IZR_lt; lia|exact J]).
  apply Rabs_le_inv in Er.
  assert (X : forall a e, q <= e -> (IZR a * bpow r10 e = IZR (a * 10 ^ (e - q)) * u)%R).
  { intros a e He. rewrite mult_IZR, <- bpow10_pos by lia. replace e with (e - q + q) at 1 by lia. rewrite bpow_plus. unfold u. ring. }
  assert (MD : (IZR m <= D - 1)%R) by (unfold D; rewrite <- minus_IZR; apply IZR_le; lia).
  (* the last place of the decimal is not below that of v *)
  assert (Qj : q <= j).
  { destruct (Z_le_gt_dec q j) as [Y|Y]; [exact Y|exfalso].
    assert (A : (D * bpow r10 j <= bpow r10 (P - 1) * u)%R).
    { rewrite <- TP. unfold u. rewrite <- !bpow_plus. apply bpow_le. lia. }
    assert (x <= (D - 1) * bpow r10 j)%R by (rewrite Ex; apply Rmult_le_compat_r; lra).
    assert (C : (/ (2 * B) * x <= / 2 * bpow r10 j)%R).
    { rewrite <- IB, Rmult_assoc. apply Rmult_le_compat_l; [lra|]. apply Rle_trans with (1 := H0). apply Rmult_le_compat_r; lra. }
    lra. }
  rewrite (X m j Qj) in Ex. set (K := m * 10 ^ (j - q)) in *.
  (* nor is the decimal above the next power of ten *)
  assert (Xq : (x <= D * u)%R).
  { rewrite Ex. apply Rmult_le_compat_r; [lra|]. unfold D. apply IZR_le. destruct (Z_le_gt_dec K (10 ^ P)) as [Y|Y]; [exact Y|exfalso].
    assert (F : q < j).
    { destruct (Z.eq_dec q j) as [Z|Z]; [|lia]. exfalso. unfold K in Y. rewrite Z, Z.sub_diag in Y. change (10 ^ 0) with 1 in Y. lia. }
    assert (G : 10 ^ P + 10 <= K).
    { unfold K in *. replace (j - q) with (1 + (j - q - 1)) in * by lia. rewrite Z.pow_add_r in * by lia. change (10 ^ 1) with 10 in *.
      assert (W : 10 ^ P = 10 * 10 ^ (P - 1)) by (replace P with (1 + (P - 1)) at 1 by lia; rewrite Z.pow_add_r by lia; reflexivity).
      rewrite W in *. set (a := 10 ^ (P - 1)) in *. set (b := m * 10 ^ (j - q - 1)). replace (m * (10 * 10 ^ (j - q - 1))) with (10 * b) in * by (unfold b; ring). lia. }
    apply IZR_le in G. rewrite plus_IZR in G. fold D in G.
    assert (N : ((D + 10) * u <= x)%R) by (rewrite Ex; apply Rmult_le_compat_r; lra).
    assert (I1 : (/ (2 * B) <= / (2 * D))%R) by (apply Rinv_le; lra).
    assert (I2 : (/ (2 * D) * D = / 2)%R) by (field; lra).
    assert (I3 : (/ (2 * D) <= / 20)%R) by (apply Rinv_le; lra).
    assert (I4 : (v >= x * (1 - / (2 * D)))%R).
    { assert (/ (2 * B) * x <= / (2 * D) * x)%R by (apply Rmult_le_compat_r; lra). lra. }
    assert (I5 : ((D + 10) * u * (1 - / (2 * D)) <= x * (1 - / (2 * D)))%R) by (apply Rmult_le_compat_r; lra).
    assert (I6 : ((D + 10) * (1 - / (2 * D)) >= D)%R).
    { replace ((D + 10) * (1 - / (2 * D)))%R with (D + 10 - / (2 * D) * D - 10 * / (2 * D))%R by ring. lra. }
    assert (D * u <= (D + 10) * (1 - / (2 * D)) * u)%R by (apply Rmult_le_compat_r; lra). lra. }
  assert (Hh : (/ (2 * B) * x < / 2 * u)%R).
  { apply Rle_lt_trans with (/ (2 * B) * (D * u))%R; [apply Rmult_le_compat_l; lra|]. rewrite <- IB.
    replace (/ (2 * B) * (D * u))%R with (/ (2 * B) * u * D)%R by ring. replace (/ (2 * B) * B * u)%R with (/ (2 * B) * u * B)%R by ring.
    apply Rmult_lt_compat_l; [apply Rmult_lt_0_compat; lra|lra]. }
  rewrite (X n k Hk) in *. set (N := n * 10 ^ (k - q)) in *.
  assert (Z1 : forall a b, (IZR a * u - IZR b * u < u)%R -> a <= b).
  { intros a b Hab. rewrite <- Rmult_minus_distr_r, <- minus_IZR in Hab. assert (IZR (a - b) < 1)%R by (apply Rmult_lt_reg_r with u; lra). apply lt_IZR in H0. lia. }
  destruct H as [H|[H H5]].
  - left. rewrite Ex in *. do 2 f_equal. apply Z.le_antisymm; apply Z1; lra.
  - destruct (Rle_or_lt x v) as [Y|Y].
    + left. rewrite Ex in *. do 2 f_equal. apply Z.le_antisymm; apply Z1; lra.
    + right. exists q. split; [split; [exact L1|rewrite TP; exact L2]|]. split; [exact Y|]. split; [exact H5|]. fold u.
      rewrite Ex in *. assert (N = K - 1).
      { apply Z.le_antisymm.
        - assert (W : (IZR N * u - IZR K * u < 0)%R) by lra. rewrite <- Rmult_minus_distr_r, <- minus_IZR in W.
          assert (IZR (N - K) < 0)%R by (apply Rmult_lt_reg_r with u; lra). apply lt_IZR in H0. lia.
        - apply Z1. rewrite minus_IZR. lra. }
      rewrite H0, minus_IZR. ring.
Qed.

Lemma dec_body_nonneg : forall b z, dec_body b z -> (0 <= z)%R.
Proof.
  assert (K : forall t n k, mantissa 10 t n k -> 0 <= n) by (intros t n k [ds m D _|ip fp m D _]; exact (proj1 (digits_bound 10 _ m ltac:(lia) D))).
  intros b z [t n k M|t n k c u e M _ _]; (apply Rmult_le_pos; [apply IZR_le; exact (K _ _ _ M)|apply bpow_ge_0]).
Qed.
Lemma nearest_relative : forall S m x, sem_ok S -> nearest m = true -> (min_normal S <= Rabs x)%R ->
  (Rabs (rounded S m x - x) <= bpow r2 (- PRECISION S) * Rabs x)%R.
Proof.
  intros S m x HS Hm Hx. destruct (rounded_nearest S m Hm) as [choice ->]. pose proof (ok_prec S HS) as Kp.
  assert (PG : Prec_gt_0 (PRECISION S)) by (unfold Prec_gt_0; lia).
  assert (HALF : (/ 2 * bpow r2 (- PRECISION S + 1) = bpow r2 (- PRECISION S))%R).
  { rewrite bpow_plus. change (bpow r2 1) with 2%R. field. }
  rewrite <- HALF. apply relative_error_N_FLT; [exact PG|]. unfold min_normal in Hx.
  replace (MIN_EXP S - (PRECISION S - 1) + PRECISION S - 1) with (MIN_EXP S) by lia. exact Hx.
Qed.

(** ** Reading and printing *)
Theorem decimal_outcome : forall S s g x w P alternate m n j, sem_ok S -> dec_ok S -> dec_text s g x -> len s < 2 ^ 25 ->
  m = NearestTiesToEven \/ m = NearestTiesToAway -> 0 <= chosen_width w -> 1 <= P <= largest_precision ->
  10 ^ P < 2 ^ (PRECISION S - 1) -> Rabs x = (IZR n * bpow r10 j)%R -> 0 < n < 10 ^ P ->
  (min_normal S <= Rabs x)%R -> (Rabs (rounded S m x) <= max_finite S)%R ->
  exists st f t y, from_str_r S s m = Ret (Ok (st, f)) /\ wf S f /\ category f = Normal /\ value S f = rounded S m x /\
    fmt S f w (Some P) alternate = Ret t /\ dec_text t g y /\
    (y = x \/
     exists q, (5 * bpow r10 q <= Rabs (value S f) < bpow r10 (q + 1))%R /\ (Rabs (value S f) < Rabs x)%R /\
       (Rabs y = Rabs x - bpow r10 (q - (P - 1)))%R).
Proof.
  intros S s g x w P alternate m n j HS HD T L Hm Hw HP Hd Ex Hn Hlo Hhi. pose proof (ok_prec S HS) as Kp.
  destruct (from_str_dec_nearest S s g x m HS HD T L Hm) as [st [f [Ef [st' [D _]]]]].
  pose proof (nearest_relative S m x HS (nearest_of m Hm) Hlo) as Rel.
  destruct D as [Wf [Sf [D _]]]. destruct (D Hhi) as [Ff [Vf _]]. clear D. exists st, f.
  assert (x0 : (0 < Rabs x)%R) by (unfold min_normal in Hlo; pose proof (bpow_gt_0 r2 (MIN_EXP S)); lra).
  assert (Small : (bpow r2 (- PRECISION S) <= / 2)%R).
  { apply Rle_trans with (bpow r2 (-1)); [apply bpow_le; lia|]. apply Rle_refl. }
  assert (Re : (bpow r2 (- PRECISION S) * Rabs x <= / 2 * Rabs x)%R) by (apply Rmult_le_compat_r; lra).
  assert (C : category f = Normal).
  { destruct Ff as [Q|Q]; [exact Q|exfalso]. assert (V0 : value S f = 0%R) by (unfold value; rewrite Q; reflexivity).
    rewrite V0 in Vf. rewrite <- Vf, Rminus_0_l, Rabs_Ropp in Rel. lra. }
  destruct (fmt_normal S f w (Some P) alternate HS Wf C Hw HP) as [t [Et Ht]]. cbn [chosen_precision] in Ht.
  destruct (printed_reads _ P _ _ _ t ltac:(lia) Ht) as [a [k [Hsh Tt]]].
  assert (Gx : sign f = g /\ x = (if g then - Rabs x else Rabs x)%R).
  { destruct Sf as [S1 [S2 _]]. destruct (Rle_or_lt 0 x) as [Y|Y].
    - rewrite (Rabs_pos_eq x Y) in *. assert (sign f = false) as G by (apply S2; lra).
      destruct T as [s0 g0 b z Hs Hb]. pose proof (dec_body_nonneg b z Hb). destruct g0; [exfalso; lra|]. split; [exact G|reflexivity].
    - rewrite (Rabs_left x Y) in *. assert (sign f = true) as G by (apply S1; lra).
      destruct T as [s0 g0 b z Hs Hb]. pose proof (dec_body_nonneg b z Hb). destruct g0; [|exfalso; lra]. split; [exact G|ring]. }
  destruct Gx as [Gf Gx].
  assert (Av : (Rabs (Rabs (value S f) - Rabs x) <= bpow r2 (- PRECISION S) * Rabs x)%R).
  { rewrite Vf. apply Rle_trans with (2 := Rel). apply Rabs_triang_inv2. }
  exists t. eexists. split; [exact Ef|]. split; [exact Wf|]. split; [exact C|]. split; [exact Vf|]. split; [exact Et|]. rewrite Gf in Tt. split; [exact Tt|].
  set (y := (IZR a * bpow r10 k)%R) in *.
  destruct (shortened_back (PRECISION S) P (Rabs x) (Rabs (value S f)) n j a k ltac:(lia) ltac:(lia) Hd Ex Hn Av Hsh) as [E|[q [[_ Q2] [Lt [F5 E]]]]].
  - left. fold y in E. rewrite E. symmetry. exact Gx.
  - right. exists (P - 1 + q). split.
    + rewrite Rmult_assoc, <- bpow_plus in F5. split; [exact F5|]. rewrite <- bpow_plus in Q2. replace (P - 1 + q + 1) with (P + q) by lia. exact Q2.
    + split; [exact Lt|]. replace (P - 1 + q - (P - 1)) with q by lia. fold y in E.
      assert (0 <= y)%R. { unfold y. apply Rmult_le_pos; [apply IZR_le; destruct Hsh as [[? _] _ _]; lia|apply bpow_ge_0]. }
      rewrite <- E. destruct g; [rewrite Rabs_Ropp|]; apply Rabs_pos_eq; assumption.
Qed.
Theorem decimal_back : forall S s g x w P alternate m n j, sem_ok S -> dec_ok S -> dec_text s g x -> len s < 2 ^ 25 ->
  m = NearestTiesToEven \/ m = NearestTiesToAway -> 0 <= chosen_width w -> 1 <= P <= largest_precision ->
  10 ^ P < 2 ^ (PRECISION S - 1) -> Rabs x = (IZR n * bpow r10 j)%R -> 0 < n < 10 ^ P ->
  (min_normal S <= Rabs x)%R -> (Rabs (rounded S m x) <= max_finite S)%R ->
  (Rabs x <= Rabs (rounded S m x))%R \/ (exists q, (bpow r10 q <= Rabs (rounded S m x) < 5 * bpow r10 q)%R) ->
  exists st f t, from_str_r S s m = Ret (Ok (st, f)) /\ fmt S f w (Some P) alternate = Ret t /\ dec_text t g x.
Proof.
  intros S s g x w P alternate m n j HS HD T L Hm Hw HP Hd Ex Hn Hlo Hhi Hc.
  destruct (decimal_outcome S s g x w P alternate m n j HS HD T L Hm Hw HP Hd Ex Hn Hlo Hhi) as [st [f [t [y [E [_ [_ [V [F [Ty [-> |[q [[Q1 Q2] [Lt _]]]]]]]]]]]]]].
  - exists st, f, t. split; [exact E|]. split; [exact F|exact Ty].
  - exfalso. rewrite V in *. destruct Hc as [Hc|[q' [Q3 Q4]]]; [lra|].
    assert (q < q').
    { destruct (Z_lt_le_dec q q') as [Y|Y]; [exact Y|exfalso]. assert (bpow r10 q' <= bpow r10 q)%R by (apply bpow_le; exact Y). lra. }
    assert (bpow r10 (q + 1) <= bpow r10 q')%R by (apply bpow_le; lia). lra.
Qed.

(** ** 0.7 is read as the double below it and printed with 15 digits as 0.699999999999999 *)
Lemma seven_text : dec_text (bytes "0.7") false (7 * bpow r10 (-1)).
Proof.
  apply (dec_text_intro [] false); [constructor|]. apply (dec_plain [48; 46; 55] 7 1).
  apply (mantissa_point 10 [48] [55]); [exact (digits_all [48; 55] eq_refl)|discriminate].
Qed.
Lemma seven_printed : dec_text (bytes "0.699999999999999") false (699999999999999 * bpow r10 (-15)).
Proof.
  apply (dec_text_intro [] false); [constructor|]. apply (dec_plain (bytes "0.699999999999999") 699999999999999 15).
  apply (mantissa_point 10 [48] (bytes "699999999999999")); [exact (digits_all (48 :: bytes "699999999999999") eq_refl)|discriminate].
Qed.
Lemma tenths : forall n, (IZR n * bpow r10 (-1) = IZR n / 10)%R.
Proof. intro n. unfold Rdiv. f_equal. Qed.
Lemma one_max : forall S, sem_ok S -> (1 <= max_finite S)%R.
Proof.
  intros S HS. pose proof (ok_max S HS) as K. pose proof (ok_prec S HS) as K0. pose proof (bpow_max S (MAX_EXP S) HS ltac:(lia)) as B. rewrite Z.sub_diag in B. exact B.
Qed.
Lemma small_normal : forall S, sem_ok S -> MIN_EXP S <= -4 -> (min_normal S <= / 16)%R.
Proof. intros S HS K. unfold min_normal. apply Rle_trans with (bpow r2 (-4)); [apply bpow_le; exact K|apply Rle_refl]. Qed.
Theorem decimal_back_refuted : exists S s x n j P st f t y, sem_ok S /\ dec_ok S /\ dec_text s false x /\ 1 <= P /\ 10 ^ P < 2 ^ (PRECISION S - 1) /\
  Rabs x = (IZR n * bpow r10 j)%R /\ 0 < n < 10 ^ P /\ (min_normal S <= Rabs x)%R /\ (Rabs (rounded S NearestTiesToEven x) <= max_finite S)%R /\
  from_str_r S s NearestTiesToEven = Ret (Ok (st, f)) /\ fmt S f None (Some P) false = Ret t /\ dec_text t false y /\ (y < x)%R.
Proof.
  exists DoubleS, (bytes "0.7"), (7 * bpow r10 (-1))%R, 7, (-1), 15. eexists. eexists. exists (bytes "0.699999999999999"), (699999999999999 * bpow r10 (-15))%R.
  assert (A : Rabs (7 * bpow r10 (-1)) = (7 * bpow r10 (-1))%R) by (apply Rabs_pos_eq; rewrite (tenths 7); lra).
  split; [exact double_ok|]. split; [apply crate_dec_ok; do 2 right; left; reflexivity|]. split; [exact seven_text|]. split; [lia|]. split; [vm_compute; reflexivity|].
  split; [exact A|]. split; [lia|]. split; [|split; [|split; [|split; [|split]]]].
  - rewrite A, (tenths 7). pose proof (small_normal DoubleS double_ok ltac:(vm_compute; discriminate)). lra.
  - apply rounded_le_max; [exact double_ok|]. rewrite A, (tenths 7). pose proof (one_max DoubleS double_ok). lra.
  - vm_compute. reflexivity.
  - vm_compute. reflexivity.
  - exact seven_printed.
  - replace (bpow r10 (-1)) with (IZR (10 ^ 14) * bpow r10 (-15))%R by (rewrite <- bpow10_pos by lia; rewrite <- bpow_plus; reflexivity).
    rewrite <- Rmult_assoc, <- mult_IZR. apply Rmult_lt_compat_r; [apply bpow_gt_0|]. apply IZR_lt. vm_compute. reflexivity.
Qed.
Lemma decimal_sample : let s := bytes "-3.14159265358979" in let x := (- (314159265358979 * bpow r10 (-14)))%R in
  dec_text s true x /\ Rabs x = (314159265358979 * bpow r10 (-14))%R /\ (min_normal DoubleS <= Rabs x)%R /\
  (Rabs (rounded DoubleS NearestTiesToEven x) <= max_finite DoubleS)%R /\
  (exists q, (bpow r10 q <= Rabs (rounded DoubleS NearestTiesToEven x) < 5 * bpow r10 q)%R) /\ 10 ^ 15 < 2 ^ (PRECISION DoubleS - 1) /\
  from_str_r DoubleS s NearestTiesToEven = Ret (Ok (INEXACT, mkFloat 7074237752028433 1 Normal true)) /\
  fmt DoubleS (mkFloat 7074237752028433 1 Normal true) None (Some 15) false = Ret s.
Proof.
  cbv zeta. assert (E : bpow r10 (-14) = (/ 100000000000000)%R) by reflexivity.
  assert (A : Rabs (- (314159265358979 * bpow r10 (-14))) = (314159265358979 * bpow r10 (-14))%R).
  { rewrite Rabs_Ropp. apply Rabs_pos_eq. apply Rmult_le_pos; [lra|apply bpow_ge_0]. }
  assert (R : forall k, 0 <= k < 100 -> generic_format r2 (fexp DoubleS) (bpow r2 k)).
  { intros k Hk. apply generic_format_bpow. unfold fexp, FLT_exp. change (PRECISION DoubleS) with 53. change (MIN_EXP DoubleS) with (-1022). lia. }
  assert (B : (bpow r2 1 <= Rabs (rounded DoubleS NearestTiesToEven (- (314159265358979 * bpow r10 (-14)))) <= bpow r2 2)%R).
  { pose proof (fexp_valid DoubleS double_ok). pose proof (valid_rnd_of NearestTiesToEven). unfold rounded. split.
    - apply abs_round_ge_generic; [assumption|assumption|apply R; lia|]. rewrite A, E. change (bpow r2 1) with 2%R. lra.
    - apply abs_round_le_generic; [assumption|assumption|apply R; lia|]. rewrite A, E. change (bpow r2 2) with 4%R. lra. }
  split; [|split; [exact A|split; [|split; [|split; [|split; [vm_compute; reflexivity|split; vm_compute; reflexivity]]]]]].
  - apply (dec_text_intro [45] true); [constructor|]. apply (dec_plain (bytes "3.14159265358979") 314159265358979 14).
    apply (mantissa_point 10 (bytes "3") (bytes "14159265358979")); [exact (digits_all (bytes "314159265358979") eq_refl)|discriminate].
  - rewrite A, E. pose proof (small_normal DoubleS double_ok ltac:(vm_compute; discriminate)). lra.
  - apply Rle_trans with (1 := proj2 B). apply (bpow_max DoubleS 1021 double_ok). lia.
  - exists 0. change (bpow r2 1) with 2%R in B. change (bpow r2 2) with 4%R in B. change (bpow r10 0) with 1%R. lra.
Qed.

(** ** Pairs *)
Section Pairs.
Variable F : Semantics.
Hypothesis HF : pair_ok F.
Local Notation W := (FallbackS F).
Let WO := W_ok F HF.
Let FO := F_ok F HF.
Theorem dd_decimal_outcome : forall s g x w P alternate m n j, dec_ok W -> dec_text s g x -> len s < 2 ^ 25 ->
  m = NearestTiesToEven \/ m = NearestTiesToAway -> 0 <= chosen_width w -> 1 <= P <= largest_precision ->
  10 ^ P < 2 ^ (2 * PRECISION F - 1) -> Rabs x = (IZR n * bpow r10 j)%R -> 0 < n < 10 ^ P ->
  (min_normal W <= Rabs x)%R -> (Rabs (rounded F NearestTiesToEven (rounded W m x)) <= max_finite F)%R ->
  exists st r t y, dd_from_str_r F s m = Ret (Ok (st, r)) /\ canonical_pair F r /\ pair_value F r = rounded W m x /\
    dd_fmt F r w (Some P) alternate = Ret t /\ dec_text t g y /\
    (y = x \/
     exists q, (5 * bpow r10 q <= Rabs (pair_value F r) < bpow r10 (q + 1))%R /\ (Rabs (pair_value F r) < Rabs x)%R /\
       (Rabs y = Rabs x - bpow r10 (q - (P - 1)))%R).
Proof.
  intros s g x w P alternate m n j HD T L Hm Hw HP Hd Ex Hn Hlo Hsp. replace (2 * PRECISION F) with (PRECISION W) in Hd by apply Z.mul_comm.
  destruct (decimal_outcome W s g x w P alternate m n j WO HD T L Hm Hw HP Hd Ex Hn Hlo (nearest_range F HF _ Hsp)) as [st [f [t [y [E [Wf [C [V [Ef [Ty Hy]]]]]]]]]].
  assert (Sp : splittable F f) by (unfold splittable; rewrite C, V; exact Hsp).
  destruct (map_ok F HF st f Wf Sp) as [r [Er [Sr Hr]]]. rewrite C in Hr. destruct Hr as [Cr Vr].
  assert (Eo : operand F r = value W f).
  { unfold operand. rewrite Vr. apply rounded_format. exact (Arith.value_format W f WO Wf). }
  pose proof (canonical_readable F r Cr) as R. destruct (to_fallback_reads F HF r R) as [f' [E' Q]].
  destruct (widened_finite F r f' Q Cr) as [Wf' [Ff' [V' S']]].
  assert (f' = f) as ->.
  { apply (normal_ext W); try assumption; try exact WO; [|congruence|congruence].
    destruct Ff' as [Z0|Z0]; [exact Z0|exfalso]. apply (normal_nonzero W f Wf C). rewrite <- Eo, <- V'. apply value_zero. exact Z0. }
  exists st, r, t, y. split; [rewrite (dd_from_str_ok F s m st f E), Er; reflexivity|]. split; [exact Cr|]. split; [congruence|].
  split; [unfold dd_fmt; rewrite E'; cbn [bind]; exact Ef|]. split; [exact Ty|]. rewrite Vr. exact Hy.
Qed.
Theorem dd_decimal_back : forall s g x w P alternate m n j, dec_ok W -> dec_text s g x -> len s < 2 ^ 25 ->
  m = NearestTiesToEven \/ m = NearestTiesToAway -> 0 <= chosen_width w -> 1 <= P <= largest_precision ->
  10 ^ P < 2 ^ (2 * PRECISION F - 1) -> Rabs x = (IZR n * bpow r10 j)%R -> 0 < n < 10 ^ P ->
  (min_normal W <= Rabs x)%R -> (Rabs (rounded F NearestTiesToEven (rounded W m x)) <= max_finite F)%R ->
  (Rabs x <= Rabs (rounded W m x))%R \/ (exists q, (bpow r10 q <= Rabs (rounded W m x) < 5 * bpow r10 q)%R) ->
  exists st r t, dd_from_str_r F s m = Ret (Ok (st, r)) /\ dd_fmt F r w (Some P) alternate = Ret t /\ dec_text t g x.
Proof.
  intros s g x w P alternate m n j HD T L Hm Hw HP Hd Ex Hn Hlo Hhi Hc.
  destruct (dd_decimal_outcome s g x w P alternate m n j HD T L Hm Hw HP Hd Ex Hn Hlo Hhi) as [st [r [t [y [E [_ [V [Ef [Ty [-> |[q [[Q1 Q2] [Lt _]]]]]]]]]]]]].
  - exists st, r, t. split; [exact E|]. split; [exact Ef|exact Ty].
  - exfalso. rewrite V in *. destruct Hc as [Hc|[q' [Q3 Q4]]]; [lra|].
    assert (q < q').
    { destruct (Z_lt_le_dec q q') as [Y|Y]; [exact Y|exfalso]. assert (bpow r10 q' <= bpow r10 q)%R by (apply bpow_le; exact Y). lra. }
    assert (bpow r10 (q + 1) <= bpow r10 q')%R by (apply bpow_le; lia). lra.
Qed.
End Pairs.
Lemma six_text : dec_text (bytes "0.6") false (6 * bpow r10 (-1)).
Proof.
  apply (dec_text_intro [] false); [constructor|]. apply (dec_plain [48; 46; 54] 6 1).
  apply (mantissa_point 10 [48] [54]); [exact (digits_all [48; 54] eq_refl)|discriminate].
Qed.
Lemma six_printed : dec_text (bytes "0.5999999999999999999999999999999") false (5999999999999999999999999999999 * bpow r10 (-31)).
Proof.
  apply (dec_text_intro [] false); [constructor|]. apply (dec_plain (bytes "0.5999999999999999999999999999999") 5999999999999999999999999999999 31).
  apply (mantissa_point 10 [48] (bytes "5999999999999999999999999999999")); [exact (digits_all (48 :: bytes "5999999999999999999999999999999") eq_refl)|discriminate].
Qed.
Lemma tenth_range : forall n, 1 <= n <= 10 -> let x := (IZR n * bpow r10 (-1))%R in
  Rabs x = x /\ (min_normal (FallbackS DoubleS) <= Rabs x)%R /\
  forall m, (Rabs (rounded DoubleS NearestTiesToEven (rounded (FallbackS DoubleS) m x)) <= max_finite DoubleS)%R.
Proof.
  intros n Hn x. assert (B : (1 <= IZR n <= 10)%R) by (split; apply IZR_le; lia). unfold x. rewrite (tenths n).
  assert (A : Rabs (IZR n / 10) = (IZR n / 10)%R) by (apply Rabs_pos_eq; lra). pose proof (W_ok DoubleS double_pair) as WO.
  split; [exact A|]. split.
  - rewrite A. pose proof (small_normal _ WO ltac:(vm_compute; discriminate)). lra.
  - intro m. apply rounded_le_max; [exact double_ok|]. apply Rle_trans with 1%R; [|exact (one_max DoubleS double_ok)].
    pose proof (fexp_valid _ WO). pose proof (valid_rnd_of m). unfold rounded. apply abs_round_le_generic; [assumption|assumption| |rewrite A; lra].
    apply (generic_format_bpow r2 (fexp (FallbackS DoubleS)) 0). vm_compute. discriminate.
Qed.
Theorem dd_decimal_back_refuted : exists F s x n j P st r t y, pair_ok F /\ dec_ok (FallbackS F) /\ dec_text s false x /\ 1 <= P /\ 10 ^ P < 2 ^ (2 * PRECISION F - 1) /\
  Rabs x = (IZR n * bpow r10 j)%R /\ 0 < n < 10 ^ P /\ (min_normal (FallbackS F) <= Rabs x)%R /\
  (Rabs (rounded F NearestTiesToEven (rounded (FallbackS F) NearestTiesToEven x)) <= max_finite F)%R /\
  dd_from_str_r F s NearestTiesToEven = Ret (Ok (st, r)) /\ dd_fmt F r None (Some P) false = Ret t /\ dec_text t false y /\ (y < x)%R.
Proof.
  exists DoubleS, (bytes "0.6"), (6 * bpow r10 (-1))%R, 6, (-1), 31. eexists. eexists. exists (bytes "0.5999999999999999999999999999999"), (5999999999999999999999999999999 * bpow r10 (-31))%R.
  destruct (tenth_range 6 ltac:(lia)) as [A [B C]].
  split; [exact double_pair|]. split; [apply crate_dec_ok; vm_compute; tauto|]. split; [exact six_text|]. split; [lia|]. split; [vm_compute; reflexivity|].
  split; [exact A|]. split; [lia|]. split; [exact B|]. split; [exact (C NearestTiesToEven)|]. split; [vm_compute; reflexivity|]. split; [vm_compute; reflexivity|].
  split; [exact six_printed|].
  replace (bpow r10 (-1)) with (IZR (10 ^ 30) * bpow r10 (-31))%R by (rewrite <- bpow10_pos by lia; rewrite <- bpow_plus; reflexivity).
  rewrite <- Rmult_assoc, <- mult_IZR. apply Rmult_lt_compat_r; [apply bpow_gt_0|]. apply IZR_lt. vm_compute. reflexivity.
Qed.
(** 0.3 is not one of those *)
Lemma dd_decimal_sample : let s := bytes "0.3" in let x := (3 * bpow r10 (-1))%R in let r := mkDF (mkFloat 5404319552844595 (-2) Normal false) (mkFloat 7205759403792792 (-57) Normal false) in
  dec_text s false x /\ Rabs x = (3 * bpow r10 (-1))%R /\ (min_normal (FallbackS DoubleS) <= Rabs x)%R /\
  (Rabs (rounded DoubleS NearestTiesToEven (rounded (FallbackS DoubleS) NearestTiesToEven x)) <= max_finite DoubleS)%R /\
  (exists q, (bpow r10 q <= Rabs (rounded (FallbackS DoubleS) NearestTiesToEven x) < 5 * bpow r10 q)%R) /\ 10 ^ 31 < 2 ^ (2 * PRECISION DoubleS - 1) /\
  dd_from_str_r DoubleS s NearestTiesToEven = Ret (Ok (INEXACT, r)) /\ dd_fmt DoubleS r None (Some 31) false = Ret s.
Proof.
  cbv zeta. destruct (tenth_range 3 ltac:(lia)) as [A [B C]]. split.
  { apply (dec_text_intro [] false); [constructor|]. apply (dec_plain [48; 46; 51] 3 1).
    apply (mantissa_point 10 [48] [51]); [exact (digits_all [48; 51] eq_refl)|discriminate]. }
  split; [exact A|]. split; [exact B|]. split; [exact (C NearestTiesToEven)|]. split; [|split; [vm_compute; reflexivity|split; vm_compute; reflexivity]].
  exists (-1). change (bpow r10 (-1)) with (/ 10)%R. pose proof (W_ok DoubleS double_pair) as WO.
  assert (R : forall k, -100 <= k < 100 -> generic_format r2 (fexp (FallbackS DoubleS)) (bpow r2 k)).
  { intros k Hk. apply generic_format_bpow. unfold fexp, FLT_exp. change (PRECISION (FallbackS DoubleS)) with 106. change (MIN_EXP (FallbackS DoubleS)) with (-969). lia. }
  assert (D : (bpow r2 (-2) <= Rabs (rounded (FallbackS DoubleS) NearestTiesToEven (3 * / 10)) < / 2)%R).
  { pose proof (fexp_valid _ WO). pose proof (valid_rnd_of NearestTiesToEven).
    pose proof (nearest_relative (FallbackS DoubleS) NearestTiesToEven (3 * / 10) WO eq_refl B) as N. rewrite (Rabs_pos_eq (3 * / 10)) in N by lra. split.
    - apply abs_round_ge_generic; [assumption|assumption|apply R; lia|]. rewrite Rabs_pos_eq by lra. change (bpow r2 (-2)) with (/ 4)%R. lra.
    - assert (K : (bpow r2 (- PRECISION (FallbackS DoubleS)) <= / 4)%R) by (apply Rle_trans with (bpow r2 (-2)); [apply bpow_le; vm_compute; discriminate|apply Rle_refl]).
      pose proof (bpow_ge_0 r2 (- PRECISION (FallbackS DoubleS))).
      set (v := rounded _ _ _) in *. pose proof (Rabs_triang (v - 3 * / 10) (3 * / 10)) as T. replace (v - 3 * / 10 + 3 * / 10)%R with v in T by ring.
      rewrite (Rabs_pos_eq (3 * / 10)) in T by lra. apply Rle_lt_trans with (1 := T). lra. }
  change (bpow r2 (-2)) with (/ 4)%R in D. lra.
Qed.
