(** * FmtBack.v -- Display: reading the printed text back *)
From Coq Require Import ZArith Reals List Bool Lia Lra ZifyBool String.
From Flocq Require Import Core.
From Verif Require Import Machine Sig SpecSig Limbs SigProofs Ieee Spec Formats Norm Arith Int Integral Algebra Special Order PairBase PairMore
  Parse SpecStr StrHex StrScan StrSyntax StrNum StrAtt StrLoop StrDecimal StrCell StrTop Fmt FmtNum SpecFmt FmtTop.
Import ListNotations.
Local Open Scope Z_scope.
Ltac Zify.zify_post_hook ::= idtac.
Local Notation length := List.length.

(** ** The text is a decimal number *)
Lemma exponent_reads : forall least e t, exponent_text least e t -> exponent t e.
Proof.
  intros least e t [ds [-> [Hd _]]]. destruct (Z.ltb_spec e 0) as [L|L].
  - replace e with (- Z.abs e) by lia. apply exponent_minus. exact Hd.
  - replace e with (Z.abs e) at 1 by lia. apply exponent_plus. replace (Z.abs (Z.abs e)) with (Z.abs e) in Hd by lia. exact Hd.
Qed.
Lemma digits_then_zeros : forall ds n z, digits 10 ds n -> 0 <= z -> digits 10 (ds ++ zero_digits z) (n * 10 ^ z).
Proof.
  intros ds n z H Hz. pose proof (digits_app 10 ds n (zero_digits z) 0 H (digits_zeros z) ltac:(lia)) as X.
  unfold len in X. rewrite zero_digits_length in X by lia. rewrite Z.add_0_r in X. exact X.
Qed.
Lemma shift_point : forall n k z, 0 <= z -> (IZR (n * 10 ^ z) * bpow r10 (k - z) = IZR n * bpow r10 k)%R.
Proof.
  intros n k z Hz. rewrite mult_IZR, <- bpow10_pos by assumption. replace k with (z + (k - z)) at 2 by lia. rewrite bpow_plus. ring.
Qed.
Theorem layout_reads : forall width P alternate n k t, 0 <= P -> layout width P alternate n k t -> n < 10 ^ P -> dec_body t (IZR n * bpow r10 k).
Proof.
  intros width P alternate n k t HP H Hn. destruct H as [c r x [Hd [Ne Hl]] Sc Hx|ds [Hd [Ne Hl]] Sc Hk|ip fp [Hd [Ne Hl]] Sc Hi Hf Hk|ds [Hd [Ne Hl]] Sc Hk].
  - apply exponent_reads in Hx. destruct alternate.
    + assert (Z0 : 0 <= P - Z.of_nat (length r)).
      { cbn [length] in Hl. destruct (Z_le_gt_dec (Z.of_nat (length r)) P) as [Y|Y]; [lia|exfalso].
        assert (10 ^ P <= 10 ^ (Z.of_nat (Datatypes.S (length r)) - 1)) by (apply Z.pow_le_mono_r; lia). lia. }
      set (z := P - Z.of_nat (length r)) in *.
      pose proof (digits_then_zeros (c :: r) n z Hd Z0) as D.
      pose proof (mantissa_point 10 [c] (r ++ zero_digits z) (n * 10 ^ z) D ltac:(discriminate)) as M.
      pose proof (dec_exp _ _ _ 101 x _ M (or_introl eq_refl) Hx) as X.
      rewrite app_length, Nat2Z.inj_add, zero_digits_length in X by assumption.
      replace (k + Z.of_nat (length r) - (Z.of_nat (length r) + z)) with (k - z) in X by lia. rewrite shift_point in X by assumption.
      cbn [app] in X. rewrite <- app_assoc in X. exact X.
    + destruct r as [|c' r].
      * pose proof (digits_then_zeros [c] n 1 Hd ltac:(lia)) as D.
        pose proof (mantissa_point 10 [c] (zero_digits 1) (n * 10 ^ 1) D ltac:(discriminate)) as M.
        pose proof (dec_exp _ _ _ 69 x _ M (or_intror eq_refl) Hx) as X. change (Z.of_nat (length (zero_digits 1))) with 1 in X. change (Z.of_nat (length (@nil Z))) with 0 in X.
        rewrite Z.add_0_r, shift_point in X by lia. exact X.
      * pose proof (mantissa_point 10 [c] (c' :: r) n Hd ltac:(discriminate)) as M.
        pose proof (dec_exp _ _ _ 69 x _ M (or_intror eq_refl) Hx) as X. rewrite Z.add_simpl_r in X. exact X.
  - pose proof (mantissa_int 10 (ds ++ zero_digits k) (n * 10 ^ k) (digits_then_zeros ds n k Hd Hk) ltac:(destruct ds; [contradiction|discriminate])) as M.
    pose proof (dec_plain _ _ _ M) as X. change (- 0) with 0 in X. replace 0 with (k - k) in X by lia. rewrite shift_point in X by assumption. exact X.
  - pose proof (dec_plain _ _ _ (mantissa_point 10 ip fp n Hd Ne)) as X. rewrite Hf, Z.opp_involutive in X. exact X.
  - assert (D : digits 10 ([48] ++ zero_digits (- k - Z.of_nat (length ds)) ++ ds) n).
    { replace n with (0 * 10 ^ len (zero_digits (- k - Z.of_nat (length ds)) ++ ds) + (0 * 10 ^ len ds + n)) by lia.
      apply digits_app; [exact (digits_zeros 1)|apply digits_app; [apply digits_zeros|exact Hd|lia]|lia]. }
    pose proof (dec_plain _ _ _ (mantissa_point 10 [48] _ n D ltac:(discriminate))) as X. rewrite app_length, Nat2Z.inj_add, zero_digits_length in X by lia.
    replace (- (- k - Z.of_nat (length ds) + Z.of_nat (length ds))) with k in X by lia. exact X.
Qed.
Theorem printed_reads : forall width P alternate g v s, 1 <= P -> printed width P alternate g v s ->
  exists n k, shortened P v n k /\ dec_text s g (if g then - (IZR n * bpow r10 k) else IZR n * bpow r10 k).
Proof.
  intros width P alternate g v s HP [n [k [t [Hs [Hl ->]]]]]. exists n, k. split; [exact Hs|]. destruct Hs as [[_ Hn] _ _].
  pose proof (layout_reads width P alternate n k t ltac:(lia) Hl Hn) as X. destruct g.
  - apply (dec_text_intro [45] true); [constructor|exact X].
  - apply (dec_text_intro [] false); [constructor|exact X].
Qed.

(** ** Its length *)
Lemma numeral_length : forall ds n P, numeral ds n -> 0 <= P -> n < 10 ^ P -> Z.of_nat (length ds) <= P.
Proof.
  intros ds n P [_ [Ne Hl]] HP Hn. assert (0 < length ds)%nat by (destruct ds; [contradiction|cbn; lia]).
  assert (X : 10 ^ (Z.of_nat (length ds) - 1) < 10 ^ P) by lia. apply Z.pow_lt_mono_r_iff in X; lia.
Qed.
Theorem layout_length : forall width P alternate n k t, 0 <= P -> layout width P alternate n k t -> n < 10 ^ P -> Z.abs k + P <= 10 ^ 10 ->
  len t <= 2 * P + Z.max 0 (- k) + 20.
Proof.
  intros width P alternate n k t HP H Hn HkP.
  assert (Xl : forall least e x, exponent_text least e x -> least <= 2 -> Z.abs e <= 10 ^ 10 -> len x <= 12).
  { intros least e x [ds [-> [_ [_ [L|L]]]]] Hl He; rewrite len_cons; unfold len; [lia|].
    destruct (Z_le_gt_dec (Z.of_nat (length ds)) 11) as [Y|Y]; [lia|]. assert (10 ^ 11 <= 10 ^ (Z.of_nat (length ds) - 1)) by (apply Z.pow_le_mono_r; lia). lia. }
  destruct H as [c r x Nu Sc Hx|ds Nu Sc Hk|ip fp Nu Sc Hi Hf Hk|ds Nu Sc Hk]; pose proof (numeral_length _ _ _ Nu HP Hn) as L; cbn [length] in L.
  - specialize (Xl _ _ _ Hx ltac:(destruct alternate; lia) ltac:(lia)). destruct alternate.
    + rewrite !len_cons, !len_app, len_cons. unfold len in *. rewrite zero_digits_length by lia. lia.
    + rewrite !len_cons, len_app, len_cons. assert (len (match r with [] => [48] | _ => r end) <= 1 + len r) by (destruct r as [|z r]; [vm_compute; discriminate|lia]). unfold len in *. lia.
  - rewrite len_app. unfold len. rewrite zero_digits_length by lia.
    assert (k + Z.of_nat (length ds) <= P) by (unfold scientific in Sc; lia). lia.
  - rewrite app_length in L. rewrite len_app, len_cons. unfold len. lia.
  - rewrite !len_cons, len_app. unfold len. rewrite zero_digits_length by lia. lia.
Qed.

(** ** Reading it back *)
Definition enough (p : Z) : Prop := 2 ^ p + 1 <= 10 ^ (1 + p * 59 / 196).
Lemma default_digits : forall p, 3 <= p <= 126 -> enough p.
Proof.
  assert (X : forallb (fun p => 2 ^ p + 1 <=? 10 ^ (1 + p * 59 / 196)) (map Z.of_nat (seq 3 124)) = true) by (vm_compute; reflexivity).
  intros p Hp. rewrite forallb_forall in X. unfold enough. apply Z.leb_le. apply X. apply in_map_iff. exists (Z.to_nat p). split; [lia|]. apply in_seq. lia.
Qed.
Lemma shortened_error : forall P v n k, 1 <= P -> (0 < v)%R -> shortened P v n k -> (Rabs (IZR n * bpow r10 k - v) * (2 * bpow r10 (P - 1)) <= v)%R.
Proof.
  intros P v n k HP Hv [_ _ [q [[L1 L2] [_ H]]]]. rewrite Rabs_minus_sym. pose proof (bpow_gt_0 r10 q) as Q. pose proof (bpow_gt_0 r10 (P - 1)) as T.
  destruct H as [H|[H1 H2]].
  - apply Rle_trans with (2 := L1). replace (bpow r10 (P - 1) * bpow r10 q)%R with (/ 2 * bpow r10 q * (2 * bpow r10 (P - 1)))%R by field.
    apply Rmult_le_compat_r; [lra|]. apply Rabs_le. lra.
  - rewrite Rabs_pos_eq by lra. apply Rle_trans with (bpow r10 q * (2 * bpow r10 (P - 1)))%R; [apply Rmult_le_compat_r; lra|].
    assert (0 <= bpow r10 (P - 1) * bpow r10 q)%R by (apply Rmult_le_pos; lra). lra.
Qed.
(** a number closer to [x] than half the distance to its neighbours *)
Lemma rounded_near : forall S m x y, sem_ok S -> nearest m = true -> (0 < x)%R -> generic_format r2 (fexp S) x ->
  (Rabs (y - x) * (2 * IZR (2 ^ PRECISION S + 1)) <= x)%R -> rounded S m y = x.
Proof.
  intros S m x y HS Hm Hx F H. destruct (rounded_nearest S m Hm) as [choice E]. rewrite E. clear E.
  pose proof (ok_prec S HS) as Kp. set (p := PRECISION S) in *.
  assert (Hprec : Prec_gt_0 p) by (unfold Prec_gt_0; lia).
  assert (V : Valid_exp (fexp S)) by (apply FLT_exp_valid; exact Hprec).
  set (d := Rabs (y - x)) in *. assert (d0 : (0 <= d)%R) by apply Rabs_pos.
  assert (PP : (IZR (2 ^ p + 1) = bpow r2 p + 1)%R) by (rewrite plus_IZR, (IZR_pow2 p) by lia; reflexivity). rewrite PP in H.
  pose proof (bpow_gt_0 r2 p) as B0.
  assert (U : forall z, (0 <= z)%R -> (z < ulp r2 (fexp S) z * bpow r2 p)%R).
  { intros z Hz. pose proof (ulp_FLT_gt r2 (MIN_EXP S - (p - 1)) p z) as X. fold (fexp S) in X. rewrite Rabs_pos_eq in X by assumption.
    apply Rmult_lt_reg_r with (bpow r2 (- p)); [apply bpow_gt_0|]. rewrite Rmult_assoc, <- bpow_plus, Z.add_opp_diag_r. cbn [bpow]. rewrite Rmult_1_r. exact X. }
  assert (Hs : (d < ulp r2 (fexp S) x / 2)%R).
  { pose proof (U x ltac:(lra)) as X. apply Rmult_lt_reg_r with (2 * (bpow r2 p + 1))%R; [lra|]. apply Rle_lt_trans with (1 := H). apply Rlt_le_trans with (1 := X).
    pose proof (ulp_ge_0 r2 (fexp S) x). lra. }
  pose proof (pred_plus_ulp r2 (fexp S) x Hx F) as Pp.
  assert (P0 : (0 <= pred r2 (fexp S) x)%R) by (apply pred_ge_0; assumption).
  set (z := pred r2 (fexp S) x) in *.
  assert (Hp : (d < ulp r2 (fexp S) z / 2)%R).
  { pose proof (U z P0) as X. apply Rmult_lt_reg_r with (2 * (bpow r2 p + 1))%R; [lra|]. apply Rle_lt_trans with (1 := H). lra. }
  assert (Bd : (- d <= y - x <= d)%R) by (apply Rabs_le_inv; unfold d; lra).
  apply Rle_antisym.
  - apply round_N_le_midp; [exact V|exact F|]. rewrite succ_eq_pos by lra. lra.
  - apply round_N_ge_midp; [exact V|exact F|]. fold z. lra.
Qed.
Lemma value_range : forall S x, sem_ok S -> wf S x -> category x = Normal ->
  (bpow r2 (MIN_EXP S - (PRECISION S - 1)) <= Rabs (value S x) < bpow r2 (MAX_EXP S + 1))%R.
Proof.
  intros S x HS [_ [_ Hw]] C. rewrite C in Hw. destruct Hw as [Hs [He _]]. pose proof (ok_prec S HS).
  unfold value. rewrite C, Rabs_mult, (Rabs_pos_eq (bpow _ _)) by apply bpow_ge_0. rewrite <- abs_IZR.
  replace (Z.abs (signed (sign x) (sig x))) with (sig x) by (unfold signed; destruct (sign x); lia). split.
  - apply Rle_trans with (1 * bpow r2 (exp x - (PRECISION S - 1)))%R; [rewrite Rmult_1_l; apply bpow_le; lia|].
    apply Rmult_le_compat_r; [apply bpow_ge_0|]. apply IZR_le. lia.
  - apply Rlt_le_trans with (bpow r2 (PRECISION S) * bpow r2 (exp x - (PRECISION S - 1)))%R; [apply Rmult_lt_compat_r; [apply bpow_gt_0|]; rewrite <- (IZR_pow2 (PRECISION S)) by lia; apply IZR_lt; lia|].
    rewrite <- bpow_plus. apply bpow_le. lia.
Qed.
Lemma two_ten : forall a, 0 <= a -> (bpow r2 a <= bpow r10 a)%R.
Proof. intros a Ha. apply pow_bpow; [lia|lia|]. apply Z.pow_le_mono_l. lia. Qed.
Lemma shortened_exponent : forall P v n k a b, 1 <= P -> 0 <= a -> 0 <= b -> shortened P v n k -> (bpow r2 (- a) <= v < bpow r2 b)%R ->
  - a - P < k <= b + 1.
Proof.
  intros P v n k a b HP Ha Hb [Hn _ [q [[L1 L2] [Hq H]]]] [V1 V2]. split.
  - destruct (Z_lt_le_dec (- a - P) k) as [Y|Y]; [exact Y|exfalso].
    assert (bpow r10 P * bpow r10 q <= bpow r10 (- a))%R by (rewrite <- bpow_plus; apply bpow_le; lia).
    assert (bpow r10 (- a) <= bpow r2 (- a))%R by (rewrite (bpow_opp r10 a), (bpow_opp r2 a); apply Rinv_le; [apply bpow_gt_0|apply two_ten; exact Ha]). lra.
  - destruct (Z_le_gt_dec k (b + 1)) as [Y|Y]; [exact Y|exfalso].
    assert (A1 : (bpow r10 k <= IZR n * bpow r10 k)%R).
    { rewrite <- (Rmult_1_l (bpow r10 k)) at 1. apply Rmult_le_compat_r; [apply bpow_ge_0|]. apply IZR_le. lia. }
    assert (A2 : (bpow r10 q <= v)%R).
    { apply Rle_trans with (2 := L1). rewrite <- (Rmult_1_l (bpow r10 q)) at 1. apply Rmult_le_compat_r; [apply bpow_ge_0|]. apply bpow10_le1. lia. }
    assert (A3 : (IZR n * bpow r10 k <= 2 * v)%R).
    { destruct H as [H|[H _]]; lra. }
    assert (A4 : (10 * bpow r10 b <= bpow r10 k)%R) by (rewrite <- bpow10_1; apply bpow_le; lia).
    pose proof (two_ten b Hb). pose proof (bpow_gt_0 r10 b). lra.
Qed.
Theorem fmt_length : forall S x w p alternate s, sem_ok S -> wf S x -> category x = Normal -> 0 <= chosen_width w -> 1 <= chosen_precision S p <= 2 ^ 32 ->
  fmt S x w p alternate = Ret s -> len s <= 4 * chosen_precision S p + (PRECISION S - MIN_EXP S) + 20.
Proof.
  intros S x w p alternate s HS Hx C Hw HP Es. pose proof (ok_prec S HS) as Kp. pose proof (ok_min S HS) as Kmin. pose proof (ok_max S HS) as Kmax.
  destruct (fmt_normal S x w p alternate HS Hx C Hw ltac:(unfold largest_precision; lia)) as [s' [E Hs]]. assert (s' = s) as -> by congruence.
  destruct Hs as [n [k [t [Hsh [Hl ->]]]]]. pose proof (value_range S x HS Hx C) as V. set (P := chosen_precision S p) in *.
  replace (MIN_EXP S - (PRECISION S - 1)) with (- (PRECISION S - 1 - MIN_EXP S)) in V by lia.
  pose proof (shortened_exponent P _ n k (PRECISION S - 1 - MIN_EXP S) (MAX_EXP S + 1) ltac:(lia) ltac:(lia) ltac:(lia) Hsh V) as K.
  pose proof (layout_length (chosen_width w) P alternate n k t ltac:(lia) Hl (proj2 (short_digits _ _ _ _ Hsh)) ltac:(change (10 ^ 10) with 10000000000; lia)) as L.
  rewrite len_app. destruct (sign x); [change (len [45]) with 1|change (len []) with 0]; lia.
Qed.
Lemma nearest_of : forall m, m = NearestTiesToEven \/ m = NearestTiesToAway -> nearest m = true.
Proof. intros m [->| ->]; reflexivity. Qed.
(** enough digits: the classical condition *)
Theorem fmt_round_trip_digits : forall S x w p alternate m, sem_ok S -> dec_ok S -> wf S x -> category x = Normal -> 0 <= chosen_width w ->
  1 <= chosen_precision S p < 2 ^ 22 -> 2 ^ PRECISION S < 10 ^ (chosen_precision S p - 1) ->
  m = NearestTiesToEven \/ m = NearestTiesToAway ->
  exists s st, fmt S x w p alternate = Ret s /\ from_str_r S s m = Ret (Ok (st, x)).
Proof.
  intros S x w p alternate m HS HD Hx C Hw HP1 HP0 Hm. pose proof (ok_prec S HS) as Kp. set (P := chosen_precision S p) in *.
  assert (HP : 2 ^ PRECISION S + 1 <= 10 ^ (P - 1)) by lia.
  destruct (fmt_normal S x w p alternate HS Hx C Hw ltac:(fold P; unfold largest_precision; lia)) as [s [E Hs]]. fold P in Hs. exists s.
  pose proof (fmt_length S x w p alternate s HS Hx C Hw ltac:(fold P; lia) E) as L. fold P in L. pose proof (dec_min S HD) as Dm.
  destruct (printed_reads (chosen_width w) P alternate _ _ s ltac:(lia) Hs) as [n [k [Hsh T]]].
  destruct (from_str_dec_nearest S s (sign x) _ m HS HD T ltac:(lia) Hm) as [st [f [Ef [st' [D _]]]]].
  exists st. split; [exact E|]. rewrite Ef. do 3 f_equal. clear Ef E L Hs T.
  assert (Fx : finite x) by (left; exact C).
  pose proof (normal_nonzero S x Hx C) as Nz. pose proof (finite_representable S x HS Hx Fx) as [Gx Mx].
  set (v := Rabs (value S x)) in *. set (y := (IZR n * bpow r10 k)%R) in *.
  assert (v0 : (0 < v)%R) by (apply Rabs_pos_lt; exact Nz).
  assert (Vx : value S x = if sign x then (- v)%R else v).
  { pose proof (value_sign_nonneg S x Hx Fx) as Q. unfold v. destruct (sign x); [rewrite Rabs_left1 by exact Q; ring|rewrite Rabs_pos_eq by exact Q; reflexivity]. }
  assert (Gv : generic_format r2 (fexp S) v) by (apply generic_format_abs; exact Gx).
  assert (R : rounded S m y = v).
  { apply rounded_near; try assumption; [apply nearest_of; exact Hm|].
    pose proof (shortened_error P v n k ltac:(lia) v0 Hsh) as X. apply Rle_trans with (2 := X). apply Rmult_le_compat_l; [apply Rabs_pos|].
    apply Rmult_le_compat_l; [lra|]. rewrite bpow10_pos by lia. apply IZR_le. exact HP. }
  assert (R' : rounded S m (if sign x then - y else y) = value S x).
  { rewrite Vx. destruct (sign x); [|exact R]. rewrite rounded_opp. replace (round_neg m) with m by (destruct Hm as [->| ->]; reflexivity). rewrite R. reflexivity. }
  destruct D as [Wf [Sf [D _]]]. rewrite R' in D. destruct (D Mx) as [Ff [Vf _]].
  assert (y0 : (0 < y)%R) by (unfold y; apply Rmult_lt_0_compat; [apply IZR_lt; destruct Hsh as [[? _] _ _]; assumption|apply bpow_gt_0]).
  apply (normal_ext S f x HS Wf Hx).
  - destruct Ff as [Q|Q]; [exact Q|exfalso]. apply Nz. rewrite <- Vf. unfold value. rewrite Q. reflexivity.
  - exact C.
  - destruct Sf as [S1 [S2 _]]. destruct (sign x); [apply S1|apply S2]; lra.
  - exact Vf.
Qed.
Theorem fmt_round_trip : forall S x w alternate m, sem_ok S -> dec_ok S -> wf S x -> category x = Normal -> 0 <= chosen_width w ->
  m = NearestTiesToEven \/ m = NearestTiesToAway ->
  exists s st, fmt S x w None alternate = Ret s /\ from_str_r S s m = Ret (Ok (st, x)).
Proof.
  intros S x w alternate m HS HD Hx C Hw Hm. pose proof (ok_prec S HS) as Kp.
  pose proof (Z.div_mod (PRECISION S * 59) 196 ltac:(lia)). pose proof (Z.mod_pos_bound (PRECISION S * 59) 196 ltac:(lia)).
  apply fmt_round_trip_digits; try assumption; unfold chosen_precision; [lia|].
  pose proof (default_digits (PRECISION S) ltac:(lia)) as D. unfold enough in D.
  replace (2 + PRECISION S * 59 / 196 - 1) with (1 + PRECISION S * 59 / 196) by lia. lia.
Qed.

(** ** Zero, infinity and NaN *)
Lemma from_str_zero : forall S s g m, sem_ok S -> dec_ok S -> dec_text s g 0 -> len s < 2 ^ 25 ->
  exists f, from_str_r S s m = Ret (Ok (OK, f)) /\ wf S f /\ category f = Zero /\ sign f = g.
Proof.
  intros S s g m HS HD T L. destruct (from_str_dec S s g 0 m HS HD T L) as [st [f [E [_ [_ [_ X]]]]]].
  assert (D : correctly_rounded S m 0 g (st, f)).
  { apply X; [exists 0, 0; rewrite Rabs_R0; split; [lia|split; [lia|ring]]|apply generic_format_0]. }
  assert (R0 : representable S 0).
  { split; [apply generic_format_0|]. rewrite Rabs_R0. pose proof (max_finite_pos S HS). lra. }
  destruct (cr_representable S m 0 g st f HS R0 D) as [-> [Ff Vf]]. destruct D as [Wf [[_ [_ Sf]] _]].
  exists f. split; [exact E|]. split; [exact Wf|]. split; [|apply Sf; reflexivity].
  destruct Ff as [C|C]; [exfalso; exact (normal_nonzero S f Wf C Vf)|exact C].
Qed.
Theorem fmt_zero : forall S x w p alternate, category x = Zero ->
  exists t, fmt S x w p alternate = Ret ((if sign x then [45] else []) ++ t) /\ zero_text (chosen_width w) p alternate t.
Proof.
  intros S x w p alternate C. unfold fmt. rewrite C. change (match w with Some w0 => w0 | None => 3 end) with (chosen_width w).
  destruct (Z.eqb_spec (chosen_width w) 0) as [W|W].
  - destruct alternate.
    + eexists. split; [reflexivity|]. replace (bytes "0.0" ++ match p with Some n => zeros (n - 1) | None => [] end ++ bytes "e+00")
        with (48 :: 46 :: zero_digits (match p with Some n => Z.max 1 n | None => 1 end) ++ [101; 43; 48; 48]); [constructor; [exact W|reflexivity]|].
      change (bytes "0.0") with [48; 46; 48]. change (bytes "e+00") with [101; 43; 48; 48]. cbn [app]. do 2 f_equal.
      destruct p as [n|]; [|reflexivity]. unfold zeros, zero_digits. change (ch "0") with 48. replace (Z.to_nat (Z.max 1 n)) with (Datatypes.S (Z.to_nat (n - 1))) by lia. reflexivity.
    + eexists. split; [reflexivity|]. apply zero_scientific; [exact W|reflexivity].
  - eexists. split; [reflexivity|]. constructor. exact W.
Qed.
Lemma zero_text_reads : forall width p alternate (g : bool) t, zero_text width p alternate t -> dec_text ((if g then [45] else []) ++ t) g 0.
Proof.
  intros width p alternate g t H. assert (B : dec_body t (IZR 0 * bpow r10 0)).
  { destruct H as [W|W A|W A].
    - apply (dec_plain [48] 0 0). apply mantissa_int; [exact (digits_zeros 1)|discriminate].
    - pose proof (mantissa_point 10 [48] [48] 0 (digits_zeros 2) ltac:(discriminate)) as M.
      pose proof (dec_exp _ _ _ 69 [43; 48] 0 M (or_intror eq_refl) (exponent_plus _ _ (digits_zeros 1))) as X. rewrite !Rmult_0_l in *. exact X.
    - set (z := match p with Some n => Z.max 1 n | None => 1 end). pose proof (digits_app 10 [48] 0 _ _ (digits_zeros 1) (digits_zeros z) ltac:(lia)) as Dz.
      pose proof (mantissa_point 10 [48] (zero_digits z) _ Dz ltac:(discriminate)) as M.
      pose proof (dec_exp _ _ _ 101 [43; 48; 48] 0 M (or_introl eq_refl) (exponent_plus _ _ (digits_zeros 2))) as X. rewrite Rmult_0_l in *. exact X. }
  rewrite Rmult_0_l in B. destruct g.
  - pose proof (dec_text_intro [45] true _ _ sign_minus B) as X. cbv iota in X. rewrite Ropp_0 in X. exact X.
  - exact (dec_text_intro [] false _ _ sign_none B).
Qed.
Lemma zero_text_len : forall width p alternate (g : bool) t n, zero_text width p alternate t -> p = None \/ p = Some n -> len ((if g then [45] else []) ++ t) <= Z.max 1 n + 7.
Proof.
  intros width p alternate g t n H Hp. rewrite len_app. assert (len (if g then [45] else []) <= 1) by (destruct g; vm_compute; discriminate).
  destruct H as [W|W A|W A].
  - change (len [48]) with 1. lia.
  - change (len [48; 46; 48; 69; 43; 48]) with 6. lia.
  - rewrite !len_cons, len_app. change (len [101; 43; 48; 48]) with 4. unfold len at 2. destruct p as [n'|]; rewrite zero_digits_length by lia; [|lia].
    destruct Hp as [Hp|Hp]; [discriminate|injection Hp as ->; lia].
Qed.
Theorem fmt_zero_round_trip : forall S x w p alternate m, sem_ok S -> dec_ok S -> category x = Zero -> (forall n, p = Some n -> n < 2 ^ 24) ->
  exists s f, fmt S x w p alternate = Ret s /\ from_str_r S s m = Ret (Ok (OK, f)) /\ wf S f /\ category f = Zero /\ sign f = sign x.
Proof.
  intros S x w p alternate m HS HD C Hp. destruct (fmt_zero S x w p alternate C) as [t [E Z]].
  pose proof (zero_text_reads _ _ _ (sign x) t Z) as T.
  assert (L : len ((if sign x then [45] else []) ++ t) < 2 ^ 25).
  { destruct p as [n|].
    - specialize (Hp n eq_refl). pose proof (zero_text_len _ _ _ (sign x) t n Z (or_intror eq_refl)). lia.
    - pose proof (zero_text_len _ _ _ (sign x) t 1 Z (or_introl eq_refl)). lia. }
  destruct (from_str_zero S _ (sign x) m HS HD T L) as [f [Ef [Wf [Cf Sf]]]]. eexists. exists f. split; [exact E|]. split; [exact Ef|]. split; [exact Wf|]. split; assumption.
Qed.
Theorem fmt_infinity : forall S x w p alternate, category x = Infinity ->
  exists s, fmt S x w p alternate = Ret s /\ inf_text s (sign x).
Proof.
  intros S x w p alternate C. unfold fmt, is_negative. rewrite C. eexists. split; [reflexivity|]. destruct (sign x); constructor.
Qed.
Theorem fmt_infinity_round_trip : forall S x w p alternate m, sem_ok S -> wf S x -> category x = Infinity ->
  exists s f, fmt S x w p alternate = Ret s /\ from_str_r S s m = Ret (Ok (OK, f)) /\ is_special S Infinity (sign x) f.
Proof.
  intros S x w p alternate m HS Hx C. destruct (fmt_infinity S x w p alternate C) as [s [E T]].
  destruct (from_str_inf_value S s (sign x) m HS T) as [f [Ef Sf]]. exists s, f. split; [exact E|]. split; [exact Ef|].
  destruct Hx as [_ [_ Hx]]. rewrite C in Hx. unfold infinity_of in Sf. rewrite Hx in Sf. exact Sf.
Qed.
(** the sign and the payload of a NaN are not printed *)
Lemma nan_word : nan_text (bytes "NaN") false false None.
Proof. apply (nan_intro [] false [] false [78; 97; 78] [] None); [left; split; reflexivity|left; split; reflexivity|right; reflexivity|left; split; reflexivity]. Qed.
Theorem fmt_nan : forall S x w p alternate m, sem_ok S -> category x = NaN ->
  exists f, fmt S x w p alternate = Ret (bytes "NaN") /\ from_str_r S (bytes "NaN") m = Ret (Ok (OK, f)) /\ is_special S NaN false f /\
    (NONFINITE_BEHAVIOR S = IEEE754 -> signaling S f = false).
Proof.
  intros S x w p alternate m HS C. unfold fmt. rewrite C.
  destruct (from_str_nan_value S _ false false None m HS nan_word) as [f [E [Sp Q]]]. exists f. split; [reflexivity|]. split; [exact E|]. split; [exact Sp|].
  intro N. apply (proj1 (Q N)).
Qed.

(** ** What is printed, in general *)
Theorem fmt_accepted : forall S x w p alternate, sem_ok S -> wf S x -> 0 <= chosen_width w -> 1 <= chosen_precision S p <= largest_precision ->
  exists s, fmt S x w p alternate = Ret s /\ accepted s.
Proof.
  intros S x w p alternate HS Hx Hw HP. destruct (category x) eqn:C.
  - destruct (fmt_infinity S x w p alternate C) as [s [E T]]. exists s. split; [exact E|]. left. exists (sign x). exact T.
  - exists (bytes "NaN"). split; [unfold fmt; rewrite C; reflexivity|]. right. left. exists false, false, None. exact nan_word.
  - destruct (fmt_normal S x w p alternate HS Hx C Hw HP) as [s [E Hs]]. exists s. split; [exact E|]. right. right. right.
    destruct (printed_reads _ (chosen_precision S p) _ _ _ s ltac:(lia) Hs) as [n [k [_ T]]]. eexists. eexists. exact T.
  - destruct (fmt_zero S x w p alternate C) as [t [E T]]. eexists. split; [exact E|]. right. right. right. exists (sign x), 0%R. exact (zero_text_reads _ _ _ _ _ T).
Qed.
Theorem fmt_parses : forall S x w p alternate m, sem_ok S -> dec_ok S -> wf S x -> 0 <= chosen_width w -> 1 <= chosen_precision S p < 2 ^ 22 ->
  exists s st f, fmt S x w p alternate = Ret s /\ from_str_r S s m = Ret (Ok (st, f)) /\ wf S f.
Proof.
  intros S x w p alternate m HS HD Hx Hw HP. destruct (fmt_accepted S x w p alternate HS Hx Hw ltac:(unfold largest_precision; lia)) as [s [E A]]. exists s.
  assert (L : len s < 2 ^ 25).
  { pose proof (dec_min S HD) as Dm. destruct (category x) eqn:C.
    - unfold fmt in E. rewrite C in E. injection E as <-. destruct (is_negative x); vm_compute; reflexivity.
    - unfold fmt in E. rewrite C in E. injection E as <-. vm_compute; reflexivity.
    - pose proof (fmt_length S x w p alternate s HS Hx C Hw ltac:(lia) E). lia.
    - destruct (fmt_zero S x w p alternate C) as [t [E' T]]. assert (s = (if sign x then [45] else []) ++ t) as -> by congruence. destruct p as [n|].
      + pose proof (zero_text_len _ _ _ (sign x) t n T (or_intror eq_refl)). cbn [chosen_precision] in HP. lia.
      + pose proof (zero_text_len _ _ _ (sign x) t 1 T (or_introl eq_refl)). lia. }
  destruct (from_str_accepts S s m HS HD A L) as [st [f [Ef Wf]]]. exists st, f. split; [exact E|]. split; [exact Ef|exact Wf].
Qed.
Lemma shortened_unit : forall P v n k, shortened P v n k -> exists q, last_place P v q /\ q <= k /\ (Rabs (IZR n * bpow r10 k - v) < bpow r10 q)%R.
Proof.
  intros P v n k [_ _ [q [L [K H]]]]. exists q. split; [exact L|]. split; [exact K|]. pose proof (bpow_gt_0 r10 q). rewrite Rabs_minus_sym.
  destruct H as [H|[H _]]; apply Rabs_lt; lra.
Qed.
Theorem shortened_exact : forall P v n k m j, 1 <= P -> shortened P v n k -> v = (IZR m * bpow r10 j)%R -> m < 10 ^ P -> (IZR n * bpow r10 k)%R = v.
Proof.
  intros P v n k m j HP H Ev Hm. destruct (shortened_unit P v n k H) as [q [[L1 _] [K E]]].
  assert (Qj : q <= j).
  { destruct (Z_le_gt_dec q j) as [Y|Y]; [exact Y|exfalso].
    assert (v < bpow r10 P * bpow r10 j)%R by (rewrite Ev; apply Rmult_lt_compat_r; [apply bpow_gt_0|rewrite bpow10_pos by lia; apply IZR_lt; exact Hm]).
    rewrite <- bpow_plus in H0, L1. assert (bpow r10 (P + j) <= bpow r10 (P - 1 + q))%R by (apply bpow_le; lia). lra. }
  assert (X : forall a e, q <= e -> (IZR a * bpow r10 e = IZR (a * 10 ^ (e - q)) * bpow r10 q)%R).
  { intros a e He. rewrite mult_IZR, <- bpow10_pos by lia. replace e with (e - q + q) at 1 by lia. rewrite bpow_plus. ring. }
  rewrite Ev in *. rewrite (X m j Qj), (X n k K) in *. set (a := n * 10 ^ (k - q)) in *. set (b := m * 10 ^ (j - q)) in *.
  pose proof (bpow_gt_0 r10 q) as Q. rewrite <- Rmult_minus_distr_r, <- minus_IZR, Rabs_mult, (Rabs_pos_eq (bpow r10 q)) in E by lra.
  assert (Rabs (IZR (a - b)) < 1)%R by (apply Rmult_lt_reg_r with (bpow r10 q); [exact Q|lra]). rewrite <- abs_IZR in H0. apply lt_IZR in H0. do 2 f_equal. lia.
Qed.
(** the printed number is less than one unit of the last place away *)
Theorem fmt_error : forall S x w p alternate, sem_ok S -> wf S x -> category x = Normal -> 0 <= chosen_width w -> 1 <= chosen_precision S p <= largest_precision ->
  exists s y q, fmt S x w p alternate = Ret s /\ dec_text s (sign x) y /\ last_place (chosen_precision S p) (Rabs (value S x)) q /\
    (Rabs (y - value S x) < bpow r10 q)%R /\
    (forall m j, value S x = (IZR m * bpow r10 j)%R -> Z.abs m < 10 ^ chosen_precision S p -> y = value S x).
Proof.
  intros S x w p alternate HS Hx C Hw HP. destruct (fmt_normal S x w p alternate HS Hx C Hw HP) as [s [E Hs]]. set (P := chosen_precision S p) in *.
  destruct (printed_reads _ P _ _ _ s ltac:(lia) Hs) as [n [k [Hsh T]]]. destruct (shortened_unit _ _ _ _ Hsh) as [q [L [_ B]]].
  exists s. eexists. exists q. split; [exact E|]. split; [exact T|]. split; [exact L|].
  pose proof (value_sign_nonneg S x Hx (or_introl C)) as Q. split.
  - destruct (sign x).
    + rewrite (Rabs_left1 (value S x)) in B by exact Q. rewrite <- Rabs_Ropp. replace (- (- (IZR n * bpow r10 k) - value S x))%R with (IZR n * bpow r10 k - - value S x)%R by ring. exact B.
    + rewrite (Rabs_pos_eq (value S x)) in B by exact Q. exact B.
  - intros m j Ev Hm.
    assert (Ea : Rabs (value S x) = (IZR (Z.abs m) * bpow r10 j)%R) by (rewrite Ev, Rabs_mult, <- abs_IZR, (Rabs_pos_eq (bpow _ _)) by apply bpow_ge_0; reflexivity).
    rewrite (shortened_exact P _ n k (Z.abs m) j ltac:(lia) Hsh Ea Hm).
    destruct (sign x); [rewrite Rabs_left1 by exact Q; ring|apply Rabs_pos_eq; exact Q].
Qed.
