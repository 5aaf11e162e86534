(** * AnyProd.v -- the product of src/ppc.rs on the real numbers, in an arbitrary
    rounding mode, if it is so small that the low halves are rounded coarsely
    (compare AnySum.v) *)
From Coq Require Import ZArith Reals Bool Lia Lra Psatz.
From Flocq Require Import Core Plus_error Mult_error Relative Sterbenz.
From Verif Require Import Spec AnySum.
Local Open Scope R_scope.
Ltac Zify.zify_post_hook ::= idtac.

Section Any.
Variables emin prec : Z.
Variable rnd : R -> Z.
Hypothesis Hrnd : Valid_rnd rnd.
Hypothesis Hprec : (5 <= prec)%Z.
Local Notation fexp := (FLT_exp emin prec).
Local Notation Fm := (generic_format r2 fexp).
Local Notation RD := (round r2 fexp rnd).
Local Notation u := (bpow r2 (- prec)).
Local Notation h := (bpow r2 emin).
Local Existing Instance Hrnd.
Let PP : Prec_gt_0 prec := prec_positive prec Hprec.
Let VE : Valid_exp fexp := flt_valid emin prec Hprec.
Local Existing Instance PP.
Local Existing Instance VE.
Let UR := u_range prec Hprec.

Lemma small_error : forall x, Rabs x < bpow r2 (emin + prec) -> Rabs (RD x - x) <= h.
Proof. intros x H. rewrite <- (ulp_FLT_small r2 emin prec x) by exact H. apply error_le_ulp; exact _. Qed.
Lemma h_scale : forall k, bpow r2 (emin + k) = h * bpow r2 k.
Proof. intro k. apply bpow_plus. Qed.
Lemma u_inv : u * bpow r2 prec = 1.
Proof. rewrite <- bpow_plus. replace (- prec + prec)%Z with 0%Z by lia. reflexivity. Qed.
Lemma half_prec : bpow r2 prec = 2 * bpow r2 (prec - 1).
Proof. replace prec with (1 + (prec - 1))%Z at 1 by lia. rewrite bpow_plus. reflexivity. Qed.

Lemma head_error : forall a c, Fm a -> Fm c -> bpow r2 (emin + prec - 1) <= Rabs (a * c) ->
  let t := RD (a * c) in let t0 := RD (a * c - t) in
  Rabs (t - a * c) <= 2 * u * Rabs (a * c) /\ Rabs (t0 - (a * c - t)) <= h.
Proof.
  intros a c Ha Hc Big t t0. pose proof UR as [U0 U1].
  assert (Rabs (t - a * c) <= 2 * u * Rabs (a * c)) as E0.
  { replace (2 * u) with (bpow r2 (- prec + 1)).
    - apply Rlt_le, relative_error_FLT; [exact PP|exact _|]. exact Big.
    - rewrite bpow_plus. change (bpow r2 1) with 2. ring. }
  split; [exact E0|]. pose proof (bpow_gt_0 r2 emin) as H0.
  destruct (Rle_or_lt (bpow r2 (emin + 2 * prec - 1)) (Rabs (a * c))) as [L|L].
  - unfold t0. rewrite (any_exact emin prec rnd Hrnd).
    + rewrite Rminus_diag_eq, Rabs_R0 by reflexivity. lra.
    + replace (a * c - t) with (- (t - a * c)) by ring. apply generic_format_opp. unfold t. apply mult_error_FLT; try assumption; try exact _.
      intros _. apply Rle_trans with (2 := L). apply bpow_le. lia.
  - apply small_error. replace (a * c - t) with (- (t - a * c)) by ring. rewrite Rabs_Ropp. apply Rle_lt_trans with (1 := E0).
    apply Rlt_le_trans with (2 * u * bpow r2 (emin + 2 * prec - 1)).
    + apply Rmult_lt_compat_l; [lra|exact L].
    + replace (2 * u) with (bpow r2 (1 - prec)) by (replace (1 - prec)%Z with (1 + - prec)%Z by ring; rewrite bpow_plus; reflexivity).
      rewrite <- bpow_plus. apply bpow_le. lia.
Qed.

Lemma small_prod_num : forall w P h X D4 D3 D1 D2 D0 DT BD TS XY TA S X1 Y1 AD BC T T0 TE,
  0 < w <= / 32 -> 0 < P -> 0 <= h <= 2 * w * P ->
  AD <= 2 * w * P -> BC <= 2 * w * P -> BD <= 4 * (w * w) * P -> TE <= 2 * w * P -> DT <= h -> T0 <= TE + DT ->
  D1 <= 2 * w * AD + h -> D2 <= 2 * w * BC + h -> X1 <= D1 + AD -> Y1 <= D2 + BC -> XY <= X1 + Y1 ->
  D3 <= 2 * w * XY -> S <= D3 + XY -> TS <= T0 + S -> D4 <= 2 * w * TS -> TA <= D4 + TS -> T <= P + TE -> P <= T + TE ->
  D0 <= 4 * (w * w) * (T + TA) -> X <= D0 + (D4 + (D3 + (D1 + (D2 + (BD + DT))))) ->
  X <= 40 * (w * w) * P + 4 * h /\ TA <= T /\ TA <= P.
Proof.
  intros w P h X D4 D3 D1 D2 D0 DT BD TS XY TA S X1 Y1 AD BC T T0 TE [W0 W1] PP0 [H0 H1] A1 A2 A3 A4 A5 A6 B1 B2 B3 B4 B5 B6 B7 B8 B9 B10 B11 B12 B13 B14.
  set (N := w * P) in *. assert (0 < N) as PN by (apply Rmult_lt_0_compat; assumption).
  set (Q := w * N). assert (0 < Q) as PQ by (apply Rmult_lt_0_compat; assumption).
  assert (Q <= / 32 * N) as QN by (apply Rmult_le_compat_r; lra). assert (N <= / 32 * P) as NP by (apply Rmult_le_compat_r; lra).
  replace (2 * w * P) with (2 * N) in * by (unfold N; ring).
  replace (4 * (w * w) * P) with (4 * Q) in A3 by (unfold Q, N; ring).
  set (k := w * h). assert (k <= / 32 * h) as Kh by (apply Rmult_le_compat_r; lra). assert (0 <= k) as K0 by (apply Rmult_le_pos; lra).
  assert (D1 <= 4 * Q + h) as C1. { apply Rle_trans with (1 := B1). apply Rplus_le_compat_r. apply Rle_trans with (2 * w * (2 * N)); [apply Rmult_le_compat_l; lra|right; unfold Q; ring]. }
  assert (D2 <= 4 * Q + h) as C2. { apply Rle_trans with (1 := B2). apply Rplus_le_compat_r. apply Rle_trans with (2 * w * (2 * N)); [apply Rmult_le_compat_l; lra|right; unfold Q; ring]. }
  assert (XY <= 17 / 4 * N + 2 * h) as C3 by lra.
  assert (D3 <= 17 / 2 * Q + 4 * k) as C4. { apply Rle_trans with (1 := B6). apply Rle_trans with (2 * w * (17 / 4 * N + 2 * h)); [apply Rmult_le_compat_l; lra|right; unfold Q, k; field]. }
  assert (S <= 18 / 4 * N + / 16 * N + 17 / 8 * h) as C5 by lra.
  assert (TS <= 105 / 16 * N + 25 / 8 * h) as C6 by lra.
  assert (D4 <= 105 / 8 * Q + 25 / 4 * k) as C7. { apply Rle_trans with (1 := B9). apply Rle_trans with (2 * w * (105 / 16 * N + 25 / 8 * h)); [apply Rmult_le_compat_l; lra|right; unfold Q, k; field]. }
  assert (TA <= 7 * N + 107 / 32 * h) as C8 by lra. assert (TA <= 14 * N) as C8' by lra.
  assert (D0 <= 4 * (w * w) * (P + 9 * N + 107 / 32 * h)) as C9. { apply Rle_trans with (1 := B13). apply Rmult_le_compat_l; [nra|lra]. }
  assert (w * w <= / 32 * / 32) as WW by (apply Rmult_le_compat; lra).
  assert (4 * (w * w) * (107 / 32 * h) <= / 64 * h) as C9''.
  { apply Rle_trans with (4 * (/ 32 * / 32) * (107 / 32 * h)); [apply Rmult_le_compat_r; lra|lra]. }
  assert (4 * (w * w) * (P + 9 * N) <= 4 * (w * w) * (41 / 32 * P)) as C9' by (apply Rmult_le_compat_l; [nra|lra]).
  replace (4 * (w * w) * (41 / 32 * P)) with (41 / 8 * Q) in C9' by (unfold Q, N; field).
  rewrite Rmult_plus_distr_l in C9.
  replace (40 * (w * w) * P) with (40 * Q) by (unfold Q, N; ring). repeat split; lra.
Qed.

Theorem any_prod_small : forall a b c d, Fm a -> Fm c -> Rabs b <= 2 * u * Rabs a -> Rabs d <= 2 * u * Rabs c ->
  bpow r2 (emin + prec - 1) <= Rabs (a * c) ->
  let t := RD (a * c) in let t0 := RD (a * c - t) in let x := RD (a * d) in let y := RD (b * c) in let s := RD (x + y) in let tau := RD (t0 + s) in
  let r0 := RD (t + tau) in let r1 := RD (RD (t - r0) + tau) in
  Rabs (r0 + r1 - (a + b) * (c + d)) <= 40 * (u * u) * Rabs (a * c) + 4 * h /\ Rabs r1 <= 2 * u * Rabs r0 /\
  Rabs tau <= Rabs (a * c) /\ Rabs tau <= Rabs t.
Proof.
  intros a b c d Ha Hc Lb Ld Big t t0 x y s tau r0 r1. pose proof UR as [U0 U1].
  destruct (head_error a c Ha Hc Big) as [E0 DT]. fold t in E0, DT. fold t0 in DT.
  assert (forall x, Fm (RD x)) as FM by (intro; apply any_format; assumption).
  pose proof (any_prod emin prec rnd Hrnd Hprec (a * d)) as Ex. fold x in Ex. pose proof (any_prod emin prec rnd Hrnd Hprec (b * c)) as Ey. fold y in Ey.
  pose proof (any_sum emin prec rnd Hrnd Hprec x y (FM _) (FM _)) as Es. fold s in Es. pose proof (any_sum emin prec rnd Hrnd Hprec t0 s (FM _) (FM _)) as Et. fold tau in Et.
  assert (h <= 2 * u * Rabs (a * c)) as H0.
  { apply Rle_trans with (2 * u * bpow r2 (emin + prec - 1)); [|apply Rmult_le_compat_l; lra].
    replace (emin + prec - 1)%Z with (emin + (prec - 1))%Z by lia. rewrite h_scale. pose proof half_prec as HP2. pose proof u_inv as UI. rewrite HP2 in UI.
    replace (2 * u * (h * bpow r2 (prec - 1))) with (h * (u * (2 * bpow r2 (prec - 1)))) by ring. rewrite UI. lra. }
  assert (Rabs (a * d) <= 2 * u * Rabs (a * c)) as Had. { rewrite !Rabs_mult. replace (2 * u * (Rabs a * Rabs c)) with (Rabs a * (2 * u * Rabs c)) by ring. apply Rmult_le_compat_l; [apply Rabs_pos|exact Ld]. }
  assert (Rabs (b * c) <= 2 * u * Rabs (a * c)) as Hbc. { rewrite !Rabs_mult. rewrite <- Rmult_assoc. apply Rmult_le_compat_r; [apply Rabs_pos|exact Lb]. }
  assert (Rabs (b * d) <= 4 * (u * u) * Rabs (a * c)) as Hbd.
  { rewrite !Rabs_mult. apply Rle_trans with ((2 * u * Rabs a) * (2 * u * Rabs c)); [apply Rmult_le_compat; try assumption; apply Rabs_pos|right; ring]. }
  assert (0 < Rabs (a * c)) as PPos by (apply Rlt_le_trans with (2 := Big); apply bpow_gt_0).
  assert (Rabs (a * c) <= Rabs t + Rabs (t - a * c)) as Ht. { replace (a * c) with (t + - (t - a * c)) at 1 by ring. rewrite <- (Rabs_Ropp (t - a * c)). apply Rabs_triang. }
  assert (Rabs t <= Rabs (a * c) + Rabs (t - a * c)) as Ht'. { replace t with (a * c + (t - a * c)) at 1 by ring. apply Rabs_triang. }
  assert (Rabs t0 <= Rabs (t - a * c) + Rabs (t0 - (a * c - t))) as Tt0. { replace t0 with (- (t - a * c) + (t0 - (a * c - t))) at 1 by ring. rewrite <- (Rabs_Ropp (t - a * c)). apply Rabs_triang. }
  assert (Rabs x <= Rabs (x - a * d) + Rabs (a * d)) as Tx. { replace x with ((x - a * d) + a * d) at 1 by ring. apply Rabs_triang. }
  assert (Rabs y <= Rabs (y - b * c) + Rabs (b * c)) as Ty. { replace y with ((y - b * c) + b * c) at 1 by ring. apply Rabs_triang. }
  assert (Rabs s <= Rabs (s - (x + y)) + Rabs (x + y)) as Ts. { replace s with ((s - (x + y)) + (x + y)) at 1 by ring. apply Rabs_triang. }
  assert (Rabs tau <= Rabs (tau - (t0 + s)) + Rabs (t0 + s)) as Tt. { replace tau with ((tau - (t0 + s)) + (t0 + s)) at 1 by ring. apply Rabs_triang. }
  assert (Rabs (r0 + r1 - (a + b) * (c + d)) <= Rabs (r0 + r1 - (t + tau)) + (Rabs (tau - (t0 + s)) + (Rabs (s - (x + y)) + (Rabs (x - a * d) + (Rabs (y - b * c) + (Rabs (b * d) + Rabs (t0 - (a * c - t)))))))) as TT.
  { replace (r0 + r1 - (a + b) * (c + d)) with ((r0 + r1 - (t + tau)) + ((tau - (t0 + s)) + ((s - (x + y)) + ((x - a * d) + ((y - b * c) + (- (b * d) + (t0 - (a * c - t)))))))) by ring.
    rewrite <- (Rabs_Ropp (b * d)). do 5 (apply Rle_trans with (1 := Rabs_triang _ _); apply Rplus_le_compat_l). apply Rabs_triang. }
  pose proof (Rabs_triang x y) as Txy. pose proof (Rabs_triang t0 s) as T0s.
  pose proof (bpow_ge_0 r2 emin) as Pe.
  destruct (small_prod_num u (Rabs (a * c)) h (Rabs (tau - (t0 + s)) + (Rabs (s - (x + y)) + (Rabs (x - a * d) + (Rabs (y - b * c) + (Rabs (b * d) + Rabs (t0 - (a * c - t)))))))
    _ _ _ _ 0 _ _ _ _ _ _ _ _ _ _ _ _ _ (conj U0 U1) PPos (conj Pe H0) Had Hbc Hbd E0 DT Tt0 Ex Ey Tx Ty Txy Es Ts T0s Et Tt Ht' Ht) as [_ [Q _]].
  { apply Rmult_le_pos; [nra|]. pose proof (Rabs_pos t). pose proof (Rabs_pos tau). lra. }
  { lra. }
  destruct (any_normalize emin prec rnd Hrnd Hprec t tau (FM _) (FM _) (or_introl Q)) as [N1 N2]. fold r0 in N1, N2. fold r1 in N1, N2.
  destruct (small_prod_num u (Rabs (a * c)) h _ _ _ _ _ _ _ _ _ _ _ _ _ _ _ _ _ _ _ (conj U0 U1) PPos (conj Pe H0) Had Hbc Hbd E0 DT Tt0 Ex Ey Tx Ty Txy Es Ts T0s Et Tt Ht' Ht N1 TT) as [K1 [_ K2]].
  exact (conj K1 (conj N2 (conj K2 Q))).
Qed.

(** below the normal range everything but the products is exact *)
Lemma unit_multiple : forall x, Fm x -> exists k, x = IZR k * h.
Proof.
  intros x Hx. apply (format_multiple emin prec x emin Hx). unfold cexp, FLT_exp. lia.
Qed.
Lemma multiple_exact : forall x k, x = IZR k * h -> Rabs x <= bpow r2 (emin + prec) -> Fm x.
Proof.
  intros x k E L. apply (multiple_format emin prec Hprec x k emin E); [lia|].
  apply le_IZR. rewrite abs_IZR. replace (IZR (2 ^ prec)) with (bpow r2 prec) by (rewrite <- IZR_Zpower by lia; reflexivity).
  rewrite E, Rabs_mult, (Rabs_pos_eq h) in L by apply bpow_ge_0. rewrite h_scale, (Rmult_comm h) in L. apply Rmult_le_reg_r in L; [exact L|apply bpow_gt_0].
Qed.
Theorem any_prod_tiny : forall a b c d t0, Rabs b <= 2 * u * Rabs a -> Rabs d <= 2 * u * Rabs c ->
  Rabs (a * c) < bpow r2 (emin + prec - 1) -> Fm t0 -> Rabs t0 <= h ->
  let t := RD (a * c) in let x := RD (a * d) in let y := RD (b * c) in let s := RD (x + y) in let tau := RD (t0 + s) in
  let r0 := RD (t + tau) in let r1 := RD (RD (t - r0) + tau) in
  r0 = t + tau /\ r1 = 0 /\ Rabs t <= bpow r2 (emin + prec - 1) /\ Rabs x <= h /\ Rabs y <= h /\ Rabs s <= 2 * h /\ Rabs tau <= 3 * h /\
  Rabs (r0 - (a + b) * (c + d)) <= 5 * h.
Proof.
  intros a b c d t0 Lb Ld Small F0 T0 t x y s tau r0 r1. pose proof UR as [U0 U1]. pose proof (bpow_gt_0 r2 emin) as H0.
  assert (forall x, Fm (RD x)) as FM by (intro; apply any_format; assumption).
  pose proof half_prec as HP2. pose proof u_inv as UI.
  assert (bpow r2 (emin + prec - 1) = h * bpow r2 (prec - 1)) as EB by (replace (emin + prec - 1)%Z with (emin + (prec - 1))%Z by lia; apply h_scale).
  pose proof (h_scale prec) as EP.
  assert (2 * u * Rabs (a * c) <= h) as HU.
  { apply Rle_trans with (2 * u * bpow r2 (emin + prec - 1)); [apply Rmult_le_compat_l; lra|]. rewrite EB. right.
    replace (2 * u * (h * bpow r2 (prec - 1))) with (h * (u * (2 * bpow r2 (prec - 1)))) by ring. rewrite <- HP2, UI. ring. }
  assert (16 <= bpow r2 (prec - 1)) as H16. { change 16 with (bpow r2 4). apply bpow_le. lia. }
  assert (16 * h <= bpow r2 (emin + prec - 1)) as HB. { rewrite EB, (Rmult_comm h). apply Rmult_le_compat_r; lra. }
  assert (bpow r2 (emin + prec) = 2 * bpow r2 (emin + prec - 1)) as EB2 by (rewrite EP, EB, HP2; ring).
  assert (Rabs (a * d) <= h) as Had. { apply Rle_trans with (2 := HU). rewrite !Rabs_mult. replace (2 * u * (Rabs a * Rabs c)) with (Rabs a * (2 * u * Rabs c)) by ring. apply Rmult_le_compat_l; [apply Rabs_pos|exact Ld]. }
  assert (Rabs (b * c) <= h) as Hbc. { apply Rle_trans with (2 := HU). rewrite !Rabs_mult. rewrite <- Rmult_assoc. apply Rmult_le_compat_r; [apply Rabs_pos|exact Lb]. }
  assert (Rabs (b * d) <= / 16 * h) as Hbd.
  { rewrite !Rabs_mult. apply Rle_trans with ((2 * u * Rabs a) * (2 * u * Rabs c)); [apply Rmult_le_compat; try assumption; apply Rabs_pos|].
    replace (2 * u * Rabs a * (2 * u * Rabs c)) with (2 * u * (2 * u * (Rabs a * Rabs c))) by ring. rewrite <- Rabs_mult.
    apply Rmult_le_compat; try lra. apply Rmult_le_pos; [lra|apply Rabs_pos]. }
  assert (Rabs t <= bpow r2 (emin + prec - 1)) as Rt by (apply any_le_bpow; try assumption; try lia; lra).
  assert (Rabs x <= h) as Rx by (apply any_le_bpow; try assumption; lia).
  assert (Rabs y <= h) as Ry by (apply any_le_bpow; try assumption; lia).
  pose proof (small_error (a * c) ltac:(lra)) as Et. fold t in Et. pose proof (small_error (a * d) ltac:(lra)) as Ex. fold x in Ex. pose proof (small_error (b * c) ltac:(lra)) as Ey. fold y in Ey.
  destruct (unit_multiple t (FM _)) as [kt Kt]. destruct (unit_multiple x (FM _)) as [kx Kx]. destruct (unit_multiple y (FM _)) as [ky Ky]. destruct (unit_multiple t0 F0) as [k0 K0].
  assert (forall v k, v = IZR k * h -> Rabs v <= bpow r2 (emin + prec) -> RD v = v) as EX by (intros v k E L; apply any_exact; [exact Hrnd|exact (multiple_exact v k E L)]).
  pose proof (Rabs_triang x y) as Txy.
  assert (s = x + y) as Es. { apply (EX _ (kx + ky)%Z); [rewrite plus_IZR, Rmult_plus_distr_r, <- Kx, <- Ky; reflexivity|lra]. }
  assert (Rabs s <= 2 * h) as Rs by (rewrite Es; lra).
  pose proof (Rabs_triang t0 s) as T0s.
  assert (tau = t0 + s) as Eta. { apply (EX _ (k0 + (kx + ky))%Z); [rewrite !plus_IZR, !Rmult_plus_distr_r, <- Kx, <- Ky, <- K0, Es; reflexivity|lra]. }
  assert (Rabs tau <= 3 * h) as Rta by (rewrite Eta; lra).
  pose proof (Rabs_triang t tau) as Ttt.
  assert (r0 = t + tau) as Er. { apply (EX _ (kt + (k0 + (kx + ky)))%Z); [rewrite !plus_IZR, !Rmult_plus_distr_r, <- Kx, <- Ky, <- K0, <- Kt, Eta, Es; reflexivity|lra]. }
  split; [exact Er|].
  assert (RD (t - r0) = - tau) as Ed.
  { replace (t - r0) with (- tau) by (rewrite Er; ring). apply any_exact; [exact Hrnd|]. apply generic_format_opp, FM. }
  split. { unfold r1. rewrite Ed. replace (- tau + tau) with 0 by ring. apply round_0. exact Hrnd. }
  do 5 (split; [assumption|]).
  replace (r0 - (a + b) * (c + d)) with ((t - a * c) + (t0 + ((x - a * d) + ((y - b * c) + - (b * d))))) by (rewrite Er, Eta, Es; ring).
  pose proof (Rabs_triang (t - a * c) (t0 + ((x - a * d) + ((y - b * c) + - (b * d))))) as G1. pose proof (Rabs_triang t0 ((x - a * d) + ((y - b * c) + - (b * d)))) as G2.
  pose proof (Rabs_triang (x - a * d) ((y - b * c) + - (b * d))) as G3. pose proof (Rabs_triang (y - b * c) (- (b * d))) as G4. rewrite Rabs_Ropp in G4. lra.
Qed.
End Any.
