(** * TwoSum.v -- error-free transformations on the real numbers: what the
    additions of src/ppc.rs compute, before the model enters *)
From Coq Require Import ZArith Reals Bool Lia Lra Psatz.
From Flocq Require Import Core Plus_error Mult_error Relative Pff2Flocq.
From Verif Require Import Spec.
Local Open Scope R_scope.
Ltac Zify.zify_post_hook ::= idtac.

Section TwoSum.
Variables emin prec : Z.
Variable choice : Z -> bool.
Hypothesis Hprec : (4 <= prec)%Z.
Hypothesis Hemin : (emin <= 0)%Z.
Hypothesis Hsym : forall x, choice x = negb (choice (- (x + 1))%Z).
Local Notation fexp := (FLT_exp emin prec).
Local Notation Fm := (generic_format r2 fexp).
Local Notation RN := (round r2 fexp (Znearest choice)).
Local Notation u := (bpow r2 (- prec)).

Instance prec_pos : Prec_gt_0 prec.
Proof. unfold Prec_gt_0. lia. Qed.

Lemma u_small : 0 < u <= / 16.
Proof. split; [apply bpow_gt_0|]. change (/ 16) with (bpow r2 (-4)). apply bpow_le. lia. Qed.
Lemma u_ro_eq : u_ro r2 prec = u.
Proof. unfold u_ro. change (/ 2) with (bpow r2 (-1)). rewrite <- bpow_plus. f_equal. lia. Qed.

Lemma RN_format : forall x, Fm (RN x).
Proof. intros. apply generic_format_round; [apply FLT_exp_valid; exact prec_pos|apply valid_rnd_N]. Qed.
Lemma RN_exact : forall x, Fm x -> RN x = x.
Proof. intros. apply round_generic; [apply valid_rnd_N|assumption]. Qed.
Lemma RN_le_bpow : forall x k, (emin <= k)%Z -> Rabs x <= bpow r2 k -> Rabs (RN x) <= bpow r2 k.
Proof.
  intros x k Hk B. apply abs_round_le_generic; [apply FLT_exp_valid; exact prec_pos|apply valid_rnd_N| |exact B].
  apply generic_format_bpow. unfold FLT_exp. lia.
Qed.
Lemma RN_opp : forall x, RN (- x) = - RN x.
Proof.
  intros x. rewrite round_N_opp. f_equal. apply round_ext. intro y. unfold Znearest.
  destruct Rcompare; try reflexivity. rewrite <- Hsym. reflexivity.
Qed.

(** relative errors: of the sum, and of the rounded sum *)
Lemma sum_rel : forall x y, Fm x -> Fm y -> Rabs (RN (x + y) - (x + y)) <= u / (1 + u) * Rabs (x + y).
Proof.
  intros x y Hx Hy. destruct (FLT_plus_error_N_ex r2 emin prec choice x y Hx Hy) as [eps [B E]]. rewrite u_ro_eq in B. rewrite E.
  replace ((x + y) * (1 + eps) - (x + y)) with (eps * (x + y)) by ring. rewrite Rabs_mult. apply Rmult_le_compat_r; [apply Rabs_pos|exact B].
Qed.
Lemma low_half : forall x y, Fm x -> Fm y -> RN (x + y) = x -> Rabs y <= u * Rabs x.
Proof.
  intros x y Hx Hy E. destruct (FLT_plus_error_N_round_ex r2 emin prec choice x y Hx Hy) as [eps [B E']]. rewrite u_ro_eq in B. rewrite E in E'.
  replace y with (eps * x) by lra. rewrite Rabs_mult. apply Rmult_le_compat_r; [apply Rabs_pos|exact B].
Qed.

(** Knuth's TwoSum, in the order of the code *)
Theorem two_sum : forall a c, Fm a -> Fm c ->
  let z := RN (a + c) in let q := RN (a - z) in
  RN (RN (q + c) + - RN (RN (q + z) - a)) = a + c - z.
Proof.
  intros a c Ha Hc z q.
  pose proof (TwoSum_correct emin prec choice ltac:(lia) Hemin Hsym a c Ha Hc) as T. cbv zeta in T. fold z in T.
  assert (RN (z - a) = - q) as Q. { unfold q. rewrite <- RN_opp. f_equal. ring. }
  rewrite Q in T. replace (z - - q) with (q + z) in T by ring. replace (c - - q) with (q + c) in T by ring.
  rewrite <- RN_opp. replace (- (RN (q + z) - a)) with (a - RN (q + z)) by ring. rewrite Rplus_comm with (r1 := RN (q + c)). lra.
Qed.

(** Dekker's FastTwoSum; also for a first summand that is smaller but not
    finer *)
Theorem fast_two_sum : forall z t, Fm z -> Fm t ->
  (Rabs t <= Rabs z \/ exists k, z = IZR k * bpow r2 (cexp r2 fexp t)) ->
  RN (RN (z - RN (z + t)) + t) = z + t - RN (z + t).
Proof.
  intros z t Hz Ht H. destruct (Rle_or_lt (Rabs t) (Rabs z)) as [L|L].
  - pose proof (Fast2Sum_correct emin prec choice ltac:(lia) Hemin Hsym z t Hz Ht L) as T. cbv zeta in T. rewrite Rplus_comm with (r1 := RN (z - RN (z + t))). lra.
  - destruct H as [H|[k Hk]]; [lra|]. set (s := z + t) in *. set (r := RN s) in *. set (c := cexp r2 fexp t) in *.
    assert (RN (s - r) = s - r) as X.
    { apply RN_exact. replace (s - r) with (- (r - s)) by ring. apply generic_format_opp. unfold r, s. apply plus_error; try assumption; [apply FLT_exp_valid; exact prec_pos|apply FLT_exp_monotone]. }
    assert (Fm (z - r)) as Y.
    2: { rewrite (RN_exact (z - r) Y). replace (z - r + t) with (s - r) by (unfold s; ring). exact X. }
    destruct (Req_dec r s) as [Q|Q].
    { rewrite Q. replace (z - s) with (- t) by (unfold s; ring). apply generic_format_opp. exact Ht. }
    (* the sum is a multiple of the place of [t], and not representable *)
    assert (exists m, t = IZR m * bpow r2 c) as [m Hm].
    { exists (Ztrunc (scaled_mantissa r2 fexp t)). exact Ht. }
    assert (s = IZR (k + m) * bpow r2 c) as Hs by (rewrite plus_IZR; unfold s; rewrite Hk, Hm at 1; ring).
    assert (t <> 0) as Nt. { intro A. rewrite A, Rabs_R0 in L. pose proof (Rabs_pos z). lra. }
    assert (Rabs t < bpow r2 (mag r2 t)) as Bt by apply bpow_mag_gt.
    assert (c < cexp r2 fexp s)%Z as C1.
    { apply Z.nle_gt. intro A. apply Q. unfold r. apply RN_exact. rewrite Hs. apply generic_format_F2R' with (f := Float r2 (k + m) c); [reflexivity|]. intros _. rewrite <- Hs. exact A. }
    assert (s <> 0) as Ns. { intro A. apply Q. unfold r. rewrite A. apply RN_exact, generic_format_0. }
    assert (Rabs s < bpow r2 (mag r2 t + 1)) as Bs.
    { rewrite bpow_plus_1. unfold s. pose proof (Rabs_triang z t). change (IZR (Zaux.radix_val r2)) with 2. lra. }
    assert (mag r2 s <= mag r2 t + 1)%Z as M by (apply mag_le_bpow; assumption).
    assert (cexp r2 fexp s = c + 1 /\ mag r2 t <= c + prec)%Z as [C2 C3] by (unfold c, cexp, FLT_exp in *; lia).
    assert (Rabs (r - s) <= bpow r2 c) as E.
    { pose proof (error_le_half_ulp r2 fexp choice s) as A. fold r in A. rewrite ulp_neq_0 in A by assumption. rewrite C2, bpow_plus_1 in A. change (IZR (Zaux.radix_val r2)) with 2 in A. lra. }
    (* so is the rounded sum *)
    assert (exists n, r = IZR n * bpow r2 (c + 1)) as [n Hn].
    { unfold r, round, F2R. cbn [Fnum Fexp]. rewrite C2. eexists. reflexivity. }
    assert (z - r = IZR (k - n * 2) * bpow r2 c) as D.
    { rewrite Hk, Hn, minus_IZR, mult_IZR, bpow_plus_1. change (IZR (Zaux.radix_val r2)) with 2. ring. }
    (* and the difference is small *)
    assert (Rabs t <= bpow r2 (c + prec) - bpow r2 c) as Bt'.
    { rewrite Hm, Rabs_mult, (Rabs_pos_eq (bpow r2 c)) by apply bpow_ge_0. rewrite <- abs_IZR.
      assert (Z.abs m < 2 ^ prec)%Z as Am.
      { apply lt_IZR. apply Rmult_lt_reg_r with (bpow r2 c); [apply bpow_gt_0|].
        change 2%Z with (Zaux.radix_val r2). rewrite IZR_Zpower by lia. rewrite <- bpow_plus, abs_IZR. rewrite <- (Rabs_pos_eq (bpow r2 c)) at 1 by apply bpow_ge_0.
        rewrite <- Rabs_mult, <- Hm. apply Rlt_le_trans with (1 := Bt). apply bpow_le. lia. }
      assert (bpow r2 (c + prec) - bpow r2 c = IZR (2 ^ prec - 1) * bpow r2 c) as ->.
      { rewrite minus_IZR. change 2%Z with (Zaux.radix_val r2). rewrite IZR_Zpower by lia. rewrite Z.add_comm, bpow_plus. ring. }
      apply Rmult_le_compat_r; [apply bpow_ge_0|]. apply IZR_le. lia. }
    assert (Rabs (z - r) <= bpow r2 (c + prec)) as Bd.
    { replace (z - r) with (- (t + (r - s))) by (unfold s; ring). rewrite Rabs_Ropp. pose proof (Rabs_triang t (r - s)). lra. }
    destruct (Rle_lt_or_eq_dec _ _ Bd) as [Bl|Be].
    + rewrite D. apply generic_format_F2R' with (f := Float r2 (k - n * 2) c); [reflexivity|]. intros Nz. rewrite <- D.
      assert (mag r2 (z - r) <= c + prec)%Z as M2. { apply mag_le_bpow; [|exact Bl]. rewrite D. unfold F2R in Nz. cbn [Fnum Fexp] in Nz. exact Nz. }
      assert (emin <= c)%Z by (unfold c, cexp, FLT_exp; lia). unfold cexp, FLT_exp. cbn [Fexp]. lia.
    + assert (emin <= c)%Z as Ec by (unfold c, cexp, FLT_exp; lia).
      assert (Fm (bpow r2 (c + prec))) as Fb by (apply generic_format_bpow; unfold FLT_exp; lia).
      unfold Rabs in Be. destruct Rcase_abs in Be.
      * replace (z - r) with (- bpow r2 (c + prec)) by lra. apply generic_format_opp, Fb.
      * rewrite Be. exact Fb.
Qed.
(** ** The low part of a sum of pairs *)
Lemma sum_low_bounds : forall a aa c cc, Fm a -> Fm aa -> Fm c -> Fm cc -> Rabs aa <= u * Rabs a -> Rabs cc <= u * Rabs c ->
  let e := a + c - RN (a + c) in let zz := RN (RN (e + aa) + cc) in
  Rabs (zz - (e + aa + cc)) <= 4 * (u * u) * (Rabs a + Rabs c) /\ Rabs zz <= 3 * u * (Rabs a + Rabs c).
Proof.
  intros a aa c cc Ha Haa Hc Hcc Ba Bc e zz.
  assert (Fm e) as He.
  { unfold e. replace (a + c - RN (a + c)) with (- (RN (a + c) - (a + c))) by ring. apply generic_format_opp. apply plus_error; try assumption; [apply FLT_exp_valid; exact prec_pos|apply FLT_exp_monotone]. }
  set (t := RN (e + aa)) in *.
  pose proof (sum_rel a c Ha Hc) as E0. pose proof (sum_rel e aa He Haa) as E1. fold t in E1.
  pose proof (sum_rel t cc (RN_format _) Hcc) as E2. fold zz in E2.
  replace (RN (a + c) - (a + c)) with (- e) in E0 by (unfold e; ring). rewrite Rabs_Ropp in E0.
  pose proof u_small as [U0 U1]. set (v := u / (1 + u)) in *.
  assert (0 < v /\ v * (1 + u) = u) as [V0 V1]. { split; [apply Rdiv_lt_0_compat; lra|]. unfold v. field. lra. }
  clearbody v. clear He Ha Haa Hc Hcc.
  pose proof (Rabs_triang a c) as T0. pose proof (Rabs_triang e aa) as T1. pose proof (Rabs_triang t cc) as T2.
  assert (Rabs t <= Rabs (t - (e + aa)) + Rabs (e + aa)) as T3. { replace t with ((t - (e + aa)) + (e + aa)) at 1 by ring. apply Rabs_triang. }
  assert (Rabs zz <= Rabs (zz - (t + cc)) + Rabs (t + cc)) as T5. { replace zz with ((zz - (t + cc)) + (t + cc)) at 1 by ring. apply Rabs_triang. }
  assert (Rabs (zz - (e + aa + cc)) <= Rabs (zz - (t + cc)) + Rabs (t - (e + aa))) as T4.
  { replace (zz - (e + aa + cc)) with ((zz - (t + cc)) + (t - (e + aa))) by ring. apply Rabs_triang. }
  clearbody zz t e.
  pose proof (Rabs_pos a) as Pa. pose proof (Rabs_pos c) as Pc.
  revert T0 T1 T2 T3 T4 T5 E0 E1 E2 Ba Bc Pa Pc.
  generalize (Rabs (zz - (e + aa + cc))) (Rabs (zz - (t + cc))) (Rabs (t - (e + aa))) (Rabs zz) (Rabs (t + cc)) (Rabs t) (Rabs (e + aa)) (Rabs e) (Rabs aa) (Rabs cc) (Rabs (a + c)) (Rabs a) (Rabs c).
  intros D D2 D1 Z TC T EA E A2 C2 AC A C T0 T1 T2 T3 T4 T5 E0 E1 E2 Ba Bc Pa Pc.
  assert (v <= u) as Vu by nra.
  assert (E <= v * (A + C)) as F1 by nra.
  assert (EA <= v * (A + C) + u * A) as F2 by lra.
  assert (D1 <= v * (v * (A + C) + u * A)) as F3. { apply Rle_trans with (1 := E1). apply Rmult_le_compat_l; lra. }
  set (M := v * (A + C) + u * A) in *. assert (0 <= M <= 2 * u * (A + C)) as FM. { unfold M. assert (0 <= A + C) by lra. nra. }
  assert (TC <= (1 + v) * M + u * C) as F4 by lra.
  assert (D2 <= v * ((1 + v) * M + u * C)) as F5. { apply Rle_trans with (1 := E2). apply Rmult_le_compat_l; lra. }
  split.
  - assert (D <= v * ((2 + v) * M + u * C)) as F6 by lra. apply Rle_trans with (1 := F6).
    assert (v * ((2 + v) * M + u * C) <= 4 * (v * (1 + u)) * (v * (1 + u)) * (A + C)); [|rewrite V1 in *; lra].
    assert (M = v * (A + C) + v * (1 + u) * A) as -> by (unfold M; rewrite V1; ring).
    replace (u * C) with (v * (1 + u) * C) by (rewrite V1; ring).
    assert (0 <= (v * v) * ((6 * u + 4 * (u * u) - 2 * v - u * v) * A + (1 + 7 * u + 4 * (u * u) - v) * C)); [|lra].
    apply Rmult_le_pos; [nra|]. apply Rplus_le_le_0_compat; apply Rmult_le_pos; try assumption; nra.
  - apply Rle_trans with (1 := T5). apply Rle_trans with ((1 + v) * ((1 + v) * M + u * C)); [lra|].
    assert (0 <= A + C) as P by lra. assert (0 <= u * (A + C)) as PU by (apply Rmult_le_pos; lra).
    assert (M <= u * (A + C) + u * A) as F6 by (unfold M; nra).
    assert ((1 + v) * M <= (1 + / 16) * (u * (A + C) + u * A)) as F7 by (apply Rmult_le_compat; lra).
    assert (u * C = u * (A + C) - u * A) as F8 by ring. assert (0 <= u * A <= u * (A + C)) as F9 by (split; nra).
    assert (0 <= (1 + v) * M) as F10 by (apply Rmult_le_pos; lra).
    assert ((1 + v) * ((1 + v) * M + u * C) <= (1 + / 16) * ((2 + / 8) * (u * (A + C)))) as F11 by (apply Rmult_le_compat; lra).
    lra.
Qed.

(** ... and the final normalization applies to it *)
Lemma sum_low_coarse : forall a c t, Fm a -> Fm c -> a <> 0 -> Fm t -> t <> 0 -> Rabs c <= Rabs a -> Rabs t <= 3 * u * (Rabs a + Rabs c) ->
  exists k, RN (a + c) = IZR k * bpow r2 (cexp r2 fexp t).
Proof.
  intros a c t Ha Hc Na Ht Nt L B.
  destruct (round_plus_F2R r2 fexp (Znearest choice) a c Ha Hc Na) as [m Hm].
  assert (cexp r2 fexp t <= cexp r2 fexp (a / IZR r2))%Z as C.
  - unfold cexp, FLT_exp. assert (mag r2 (a / IZR r2) = mag r2 a - 1 :> Z)%Z as ->.
      { replace (a / IZR r2) with (a * bpow r2 (-1)) by reflexivity. rewrite mag_mult_bpow by assumption. lia. }
      assert (mag r2 t <= mag r2 a + 3 - prec)%Z as M; [|lia].
      apply mag_le_bpow; [assumption|]. apply Rle_lt_trans with (1 := B).
      pose proof (bpow_mag_gt r2 a) as G. pose proof u_small as [U _].
      replace (mag r2 a + 3 - prec)%Z with (3 + (- prec + mag r2 a))%Z by ring. rewrite !bpow_plus. change (bpow r2 3) with 8.
      apply Rle_lt_trans with (6 * u * Rabs a); [nra|]. assert (u * Rabs a < u * bpow r2 (mag r2 a)) by (apply Rmult_lt_compat_l; lra). pose proof (bpow_gt_0 r2 (mag r2 a)). nra.
  - exists (m * 2 ^ (cexp r2 fexp (a / IZR r2) - cexp r2 fexp t))%Z. rewrite Hm. unfold F2R. cbn [Fnum Fexp]. rewrite mult_IZR.
    change 2%Z with (Zaux.radix_val r2) at 1. rewrite IZR_Zpower by lia. rewrite Rmult_assoc, <- bpow_plus. do 2 f_equal. ring.
Qed.
Theorem sum_exact : forall a c t, Fm a -> Fm c -> Fm t -> Rabs t <= 3 * u * (Rabs a + Rabs c) ->
  let z := RN (a + c) in RN (RN (z - RN (z + t)) + t) = z + t - RN (z + t).
Proof.
  intros a c t Ha Hc Ht B z. apply fast_two_sum; [apply RN_format|exact Ht|].
  destruct (Req_dec t 0) as [->|Nt]; [left; rewrite Rabs_R0; apply Rabs_pos|].
  destruct (Rle_or_lt (Rabs c) (Rabs a)) as [L|L].
  - destruct (Req_dec a 0) as [->|Na].
    + left. rewrite Rabs_R0 in *. pose proof (Rabs_pos c). replace (Rabs c) with 0 in B by lra. pose proof (Rabs_pos z). lra.
    + right. apply (sum_low_coarse a c t); assumption.
  - right. unfold z. rewrite Rplus_comm. apply (sum_low_coarse c a t); try assumption; [|lra|lra].
    intro A. rewrite A, Rabs_R0 in L. pose proof (Rabs_pos a). lra.
Qed.

(** ** The low part of a product of pairs *)
Lemma prod_rel : forall x, Rabs (RN x - x) <= u / (1 + u) * Rabs x + / 2 * bpow r2 emin.
Proof.
  intros x. destruct (relative_error_N_FLT'_ex r2 emin prec ltac:(lia) choice x) as [eps [eta [B [C [_ E]]]]]. rewrite u_ro_eq in B. rewrite E.
  replace (x * (1 + eps) + eta - x) with (eps * x + eta) by ring. apply Rle_trans with (1 := Rabs_triang _ _). rewrite Rabs_mult.
  apply Rplus_le_compat; [|exact C]. apply Rmult_le_compat_r; [apply Rabs_pos|exact B].
Qed.
(** the polynomial of the error bound *)
Lemma prod_poly : forall w v, 0 < w <= / 16 -> 0 < v -> v * (1 + w) = w ->
  2 * w * v + w * w * w + v * (2 * w * (1 + v) + w * w * w) + v * (v + (1 + v) * (2 * w * (1 + v) + w * w * w)) + w * w <= 8 * (w * w).
Proof.
  intros w v [W0 W1] V0 V1. assert (v <= w) as Vw by nra. assert (v <= w * (1 - 16 / 17 * w)) as Vk by nra.
  assert (0 <= w * w) by nra. assert (0 <= w * v) by nra. assert (0 <= v * v) by nra.
  set (k := v / w). assert (v = k * w) as Hk by (unfold k; field; lra). assert (k <= 1 - 16 / 17 * w) as K1.
  { apply Rmult_le_reg_r with w; [lra|]. rewrite <- Hk. lra. }
  assert (0 < k) as K0 by (apply Rdiv_lt_0_compat; assumption). clearbody k. rewrite Hk.
  assert (2 * k + w + k * (2 * (1 + k * w) + w * w) + k * (k + (1 + k * w) * (2 * (1 + k * w) + w * w)) + 1 <= 8) as G.
  2: { apply Rle_trans with ((w * w) * (2 * k + w + k * (2 * (1 + k * w) + w * w) + k * (k + (1 + k * w) * (2 * (1 + k * w) + w * w)) + 1)); [right; ring|].
       rewrite (Rmult_comm 8). apply Rmult_le_compat_l; assumption. }
  set (l := 1 - 16 / 17 * w) in *.
  assert (0 <= k * w <= w * l) as K2 by (split; nra). set (j := k * w) in *. clearbody j.
  assert (w * w <= w / 16) as W2 by nra. set (i := w * w) in *. assert (0 <= i) as I0 by assumption. clearbody i.
  assert (2 * (1 + j) + i <= 2 + 2 * (w * l) + w / 16) as A1 by lra.
  assert (j <= w) as J by (unfold l in K2; nra).
  assert ((1 + j) * (2 * (1 + j) + i) <= (1 + w * l) * (2 + 2 * (w * l) + w / 16)) as A2 by (apply Rmult_le_compat; lra).
  assert (k * (2 * (1 + j) + i) <= l * (2 + 2 * (w * l) + w / 16)) as A3 by (apply Rmult_le_compat; lra).
  assert (k * (k + (1 + j) * (2 * (1 + j) + i)) <= l * (l + (1 + w * l) * (2 + 2 * (w * l) + w / 16))) as A4 by (apply Rmult_le_compat; nra).
  assert (2 * l + w + l * (2 + 2 * (w * l) + w / 16) + l * (l + (1 + w * l) * (2 + 2 * (w * l) + w / 16)) + 1 <= 8); [|lra].
  clear - W0 W1. unfold l. nra.
Qed.
Theorem prod_low_bounds : forall a b c d, Fm a -> Fm c -> Rabs b <= u * Rabs a -> Rabs d <= u * Rabs c ->
  bpow r2 (emin + 3 * prec) <= Rabs (a * c) ->
  let t := RN (a * c) in let tau := RN (RN (a * c - t) + RN (RN (a * d) + RN (b * c))) in
  RN (a * c - t) = a * c - t /\
  Rabs (t + tau - (a + b) * (c + d)) <= 8 * (u * u) * Rabs (a * c) /\ Rabs tau <= Rabs t.
Proof.
  intros a b c d Ha Hc Lb Ld Big t tau.
  assert (RN (a * c - t) = a * c - t) as X.
  { apply RN_exact. replace (a * c - t) with (- (t - a * c)) by ring. apply generic_format_opp. unfold t. apply mult_error_FLT; try assumption; [exact prec_pos|apply valid_rnd_N|].
    intros _. apply Rle_trans with (2 := Big). apply bpow_le. lia. }
  split; [exact X|]. unfold tau. rewrite X. clear tau. set (t0 := a * c - t) in *. set (x := RN (a * d)). set (y := RN (b * c)). set (s := RN (x + y)). set (tau := RN (t0 + s)).
  assert (Fm t0) as Ht0. { rewrite <- X. apply RN_format. }
  pose proof u_small as [U0 U1]. pose proof (prod_rel (a * d)) as Ex. fold x in Ex. pose proof (prod_rel (b * c)) as Ey. fold y in Ey.
  pose proof (sum_rel x y (RN_format _) (RN_format _)) as Es. fold s in Es. pose proof (sum_rel t0 s Ht0 (RN_format _)) as Et. fold tau in Et.
  assert (Rabs t0 <= u / (1 + u) * Rabs (a * c)) as E0.
  { replace t0 with (- (t - a * c)) by (unfold t0; ring). rewrite Rabs_Ropp.
    destruct (relative_error_N_FLT'_ex r2 emin prec ltac:(lia) choice (a * c)) as [eps [eta [B [C [M E]]]]]. rewrite u_ro_eq in B.
    destruct (Req_dec eta 0) as [Z|Z].
    - fold t in E. rewrite E, Z. replace (a * c * (1 + eps) + 0 - a * c) with (eps * (a * c)) by ring. rewrite Rabs_mult. apply Rmult_le_compat_r; [apply Rabs_pos|exact B].
    - (* no underflow *)
      assert (eps = 0) as Z0 by (destruct (Rmult_integral _ _ M); [assumption|contradiction]).
      fold t in E. rewrite E, Z0. replace (a * c * (1 + 0) + eta - a * c) with eta by ring. apply Rle_trans with (1 := C).
      apply Rle_trans with (u / (1 + u) * bpow r2 (emin + 3 * prec)); [|apply Rmult_le_compat_l; [apply Rlt_le, Rdiv_lt_0_compat; lra|exact Big]].
      apply Rle_trans with (/ 2 * u * bpow r2 (emin + 3 * prec)).
      + rewrite Rmult_assoc, <- bpow_plus. apply Rmult_le_compat_l; [lra|]. apply bpow_le. lia.
      + apply Rmult_le_compat_r; [apply bpow_ge_0|]. unfold Rdiv. rewrite Rmult_comm. apply Rmult_le_compat_l; [lra|]. apply Rinv_le; lra. }
  set (v := u / (1 + u)) in *. assert (0 < v /\ v * (1 + u) = u) as [V0 V1]. { split; [apply Rdiv_lt_0_compat; lra|]. unfold v. field. lra. }
  assert (bpow r2 emin <= u * u * u * Rabs (a * c)) as H0.
  { replace (bpow r2 emin) with (u * u * u * bpow r2 (emin + 3 * prec)) by (rewrite <- !bpow_plus; f_equal; ring).
    apply Rmult_le_compat_l; [|exact Big]. apply Rmult_le_pos; [|lra]. nra. }
  assert (Rabs (a * d) <= u * Rabs (a * c)) as Had by (rewrite !Rabs_mult; pose proof (Rabs_pos a); nra).
  assert (Rabs (b * c) <= u * Rabs (a * c)) as Hbc by (rewrite !Rabs_mult; pose proof (Rabs_pos c); nra).
  assert (Rabs (b * d) <= u * u * Rabs (a * c)) as Hbd.
  { rewrite !Rabs_mult. apply Rle_trans with ((u * Rabs a) * (u * Rabs c)); [apply Rmult_le_compat; try assumption; apply Rabs_pos|right; ring]. }
  assert (0 < Rabs (a * c)) as PP by (apply Rlt_le_trans with (2 := Big); apply bpow_gt_0).
  assert (Rabs (a * c) <= Rabs t + Rabs t0) as Ht. { replace (a * c) with (t + t0) by (unfold t0; ring). apply Rabs_triang. }
  assert (Rabs x <= Rabs (x - a * d) + Rabs (a * d)) as Tx. { replace x with ((x - a * d) + a * d) at 1 by ring. apply Rabs_triang. }
  assert (Rabs y <= Rabs (y - b * c) + Rabs (b * c)) as Ty. { replace y with ((y - b * c) + b * c) at 1 by ring. apply Rabs_triang. }
  assert (Rabs s <= Rabs (s - (x + y)) + Rabs (x + y)) as Ts. { replace s with ((s - (x + y)) + (x + y)) at 1 by ring. apply Rabs_triang. }
  assert (Rabs tau <= Rabs (tau - (t0 + s)) + Rabs (t0 + s)) as Tt. { replace tau with ((tau - (t0 + s)) + (t0 + s)) at 1 by ring. apply Rabs_triang. }
  assert (Rabs (t + tau - (a + b) * (c + d)) <= Rabs (tau - (t0 + s)) + (Rabs (s - (x + y)) + (Rabs (x - a * d) + (Rabs (y - b * c) + Rabs (b * d))))) as TT.
  { replace (t + tau - (a + b) * (c + d)) with ((tau - (t0 + s)) + ((s - (x + y)) + ((x - a * d) + ((y - b * c) + - (b * d))))) by (unfold t0; ring).
    rewrite <- (Rabs_Ropp (b * d)). do 3 (apply Rle_trans with (1 := Rabs_triang _ _); apply Rplus_le_compat_l). apply Rabs_triang. }
  pose proof (Rabs_triang x y) as Txy. pose proof (Rabs_triang t0 s) as T0s.
  clear Big Ld Lb X Ht0 Ha Hc. clearbody v t0 x y s tau t.
  revert Ex Ey Es Et E0 H0 Had Hbc Hbd PP Ht Tx Ty Ts Tt TT Txy T0s.
  generalize (Rabs (t + tau - (a + b) * (c + d))) (Rabs (tau - (t0 + s))) (Rabs (s - (x + y))) (Rabs (x - a * d)) (Rabs (y - b * c)) (Rabs (b * d)) (Rabs (t0 + s)) (Rabs (x + y))
    (Rabs tau) (Rabs s) (Rabs x) (Rabs y) (Rabs (a * d)) (Rabs (b * c)) (Rabs t) (Rabs t0) (Rabs (a * c)) (bpow r2 emin).
  revert U0 U1 V0 V1. generalize u. clear. intros w U0 U1 V0 V1 E D4 D3 D1 D2 BD TS XY TA S X Y AD BC T T0 P h Ex Ey Es Et E0 H0 Had Hbc Hbd PP Ht Tx Ty Ts Tt TT Txy T0s.
  assert (v <= w) as Vw by nra. assert (0 <= w * P) as WP by nra.
  assert (D1 <= v * (w * P) + / 2 * (w * w * w * P)) as F1 by nra.
  assert (D2 <= v * (w * P) + / 2 * (w * w * w * P)) as F2 by nra.
  set (K := (2 * w * (1 + v) + w * w * w)). assert (XY <= K * P) as F3 by (unfold K; lra).
  assert (D3 <= v * (K * P)) as F4. { apply Rle_trans with (1 := Es). apply Rmult_le_compat_l; lra. }
  assert (S <= (1 + v) * (K * P)) as F5 by lra.
  assert (TS <= v * P + (1 + v) * (K * P)) as F6 by lra.
  assert (D4 <= v * (v * P + (1 + v) * (K * P))) as F7. { apply Rle_trans with (1 := Et). apply Rmult_le_compat_l; lra. }
  split.
  - pose proof (prod_poly w v (conj U0 U1) V0 V1) as Q. fold K in Q. apply (Rmult_le_compat_r P) in Q; [|lra]. lra.
  - assert (0 <= K <= / 6) as HK.
    { assert (0 <= w * (1 + v) <= / 16 * (1 + / 16)) as A by (split; [apply Rmult_le_pos; lra|apply Rmult_le_compat; lra]).
      assert (0 <= w * w <= / 16 * / 16) as B by (split; [apply Rmult_le_pos; lra|apply Rmult_le_compat; lra]).
      assert (0 <= w * w * w <= / 16 * / 16 * / 16) as C by (split; [apply Rmult_le_pos; lra|apply Rmult_le_compat; lra]).
      unfold K. lra. }
    assert (K * P <= / 6 * P) as F8 by (apply Rmult_le_compat_r; lra). assert (0 <= K * P) as F9 by (apply Rmult_le_pos; lra).
    assert (v * P <= / 16 * P) as F10 by (apply Rmult_le_compat_r; lra).
    assert ((1 + v) * (K * P) <= (1 + / 16) * (/ 6 * P)) as F11 by (apply Rmult_le_compat; lra).
    assert (TS <= / 4 * P) as F12 by lra. assert (v * TS <= / 16 * (/ 4 * P)) as F13. { apply Rle_trans with (v * (/ 4 * P)); [apply Rmult_le_compat_l; lra|apply Rmult_le_compat_r; lra]. }
    lra.
Qed.
End TwoSum.
