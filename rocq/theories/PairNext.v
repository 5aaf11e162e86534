(** * PairNext.v -- the neighbours of a pair *)
From Coq Require Import ZArith Reals List Bool Lia Lra.
From Flocq Require Import Core.
From Verif Require Import Machine Sig SpecSig Ieee Ppc Spec Norm Order Arith Int Next SpecPair Pair PairOps PairBase PairMore PairSamples Samples.
From Verif Require Arith Eft Algebra.
Local Open Scope Z_scope.
Ltac Zify.zify_post_hook ::= idtac.

Section Next.
Variable F : Semantics.
Hypothesis HF : pair_ok F.
Local Notation W := (FallbackS F).
Let FO := F_ok F HF.
Let WO := W_ok F HF.

Lemma wide_number : forall f, wf W f -> finite f -> representable W (value W f).
Proof. intros f Hf Ff. apply finite_representable; assumption. Qed.
Lemma rounds_to_itself : forall y, representable W y -> rounded W NearestTiesToEven y = y.
Proof. intros y [G _]. unfold rounded. pose proof (valid_rnd_of NearestTiesToEven). apply round_generic; assumption. Qed.
Lemma canonical_ext : forall x, canonical_pair F x -> pair_ext F x = Some (Fin (operand F x)).
Proof. intros x [_ [[C _] _]]. unfold pair_ext. destruct C as [C|C]; rewrite C; reflexivity. Qed.
Lemma largest_wide : representable W (max_finite F).
Proof.
  pose proof (ok_prec F FO) as K. split; [|rewrite Rabs_pos_eq by (apply Rlt_le, max_finite_pos; exact FO); apply Rlt_le, max_F_W; exact HF].
  apply (generic_inclusion_mag r2 (fexp F)).
  - intros _. rewrite (W_fexp F). unfold fexp, FLT_exp. lia.
  - replace (max_finite F) with (value F (mkFloat (max_sig F) (MAX_EXP F) Normal false)) by reflexivity.
    apply Arith.value_format; [exact FO|apply wf_largest; exact FO].
Qed.
(** a double-width number in the range of the halves as a pair *)
Lemma in_range_pair : forall f r, finite f -> split_of F f r -> canonical_pair F r /\ pair_value F r = value W f.
Proof. intros f r [C|C] [_ H]; rewrite C in H; exact H. Qed.
Lemma exact_operand : forall f r, wf W f -> finite f -> pair_value F r = value W f -> operand F r = pair_value F r.
Proof. intros f r Hf Ff V. unfold operand. rewrite V. apply rounds_to_itself, wide_number; assumption. Qed.

Theorem dd_next_up_neighbour : forall x, canonical_pair F x -> (- max_finite F <= operand F x < max_finite F)%R ->
  exists r, dd_next_up F x = Ret (OK, r) /\ canonical_pair F r /\ operand F r = pair_value F r /\ representable W (pair_value F r) /\
    (operand F x < pair_value F r)%R /\ (pair_value F x < pair_value F r)%R /\
    (forall y, representable W y -> (operand F x < y)%R -> (pair_value F r <= y)%R) /\
    (pair_value F r = 0%R -> sign (d0 r) = true).
Proof.
  intros x Hx [B1 B2]. destruct (dd_next_up_spec F HF x _ (canonical_readable F x Hx) (canonical_ext x Hx)) as [st [f [Wf [[-> [[_ [L _]] Sg]] [A _]]]]].
  destruct (L ltac:(exists (max_finite F); split; [exact largest_wide|exact B2])) as [Ff [Lt Min]]. cbn [ext_lt] in *.
  assert (B : (Rabs (value W f) <= max_finite F)%R) by (apply Rabs_le; split; [lra|apply Min; [exact largest_wide|exact B2]]).
  destruct (A (splittable_small F HF f Ff B)) as [r [E Sp]]. destruct (in_range_pair f r Ff Sp) as [Cr Vr].
  exists r. split; [exact E|]. split; [exact Cr|]. split; [exact (exact_operand f r Wf Ff Vr)|]. rewrite Vr. split; [apply wide_number; assumption|]. split; [exact Lt|].
  split; [|split; [exact Min|]].
  - destruct (Rlt_le_dec (pair_value F x) (value W f)) as [H|H]; [exact H|exfalso].
    pose proof (Algebra.rounded_mono W NearestTiesToEven _ _ WO H) as Q. rewrite (rounds_to_itself _ (wide_number f Wf Ff)) in Q. unfold operand in Lt. lra.
  - intro Z. rewrite (proj1 Sp). exact (Sg Ff Z).
Qed.
Theorem dd_next_down_neighbour : forall x, canonical_pair F x -> (- max_finite F < operand F x <= max_finite F)%R ->
  exists r, dd_next_down F x = Ret (OK, r) /\ canonical_pair F r /\ operand F r = pair_value F r /\ representable W (pair_value F r) /\
    (pair_value F r < operand F x)%R /\ (pair_value F r < pair_value F x)%R /\
    (forall y, representable W y -> (y < operand F x)%R -> (y <= pair_value F r)%R) /\
    (pair_value F r = 0%R -> sign (d0 r) = false).
Proof.
  intros x Hx [B1 B2]. destruct (dd_next_down_spec F HF x _ (canonical_readable F x Hx) (canonical_ext x Hx)) as [st [f [Wf [[-> [[_ [L _]] Sg]] [A _]]]]].
  assert (LW : representable W (- max_finite F)) by (destruct largest_wide as [G1 G2]; split; [apply generic_format_opp; exact G1|rewrite Rabs_Ropp; exact G2]).
  destruct (L ltac:(exists (- max_finite F)%R; split; [exact LW|exact B1])) as [Ff [Lt Max]]. cbn [ext_lt] in *.
  assert (B : (Rabs (value W f) <= max_finite F)%R) by (apply Rabs_le; split; [apply Max; [exact LW|exact B1]|lra]).
  destruct (A (splittable_small F HF f Ff B)) as [r [E Sp]]. destruct (in_range_pair f r Ff Sp) as [Cr Vr].
  exists r. split; [exact E|]. split; [exact Cr|]. split; [exact (exact_operand f r Wf Ff Vr)|]. rewrite Vr. split; [apply wide_number; assumption|]. split; [exact Lt|].
  split; [|split; [exact Max|]].
  - destruct (Rlt_le_dec (value W f) (pair_value F x)) as [H|H]; [exact H|exfalso].
    pose proof (Algebra.rounded_mono W NearestTiesToEven _ _ WO H) as Q. rewrite (rounds_to_itself _ (wide_number f Wf Ff)) in Q. unfold operand in Lt. lra.
  - intro Z. rewrite (proj1 Sp). exact (Sg Ff Z).
Qed.
Lemma operand_wide : forall x, canonical_pair F x -> (Rabs (operand F x) <= max_finite F)%R -> representable W (operand F x).
Proof.
  intros x Hx B. split; [|apply Rle_trans with (1 := B), Rlt_le, max_F_W; exact HF].
  pose proof (fexp_valid W WO). pose proof (valid_rnd_of NearestTiesToEven). unfold operand, rounded. apply generic_format_round; assumption.
Qed.
(** up and down again: back at the pair, rounded to the double width *)
Theorem dd_down_up : forall x, canonical_pair F x -> (- max_finite F <= operand F x < max_finite F)%R ->
  exists r r', dd_next_up F x = Ret (OK, r) /\ dd_next_down F r = Ret (OK, r') /\ canonical_pair F r' /\ pair_value F r' = operand F x.
Proof.
  intros x Hx B. destruct (dd_next_up_neighbour x Hx B) as [r [E [Cr [Or [Wr [L1 [_ [Min _]]]]]]]].
  assert (Ro : representable W (operand F x)) by (apply operand_wide; [exact Hx|apply Rabs_le; lra]).
  assert (B' : (- max_finite F < operand F r <= max_finite F)%R) by (rewrite Or; split; [lra|apply Min; [exact largest_wide|lra]]).
  destruct (dd_next_down_neighbour r Cr B') as [r' [E' [Cr' [_ [Wr' [L2 [_ [Max _]]]]]]]].
  exists r, r'. split; [exact E|]. split; [exact E'|]. split; [exact Cr'|]. rewrite Or in *.
  pose proof (Max _ Ro L1) as H1. destruct (Rle_lt_or_eq_dec _ _ H1) as [H2|H2]; [exfalso|auto]. pose proof (Min _ Wr' H2). lra.
Qed.
Theorem dd_up_down : forall x, canonical_pair F x -> (- max_finite F < operand F x <= max_finite F)%R ->
  exists r r', dd_next_down F x = Ret (OK, r) /\ dd_next_up F r = Ret (OK, r') /\ canonical_pair F r' /\ pair_value F r' = operand F x.
Proof.
  intros x Hx B. destruct (dd_next_down_neighbour x Hx B) as [r [E [Cr [Or [Wr [L1 [_ [Max _]]]]]]]].
  assert (Ro : representable W (operand F x)) by (apply operand_wide; [exact Hx|apply Rabs_le; lra]).
  assert (LW : representable W (- max_finite F)) by (destruct largest_wide as [G1 G2]; split; [apply generic_format_opp; exact G1|rewrite Rabs_Ropp; exact G2]).
  assert (B' : (- max_finite F <= operand F r < max_finite F)%R) by (rewrite Or; split; [apply Max; [exact LW|lra]|lra]).
  destruct (dd_next_up_neighbour r Cr B') as [r' [E' [Cr' [_ [Wr' [L2 [_ [Min _]]]]]]]].
  exists r, r'. split; [exact E|]. split; [exact E'|]. split; [exact Cr'|]. rewrite Or in *.
  pose proof (Min _ Ro L1) as H1. destruct (Rle_lt_or_eq_dec _ _ H1) as [H2|H2]; [exfalso|auto]. pose proof (Max _ Wr' H2). lra.
Qed.

(** ** Walking *)
(** the client: [n] times [next_up] (src/ppc.rs:364) *)
Fixpoint climb (n : nat) (x : DFloat) : outcome DFloat :=
  match n with
  | O => Ret x
  | S n => let! '(_, r) := dd_next_up F x in climb n r
  end.
Local Notation emin := (MIN_EXP W - (PRECISION W - 1)).
Lemma lattice : forall v, representable W v -> exists n, v = (IZR n * bpow r2 emin)%R.
Proof.
  intros v [G _]. unfold generic_format, F2R in G. cbn [Fnum Fexp] in G. set (e := cexp r2 (fexp W) v) in *. set (k := Ztrunc _) in *.
  assert (K : emin <= e) by (unfold e, cexp, fexp, FLT_exp; apply Z.le_max_r).
  exists (k * 2 ^ (e - emin)). rewrite mult_IZR, IZR_pow2 by lia. rewrite Rmult_assoc, <- bpow_plus. rewrite G at 1. f_equal. f_equal. lia.
Qed.
Theorem climb_reaches : forall x y, canonical_pair F x -> operand F x = pair_value F x -> (- max_finite F <= pair_value F x <= y)%R ->
  representable W y -> (y <= max_finite F)%R ->
  exists n r, climb n x = Ret r /\ canonical_pair F r /\ pair_value F r = y.
Proof.
  intros x y Hx Ox [B1 B2] Ry By. destruct (lattice y Ry) as [b Eb].
  assert (P : (0 < bpow r2 emin)%R) by apply bpow_gt_0.
  assert (T : forall k x a, canonical_pair F x -> operand F x = pair_value F x -> (- max_finite F <= pair_value F x <= y)%R -> pair_value F x = (IZR a * bpow r2 emin)%R ->
    (b - a <= Z.of_nat k) -> exists n r, climb n x = Ret r /\ canonical_pair F r /\ pair_value F r = y).
  { clear x Hx Ox B1 B2. induction k as [|k IH]; intros x a Hx Ox [B1 B2] Ea L.
    - exists O, x. split; [reflexivity|]. split; [exact Hx|]. apply Rle_antisym; [exact B2|]. rewrite Ea, Eb. apply Rmult_le_compat_r; [lra|]. apply IZR_le. lia.
    - destruct (Rle_lt_or_eq_dec _ _ B2) as [Lt|Eq]; [|exists O, x; split; [reflexivity|split; [exact Hx|exact Eq]]].
      destruct (dd_next_up_neighbour x Hx ltac:(rewrite Ox; lra)) as [r [E [Cr [Or [Wr [L1 [_ [Min _]]]]]]]]. rewrite Ox in *.
      destruct (lattice _ Wr) as [c Ec].
      assert (a < c) by (apply lt_IZR; apply (Rmult_lt_reg_r (bpow r2 emin)); [exact P|rewrite <- Ea, <- Ec; exact L1]).
      destruct (IH r c Cr Or ltac:(split; [lra|apply Min; assumption]) Ec ltac:(lia)) as [n [r' [E' R]]].
      exists (S n), r'. split; [|exact R]. cbn [climb]. rewrite E. cbn [bind]. exact E'. }
  assert (Wx : representable W (pair_value F x)).
  { rewrite <- Ox. apply operand_wide; [exact Hx|]. rewrite Ox. apply Rabs_le. lra. }
  destruct (lattice _ Wx) as [a Ea].
  apply (T (Z.to_nat (b - a)) x a Hx Ox (conj B1 B2) Ea). lia.
Qed.
End Next.

(** 1 + 1.5 * 2^-106 has 107 bits *)
Definition p_wide : DFloat := mkDF (mkFloat 4503599627370496 0 Normal false) (mkFloat 6755399441055744 (-106) Normal false).
Lemma p_wide_canonical : canonical_pair DoubleS p_wide. Proof. sample_canonical. Qed.
Lemma small_operand : forall x, canonical_pair DoubleS x -> (Rabs (pair_value DoubleS x) <= 2)%R -> (Rabs (operand DoubleS x) < max_finite DoubleS)%R.
Proof.
  intros x Hx B. pose proof (W_ok DoubleS double_pair) as WO. pose proof (fexp_valid _ WO). pose proof (valid_rnd_of NearestTiesToEven).
  apply Rle_lt_trans with (bpow r2 1).
  - unfold operand, rounded. apply abs_round_le_generic; [assumption|assumption|apply generic_format_bpow; vm_compute; discriminate|exact B].
  - apply Rlt_le_trans with (bpow r2 2); [apply bpow_lt; lia|]. apply (Eft.bpow_max DoubleS 1021); [apply F_ok, double_pair|lia].
Qed.
Lemma next_sample : canonical_pair DoubleS p_third /\ operand DoubleS p_third = pair_value DoubleS p_third /\ (- max_finite DoubleS <= pair_value DoubleS p_third < max_finite DoubleS)%R /\
  (pair_value DoubleS p_third < 1)%R /\ representable (FallbackS DoubleS) 1.
Proof.
  assert (V : (0 < pair_value DoubleS p_third < 1)%R) by (unfold pair_value, value, p_third; cbn -[Rplus Rmult]; lra).
  split; [exact p_third_canonical|]. split; [exact p_third_exact|].
  pose proof (small_operand p_third p_third_canonical ltac:(rewrite Rabs_pos_eq; lra)) as B. rewrite p_third_exact, Rabs_pos_eq in B by lra.
  split; [lra|]. split; [lra|]. split; [change 1%R with (bpow r2 0); apply generic_format_bpow; vm_compute; discriminate|].
  rewrite Rabs_R1. change 1%R with (bpow r2 0). apply (Eft.bpow_max (FallbackS DoubleS) 1023); [apply W_ok, double_pair|lia].
Qed.
Lemma next_back_refuted : exists x r r', canonical_pair DoubleS x /\ (Rabs (operand DoubleS x) < max_finite DoubleS)%R /\
  dd_next_up DoubleS x = Ret (OK, r) /\ dd_next_down DoubleS r = Ret (OK, r') /\ pair_value DoubleS r' <> pair_value DoubleS x.
Proof.
  exists p_wide. do 2 eexists. split; [exact p_wide_canonical|]. split; [|split; [vm_compute; reflexivity|split; [vm_compute; reflexivity|]]].
  - apply small_operand; [exact p_wide_canonical|]. unfold pair_value, value, p_wide. cbn -[Rplus Rmult]. rewrite Rabs_pos_eq by lra. lra.
  - unfold pair_value, value, p_wide. cbn -[Rplus Rmult]. lra.
Qed.
