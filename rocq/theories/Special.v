(** * Special.v -- NaN propagation, infinities and division by zero *)
From Coq Require Import ZArith Reals List Bool Lia Lra ZifyBool.
From Flocq Require Import Core.
From Verif Require Import Machine Sig SpecSig Limbs SigProofs SigProofs2 SigProofs3 SigProofs4 SigProofs5 Ieee Spec Norm Arith.
Import ListNotations.
Local Open Scope Z_scope.

Ltac Zify.zify_post_hook ::= idtac.

Lemma land_pow2 : forall s k, 0 <= k -> Z.land s (2 ^ k) = if Z.testbit s k then 2 ^ k else 0.
Proof.
  intros s k Hk. apply Z.bits_inj'. intros n Hn. rewrite Z.land_spec, Z.pow2_bits_eqb by assumption.
  destruct (Z.eqb_spec k n) as [<-|Hne].
  - destruct (Z.testbit s k); [rewrite Z.pow2_bits_true by assumption; reflexivity|rewrite Z.bits_0; reflexivity].
  - rewrite andb_false_r. destruct (Z.testbit s k); [rewrite Z.pow2_bits_false by lia; reflexivity|rewrite Z.bits_0; reflexivity].
Qed.

Lemma is_signaling_spec : forall S x, sem_ok S -> is_signaling S x = signaling S x.
Proof.
  intros S x [Hp _ _ Hnf]. unfold is_signaling, signaling, is_nan.
  destruct (category x); try reflexivity. cbn [category_eqb andb].
  destruct (NONFINITE_BEHAVIOR S).
  - destruct Hnf as [_ [_ Hq]]. destruct (X87 S).
    + destruct Hq as [-> ->]. change (3 * 2 ^ 62) with (Z.lor (2 ^ 63) (2 ^ 62)).
      rewrite Z.land_lor_distr_r, !land_pow2 by lia. change (64 - 2) with 62. change (64 - 1) with 63. cbn [negb orb].
      destruct (Z.testbit (sig x) 62), (Z.testbit (sig x) 63); reflexivity.
    + rewrite Hq, land_pow2 by lia. cbn [negb orb]. rewrite andb_true_r.
      pose proof (pow2_gt0 (PRECISION S - 2) ltac:(lia)).
      destruct (Z.testbit (sig x) (PRECISION S - 2)); [rewrite Z.eqb_refl; reflexivity|].
      destruct (Z.eqb_spec 0 (2 ^ (PRECISION S - 2))); [lia|reflexivity].
  - destruct Hnf as [_ [_ [-> _]]]. rewrite Z.land_0_r. reflexivity.
Qed.

Lemma quieted_quiet : forall S x, sem_ok S -> NONFINITE_BEHAVIOR S = NanOnly -> quieted S x = x.
Proof. intros S x _ H. unfold quieted. rewrite H. destruct x; reflexivity. Qed.

Lemma setbit_id : forall s k, 0 <= k -> Z.testbit s k = true -> Z.setbit s k = s.
Proof.
  intros s k Hk H. apply Z.bits_inj'. intros n Hn. rewrite Z.setbit_eqb by assumption.
  destruct (Z.eqb_spec k n) as [<-|]; [rewrite H|]; reflexivity.
Qed.

Lemma quieted_of_quiet : forall S x, sem_ok S -> category x = NaN -> signaling S x = false -> quieted S x = x.
Proof.
  intros S x [Hp _ _ _] Hc Hs. unfold quieted, signaling in *. rewrite Hc in Hs.
  destruct x as [s e c g]; cbn [sig exp category sign] in *. subst c. f_equal.
  destruct (NONFINITE_BEHAVIOR S); [|reflexivity]. apply setbit_id; [lia|].
  apply negb_false_iff in Hs. apply andb_prop in Hs. apply Hs.
Qed.

Lemma quieted_not_signaling : forall S x, sem_ok S -> proper_nan S x -> signaling S (quieted S x) = false.
Proof.
  intros S x [Hp _ _ _] Hx. unfold quieted, signaling, proper_nan in *. cbn [sig category].
  destruct (category x); try reflexivity. destruct (NONFINITE_BEHAVIOR S); [|reflexivity].
  rewrite Z.setbit_eq by lia. rewrite Z.setbit_neq by lia. destruct (X87 S); cbn [negb orb andb]; [|reflexivity].
  rewrite Hx by reflexivity. reflexivity.
Qed.

Lemma wf_quieted : forall S x, sem_ok S -> wf S x -> category x = NaN -> wf S (quieted S x).
Proof.
  intros S x HS [H1 [H2 H3]] Hc. rewrite Hc in H3. destruct (p_pow S HS) as [P1 [P2 P3]]. destruct HS as [Hp _ _ Hnf].
  unfold wf, quieted, nan_sig in *. cbn [sig exp category]. rewrite Hc.
  destruct (NONFINITE_BEHAVIOR S); [|split; [assumption|split; assumption]].
  assert (Hb : forall k, PRECISION S - 2 < k -> 0 <= sig x < 2 ^ k -> 0 <= Z.setbit (sig x) (PRECISION S - 2) < 2 ^ k).
  { intros k Hk Hs. unfold Z.setbit. rewrite Z.shiftl_1_l. split; [apply Z.lor_nonneg; split; [lia|apply Z.pow_nonneg; lia]|].
    assert (2 ^ (PRECISION S - 2) < 2 ^ k) as Hlt by (apply Z.pow_lt_mono_r; lia).
    pose proof (pow2_gt0 (PRECISION S - 2) ltac:(lia)) as Hpos.
    destruct (Z.eq_dec (Z.lor (sig x) (2 ^ (PRECISION S - 2))) 0) as [E|E]; [rewrite E; lia|].
    assert (0 < Z.lor (sig x) (2 ^ (PRECISION S - 2))) as L0.
    { assert (0 <= Z.lor (sig x) (2 ^ (PRECISION S - 2))) by (apply Z.lor_nonneg; split; [lia|apply Z.pow_nonneg; lia]). lia. }
    apply Z.log2_lt_pow2; [assumption|]. rewrite Z.log2_lor by lia. apply Z.max_lub_lt; [|rewrite Z.log2_pow2 by lia; lia].
    destruct (Z.eq_dec (sig x) 0) as [->|]; [change (Z.log2 0) with 0; lia|]. apply Z.log2_lt_pow2; lia. }
  assert (Hne : forall k, k <> PRECISION S - 2 -> 0 <= k -> Z.setbit (sig x) (PRECISION S - 2) <> 2 ^ k).
  { intros k Hk Hk0 E. pose proof (Z.setbit_eq (sig x) (PRECISION S - 2) ltac:(lia)) as T. rewrite E, Z.pow2_bits_false in T by lia. discriminate. }
  destruct (X87 S).
  - split; [unfold limb; specialize (Hb (PRECISION S)); lia|]. split; [assumption|].
    split; [apply Hb; lia|apply Hne; lia].
  - pose proof (Hb (PRECISION S - 1) ltac:(lia) ltac:(lia)) as Hb'.
    split; [unfold limb; lia|]. split; [assumption|].
    split; [|lia]. assert (Z.setbit (sig x) (PRECISION S - 2) <> 0); [|lia].
    intro E. pose proof (Z.setbit_eq (sig x) (PRECISION S - 2) ltac:(lia)) as T. rewrite E, Z.bits_0 in T. discriminate.
Qed.

Theorem result_from_nan_spec : forall S x, sem_ok S -> category x = NaN ->
  result_from_nan S x = Ret (invalid_if (signaling S x), quieted S x).
Proof.
  intros S x HS Hc. unfold result_from_nan. unfold is_nan. rewrite Hc. cbn [category_eqb assertb].
  rewrite is_signaling_spec by assumption. destruct (signaling S x) eqn:Es; cbn [invalid_if].
  - f_equal. f_equal. unfold quieted, signaling in *. rewrite Hc in *. destruct HS as [Hp _ _ Hnf].
    destruct (NONFINITE_BEHAVIOR S); [|discriminate]. f_equal. unfold Z.setbit. rewrite Z.shiftl_1_l. f_equal.
    destruct Hnf as [_ [Hm Hq]]. destruct (X87 S).
    + destruct Hq as [Hq1 Hq2]. rewrite Hq2, Hm, Hq1. reflexivity.
    + rewrite Hq, Hm. unfold X87_QNAN_SIGNIFICAND. destruct (Z.eqb_spec (2 ^ (PRECISION S - 2)) (3 * 2 ^ 62)) as [E|]; [|reflexivity].
      exfalso. destruct (Z_lt_le_dec (PRECISION S - 2) 64) as [H|H].
      * assert (2 ^ (PRECISION S - 2) <= 2 ^ 63) by (apply Z.pow_le_mono_r; lia). lia.
      * assert (2 ^ 64 <= 2 ^ (PRECISION S - 2)) by (apply Z.pow_le_mono_r; lia). lia.
  - rewrite quieted_of_quiet by assumption. reflexivity.
Qed.

(** the first NaN operand, quieted, and INVALID_OP if an operand signals *)

Theorem either_nan_spec : forall S x y, sem_ok S -> category x = NaN \/ category y = NaN ->
  binop_result_from_either_nan S x y =
  Ret (invalid_if (signaling S x || signaling S y), quieted S (first_nan x y)).
Proof.
  intros S x y HS H. unfold binop_result_from_either_nan, first_nan.
  assert (Hn : forall z, category z <> NaN -> signaling S z = false) by (intros z Hz; unfold signaling; destruct (category z); congruence).
  assert (E : exists n, (match category x, category y with NaN, _ => Ret x | _, NaN => Ret y | _, _ => Panic end) = Ret n /\
     category n = NaN /\ (match category x with NaN => x | _ => y end) = n /\
     signaling S x || signaling S y = signaling S n || signaling S y).
  { destruct (category x) eqn:Ex; destruct (category y) eqn:Ey; destruct H as [H|H]; try discriminate;
      try (exists x; repeat split; [assumption]); exists y; repeat split; try assumption;
      rewrite (Hn x) by congruence; destruct (signaling S y); reflexivity. }
  destruct E as [n [-> [En [-> ->]]]]. cbn [bind]. rewrite result_from_nan_spec by assumption. cbn [bind].
  rewrite is_signaling_spec by assumption. destruct (signaling S n), (signaling S y); reflexivity.
Qed.

Lemma negate_twice : forall x g, negate_if (negate_if x g) g = x.
Proof. intros x g. rewrite !negate_if_eq. cbn [sig exp category sign]. destruct x as [s e c b]; cbn. f_equal. destruct b, g; reflexivity. Qed.

(** ** C11: NaN operands *)
Section Nan.
Variables (S : Semantics) (x y : Float) (m : Round).
Hypothesis HS : sem_ok S.
Hypothesis Hnan : category x = NaN \/ category y = NaN.

Let expected := Ret (invalid_if (signaling S x || signaling S y), quieted S (first_nan x y)).

Ltac by_nan := destruct Hnan as [E|E]; rewrite E;
  repeat match goal with |- context [match category ?z with _ => _ end] => destruct (category z) end;
  (apply either_nan_spec; [exact HS|first [left; exact E|right; exact E]]).

Lemma add_r_nan : add_r S x y m = expected.
Proof. unfold add_r. by_nan. Qed.
Lemma sub_r_nan : sub_r S x y m = expected.
Proof. unfold sub_r. by_nan. Qed.
Lemma mul_r_nan : mul_r S x y m = expected.
Proof.
  unfold mul_r. rewrite negate_twice. rewrite negate_if_eq. cbn [category]. by_nan.
Qed.
Lemma div_r_nan : div_r S x y m = expected.
Proof.
  unfold div_r. rewrite negate_twice. rewrite negate_if_eq. cbn [category]. by_nan.
Qed.
Lemma c_fmod_nan : c_fmod S x y = expected.
Proof. unfold c_fmod. by_nan. Qed.
Lemma ieee_rem_nan : ieee_rem S x y = expected.
Proof. unfold ieee_rem. by_nan. Qed.
End Nan.

(** ** C10: infinities and division by zero *)
Lemma NAN_default : forall S g, sem_ok S -> default_nan S (mkFloat (sig (NAN S)) (exp (NAN S)) NaN g).
Proof.
  intros S g HS. destruct (nan_sig_NAN S HS) as [H1 [H2 H3]]. split; [|split; [reflexivity|]].
  - split; [exact H2|]. split; [exact H3|exact H1].
  - rewrite <- is_signaling_spec by assumption. unfold is_signaling, is_nan. cbn [category category_eqb sig andb].
    unfold NAN, qnan. cbn [sig]. rewrite Z.lor_0_r. rewrite Z.land_comm, Z.lor_comm, Z.land_lor_distr_r.
    rewrite Z.land_diag. destruct HS as [_ _ _ Hnf]. destruct (NONFINITE_BEHAVIOR S).
    + destruct Hnf as [-> _]. rewrite Z.land_0_r, Z.lor_0_r, Z.eqb_refl. reflexivity.
    + destruct Hnf as [_ [_ [-> _]]]. reflexivity.
Qed.

Lemma NAN_default' : forall S, sem_ok S -> default_nan S (NAN S).
Proof. intros S HS. exact (NAN_default S false HS). Qed.

Lemma INFINITY_special : forall S g, sem_ok S ->
  is_special S (infinity_of S) g (mkFloat (sig (INFINITY S)) (exp (INFINITY S)) (category (INFINITY S)) g).
Proof.
  intros S g HS. destruct (INFINITY_facts S g HS) as [H1 H2]. split; [exact H1|]. split; [|reflexivity].
  cbn [category]. unfold INFINITY, infinity_of. destruct (NONFINITE_BEHAVIOR S); reflexivity.
Qed.
Lemma ZERO_special : forall S g, sem_ok S -> is_special S Zero g (mkFloat 0 (MIN_EXP S - 1) Zero g).
Proof. intros S g HS. split; [apply wf_zero; assumption|]. split; reflexivity. Qed.
Lemma wf_inf_ieee : forall S x, wf S x -> category x = Infinity -> infinity_of S = Infinity.
Proof. intros S x [_ [_ H]] E. rewrite E in H. unfold infinity_of. rewrite H. reflexivity. Qed.
Lemma wf_any_sign : forall S s e c g g', wf S (mkFloat s e c g) -> wf S (mkFloat s e c g').
Proof. intros S s e c g g' H. exact H. Qed.

Theorem add_r_infinite : forall S x y m, sem_ok S -> wf S x -> wf S y ->
  category x <> NaN -> category y <> NaN -> category x = Infinity \/ category y = Infinity ->
  exists st f, add_r S x y m = Ret (st, f) /\
    match category x, category y with
    | Infinity, Infinity =>
      if Bool.eqb (sign x) (sign y) then st = OK /\ is_special S Infinity (sign x) f
      else st = INVALID_OP /\ default_nan S f
    | Infinity, _ => st = OK /\ is_special S Infinity (sign x) f
    | _, _ => st = OK /\ is_special S Infinity (sign y) f
    end.
Proof.
  intros S x y m HS Hx Hy Nx Ny Hi. unfold add_r, is_negative, is_zero.
  destruct (category x) eqn:Ex; destruct (category y) eqn:Ey; destruct Hi as [Hi|Hi]; try discriminate; try contradiction;
    cbn [category_eqb andb].
  1,2: destruct (sign x) eqn:Gx, (sign y) eqn:Gy; cbn [xorb Bool.eqb].
  all: rewrite ?Ex, ?Ey; cbn [category_eqb andb NAN qnan category]; do 2 eexists; (split; [reflexivity|]); (split; [reflexivity|]);
    first [apply NAN_default'; assumption|split; [assumption|]; split; [assumption|assumption || reflexivity]].
Qed.

Theorem sub_r_infinite : forall S x y m, sem_ok S -> wf S x -> wf S y ->
  category x <> NaN -> category y <> NaN -> category x = Infinity \/ category y = Infinity ->
  exists st f, sub_r S x y m = Ret (st, f) /\
    match category x, category y with
    | Infinity, Infinity =>
      if Bool.eqb (sign x) (sign y) then st = INVALID_OP /\ default_nan S f
      else st = OK /\ is_special S Infinity (sign x) f
    | Infinity, _ => st = OK /\ is_special S Infinity (sign x) f
    | _, _ => st = OK /\ is_special S Infinity (negb (sign y)) f
    end.
Proof.
  intros S x y m HS Hx Hy Nx Ny Hi.
  assert (sub_r S x y m = add_r S x (neg y) m) as ->.
  { unfold sub_r. destruct (category x); try contradiction; destruct (category y); try contradiction; reflexivity. }
  destruct (add_r_infinite S x (neg y) m HS Hx (wf_neg S y Hy) Nx Ny Hi) as [st [f [E H]]].
  exists st, f. split; [exact E|]. cbn [neg category sign] in H. unfold is_negative in H.
  destruct (category x); try exact H. destruct (category y); try exact H.
  destruct (sign x), (sign y); exact H.
Qed.

Theorem mul_r_infinite : forall S x y m, sem_ok S -> wf S x -> wf S y ->
  category x <> NaN -> category y <> NaN -> category x = Infinity \/ category y = Infinity ->
  exists st f, mul_r S x y m = Ret (st, f) /\
    match category x, category y with
    | Zero, _ | _, Zero => st = INVALID_OP /\ default_nan S f
    | _, _ => st = OK /\ is_special S Infinity (xorb (sign x) (sign y)) f
    end.
Proof.
  intros S x y m HS Hx Hy Nx Ny Hi. unfold mul_r. rewrite negate_if_eq. cbn [category]. unfold is_negative.
  assert (infinity_of S = Infinity) as Hinf by (destruct Hi as [Hi|Hi]; [exact (wf_inf_ieee S x Hx Hi)|exact (wf_inf_ieee S y Hy Hi)]).
  destruct (category x) eqn:Ex; destruct (category y) eqn:Ey; destruct Hi as [Hi|Hi]; try discriminate; try contradiction;
    cbn [category_eqb orb]; do 2 eexists; (split; [reflexivity|]); (split; [reflexivity|]);
    try (apply NAN_default'; assumption); rewrite copy_sign_eq; cbn [sign]; rewrite <- Hinf; apply INFINITY_special; assumption.
Qed.

Theorem div_r_special : forall S x y m, sem_ok S -> wf S x -> wf S y ->
  category x <> NaN -> category y <> NaN ->
  category x = Infinity \/ category y = Infinity \/ category y = Zero ->
  exists st f, div_r S x y m = Ret (st, f) /\
    let g := xorb (sign x) (sign y) in
    match category x, category y with
    | Infinity, Infinity | Zero, Zero => st = INVALID_OP /\ default_nan S f
    | Infinity, _ => st = OK /\ is_special S Infinity g f
    | _, Infinity => st = OK /\ is_special S Zero g f
    | _, _ => st = DIV_BY_ZERO /\ is_special S (infinity_of S) g f
    end.
Proof.
  intros S x y m HS Hx Hy Nx Ny Hi. unfold div_r. rewrite negate_if_eq. cbn [category]. unfold is_negative.
  destruct (category x) eqn:Ex; destruct (category y) eqn:Ey; destruct Hi as [Hi|[Hi|Hi]]; try discriminate; try contradiction;
    do 2 eexists; (split; [reflexivity|]); (split; [reflexivity|]);
    try (apply NAN_default'; assumption);
    rewrite ?copy_sign_eq; cbn [sign sig exp category ZERO]; try (apply INFINITY_special; assumption);
    try (apply ZERO_special; assumption).
  all: split; [|split; reflexivity]; destruct x as [s e c b]; cbn in *; subst c; try exact Hx.
  all: destruct Hx as [W1 [W2 _]]; split; [exact W1|]; split; [exact W2|exact I].
Qed.

Theorem c_fmod_special : forall S x y, sem_ok S -> wf S x -> wf S y ->
  category x <> NaN -> category y <> NaN ->
  category x = Infinity \/ category y = Infinity \/ category y = Zero \/ category x = Zero ->
  exists st f, c_fmod S x y = Ret (st, f) /\
    match category x, category y with
    | Infinity, _ | _, Zero => st = INVALID_OP /\ default_nan S f
    | _, _ => st = OK /\ f = x
    end.
Proof.
  intros S x y HS Hx Hy Nx Ny Hi. unfold c_fmod.
  destruct (category x) eqn:Ex; destruct (category y) eqn:Ey; destruct Hi as [Hi|[Hi|[Hi|Hi]]]; try discriminate; try contradiction;
    cbn [category_eqb orb]; do 2 eexists; (split; [reflexivity|]); (split; [reflexivity|]);
    try (apply NAN_default'; assumption); reflexivity.
Qed.

Theorem ieee_rem_special : forall S x y, sem_ok S -> wf S x -> wf S y ->
  category x <> NaN -> category y <> NaN ->
  category x = Infinity \/ category y = Infinity \/ category y = Zero \/ category x = Zero ->
  exists st f, ieee_rem S x y = Ret (st, f) /\
    match category x, category y with
    | Infinity, _ | _, Zero => st = INVALID_OP /\ default_nan S f
    | _, _ => st = OK /\ f = x
    end.
Proof.
  intros S x y HS Hx Hy Nx Ny Hi. unfold ieee_rem.
  destruct (category x) eqn:Ex; destruct (category y) eqn:Ey; destruct Hi as [Hi|[Hi|[Hi|Hi]]]; try discriminate; try contradiction;
    cbn [category_eqb orb]; do 2 eexists; (split; [reflexivity|]); (split; [reflexivity|]);
    try (apply NAN_default'; assumption); reflexivity.
Qed.
