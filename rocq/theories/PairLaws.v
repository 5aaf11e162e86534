(** * PairLaws.v -- negated and exchanged operands of DoubleDouble sums and products *)
From Coq Require Import ZArith Reals Lia Lra Bool List.
From Flocq Require Import Core Plus_error.
From Verif Require Import Machine Ieee Ppc Spec Norm SpecFma SpecPair SpecPairLaws Arith Algebra Laws Through Symmetry Order Fma FmaExact FmaSymmetry Rewrites.
Local Open Scope Z_scope.
Ltac Zify.zify_post_hook ::= idtac.

Section Laws.
Variable F : Semantics.
Hypothesis HS : sem_ok F.
Hypothesis HI : NONFINITE_BEHAVIOR F = IEEE754.

(** ** Opposite numbers *)
Definition opp (f f' : Float) : Prop :=
  wf F f /\ wf F f' /\
  (finite f /\ finite f' /\ value F f' = (- value F f)%R \/
   category f = Infinity /\ category f' = Infinity /\ sign f' = negb (sign f) \/
   (category f = NaN /\ is_signaling F f = false) /\ category f' = NaN /\ is_signaling F f' = false).
Definition opp_out (o o' : outcome (Z * Float)) : Prop :=
  exists st f f', o = Ret (st, f) /\ o' = Ret (st, f') /\ opp f f'.

Lemma opp_half : forall f f', opp f f' -> opposite_half F f f'.
Proof. intros f f' [_ [_ [H|[H|[[H _] [H' _]]]]]]; [left; exact H|right; left; exact H|right; right; exact (conj H H')]. Qed.
Lemma opp_neg : forall x, wf F x -> finite x -> opp x (neg x).
Proof. intros x W Fx. split; [exact W|]. split; [apply wf_neg, W|]. left. split; [exact Fx|]. split; [apply finite_neg, Fx|apply value_neg]. Qed.
Lemma signaling_neg : forall x, is_signaling F (neg x) = is_signaling F x.
Proof. intro x. reflexivity. Qed.
Lemma opp_negs : forall x x', opp x x' -> opp (neg x) (neg x').
Proof.
  intros x x' [W [W' H]]. split; [apply wf_neg, W|]. split; [apply wf_neg, W'|]. destruct H as [[A [B C]]|[[A [B C]]|[[A A'] [B B']]]].
  - left. split; [apply finite_neg, A|]. split; [apply finite_neg, B|]. rewrite !value_neg, C. ring.
  - right. left. rewrite !category_neg, !sign_neg, C. auto.
  - right. right. rewrite !category_neg, !signaling_neg. auto.
Qed.
Lemma opp_zero : forall z z', wf F z -> wf F z' -> category z = Zero -> category z' = Zero -> opp z z'.
Proof.
  intros z z' W W' C C'. split; [exact W|]. split; [exact W'|]. left. split; [right; exact C|]. split; [right; exact C'|].
  unfold value. rewrite C, C'. ring.
Qed.

Lemma rounded_category : forall m v zs st f, crate_rounded F m v zs (st, f) -> finite f \/ category f = Infinity.
Proof.
  intros m v zs st f [_ [_ [A B]]]. destruct (Rle_or_lt (Rabs (rounded F m v)) (max_finite F)) as [L|L].
  - left. exact (proj1 (A L)).
  - specialize (B L). rewrite HI in B. destruct (crate_to_infinity F m v (sign f)); [right; exact (proj2 B)|left; left; exact (proj1 (proj2 B))].
Qed.
Lemma zero_representable : representable F 0.
Proof. split; [apply generic_format_0|]. rewrite Rabs_R0. apply Rlt_le, max_finite_pos, HS. Qed.

Lemma opp_delivers : forall m v zs zs' o o',
  (exists res, o = Ret res /\ crate_rounded F m v zs res) ->
  (exists res, o' = Ret res /\ crate_rounded F (mirrored m) (- v) zs' res) -> opp_out o o'.
Proof.
  intros m v zs zs' o o' [[st f] [E D]] [[st' f'] [E' D']]. pose proof (proj1 D) as W. pose proof (proj1 D') as W'.
  destruct (Req_dec v 0) as [V|V].
  - subst v. rewrite Ropp_0 in D'.
    destruct (delivers_representable _ _ _ _ _ _ _ HS D zero_representable) as [-> [A B]]. destruct (delivers_representable _ _ _ _ _ _ _ HS D' zero_representable) as [-> [A' B']].
    exists OK, f, f'. split; [exact E|]. split; [exact E'|]. split; [exact W|]. split; [exact W'|]. left. split; [exact A|]. split; [exact A'|]. lra.
  - assert (exists res, o' = Ret res /\ crate_rounded F (mirrored m) (- v) (negb zs) res) as K.
    { exists (st', f'). split; [exact E'|]. eapply zero_sign_irrelevant; [left|exact D']. lra. }
    destruct (symmetric F m v zs o o' HS (or_introl HI) (ex_intro _ (st, f) (conj E D)) K) as [s [g [g' [G [G' B]]]]].
    rewrite E in G. rewrite E' in G'. injection G as <- <-. injection G' as -> <-.
    exists st, f, f'. split; [exact E|]. split; [exact E'|]. split; [exact W|]. split; [exact W'|].
    apply (bitwise_eq_spec F f' (neg f) HS W' (wf_neg F f W)) in B. rewrite category_neg, sign_neg, value_neg in B. destruct B as [C [Sg [_ Vn]]].
    destruct (rounded_category m v zs st f D) as [[Cf|Cf]|Cf].
    + left. split; [left; exact Cf|]. split; [left; congruence|]. apply Vn. congruence.
    + left. split; [right; exact Cf|]. split; [right; congruence|]. unfold value. rewrite C, Cf. ring.
    + right. left. split; [exact Cf|]. split; [congruence|exact Sg].
Qed.

Lemma nan_left : forall x y, category x = NaN -> is_signaling F x = false -> is_signaling F y = false -> binop_result_from_either_nan F x y = Ret (OK, x).
Proof.
  intros x y C Q Q'. unfold binop_result_from_either_nan. rewrite C. cbn [bind]. unfold result_from_nan, is_nan. rewrite C, Q. cbn [category_eqb assertb bind]. rewrite Q'. reflexivity.
Qed.
Lemma nan_right : forall x y, category x <> NaN -> category y = NaN -> is_signaling F y = false -> binop_result_from_either_nan F x y = Ret (OK, y).
Proof.
  intros x y N C Q. unfold binop_result_from_either_nan. rewrite C.
  replace (match category x with NaN => Ret x | _ => Ret y end) with (Ret y) by (destruct (category x); congruence || reflexivity).
  cbn [bind]. unfold result_from_nan, is_nan. rewrite C, Q. cbn [category_eqb assertb bind]. reflexivity.
Qed.
Lemma number_quiet : forall x, category x <> NaN -> is_signaling F x = false.
Proof. intros x N. unfold is_signaling, is_nan. destruct (category x); congruence || reflexivity. Qed.
Lemma add_nan_left : forall x y m, category x = NaN -> is_signaling F x = false -> is_signaling F y = false -> add_r F x y m = Ret (OK, x).
Proof. intros x y m C Q Q'. unfold add_r. rewrite C. apply nan_left; assumption. Qed.
Lemma add_nan_right : forall x y m, category x <> NaN -> category y = NaN -> is_signaling F y = false -> add_r F x y m = Ret (OK, y).
Proof. intros x y m N C Q. unfold add_r. rewrite C. destruct (category x) eqn:E; [| congruence| |]; apply nan_right; congruence. Qed.
Lemma add_inf_left : forall x y m, category x = Infinity -> finite y -> add_r F x y m = Ret (OK, x).
Proof. intros x y m C [H|H]; unfold add_r, is_zero; rewrite C, H; rewrite ?C; reflexivity. Qed.
Lemma add_inf_right : forall x y m, finite x -> category y = Infinity -> add_r F x y m = Ret (OK, y).
Proof. intros x y m [H|H] C; unfold add_r, is_zero; rewrite C, H; rewrite ?C; reflexivity. Qed.
Lemma add_inf_inf : forall x y m, category x = Infinity -> category y = Infinity ->
  add_r F x y m = if xorb (sign x) (sign y) then Ret (INVALID_OP, NAN F) else Ret (OK, x).
Proof.
  intros x y m C C'. unfold add_r, is_zero, is_negative. rewrite C, C'. destruct (xorb (sign x) (sign y)); [reflexivity|]. reflexivity.
Qed.
Lemma finite_number : forall x, finite x -> category x <> NaN.
Proof. intros x [H|H]; congruence. Qed.

(** the default NaN of invalid operations *)
Hypothesis HN : wf F (NAN F) /\ is_signaling F (NAN F) = false.

Lemma add_opp : forall x x' y y' m, opp x x' -> opp y y' -> opp_out (add_r F x y m) (add_r F x' y' (mirrored m)).
Proof.
  intros x x' y y' m [Wx [Wx' Hx]] [Wy [Wy' Hy]].
  destruct Hx as [[Fx [Fx' Vx]]|[[Ix [Ix' Sx]]|[[Nx Qx] [Nx' Qx']]]].
  - destruct Hy as [[Fy [Fy' Vy]]|[[Iy [Iy' Sy]]|[[Ny Qy] [Ny' Qy']]]].
    + eapply opp_delivers; [exact (add_r_spec F x y m HS Wx Wy Fx Fy)|].
      replace (- (value F x + value F y))%R with (value F x' + value F y')%R by lra. exact (add_r_spec F x' y' (mirrored m) HS Wx' Wy' Fx' Fy').
    + rewrite !add_inf_right by assumption. exists OK, y, y'. split; [reflexivity|]. split; [reflexivity|]. split; [exact Wy|]. split; [exact Wy'|]. right. left. auto.
    + rewrite !add_nan_right by (assumption || apply finite_number; assumption). exists OK, y, y'. split; [reflexivity|]. split; [reflexivity|]. split; [exact Wy|]. split; [exact Wy'|]. right. right. auto.
  - destruct Hy as [[Fy [Fy' Vy]]|[[Iy [Iy' Sy]]|[[Ny Qy] [Ny' Qy']]]].
    + rewrite !add_inf_left by assumption. exists OK, x, x'. split; [reflexivity|]. split; [reflexivity|]. split; [exact Wx|]. split; [exact Wx'|]. right. left. auto.
    + rewrite !add_inf_inf by assumption. rewrite Sx, Sy.
      replace (xorb (negb (sign x)) (negb (sign y))) with (xorb (sign x) (sign y)) by (destruct (sign x), (sign y); reflexivity).
      destruct (xorb (sign x) (sign y)).
      * exists INVALID_OP, (NAN F), (NAN F). split; [reflexivity|]. split; [reflexivity|]. destruct HN as [A B]. split; [exact A|]. split; [exact A|]. right. right. auto.
      * exists OK, x, x'. split; [reflexivity|]. split; [reflexivity|]. split; [exact Wx|]. split; [exact Wx'|]. right. left. auto.
    + rewrite !add_nan_right by congruence. exists OK, y, y'. split; [reflexivity|]. split; [reflexivity|]. split; [exact Wy|]. split; [exact Wy'|]. right. right. auto.
  - assert (is_signaling F y = false /\ is_signaling F y' = false) as [Sy Sy'].
    { destruct Hy as [[Fy [Fy' Vy]]|[[Iy [Iy' Sy]]|[[Ny Qy] [Ny' Qy']]]]; [| |auto]; split; apply number_quiet; (apply finite_number; assumption) || congruence. }
    rewrite !add_nan_left by assumption. exists OK, x, x'. split; [reflexivity|]. split; [reflexivity|]. split; [exact Wx|]. split; [exact Wx'|]. right. right. auto.
Qed.
Lemma sub_add : forall x y m, is_signaling F x = false -> is_signaling F y = false -> category x = NaN \/ category y = NaN ->
  sub_r F x y m = (if category_eqb (category x) NaN then Ret (OK, x) else Ret (OK, y)).
Proof.
  intros x y m Q Q' H. unfold sub_r. destruct (category x) eqn:C; cbn [category_eqb].
  - destruct H as [H|H]; [discriminate H|]. rewrite H. apply nan_right; congruence.
  - apply nan_left; assumption.
  - destruct H as [H|H]; [discriminate H|]. rewrite H. apply nan_right; congruence.
  - destruct H as [H|H]; [discriminate H|]. rewrite H. apply nan_right; congruence.
Qed.
Lemma sub_is_add : forall x y m, category x <> NaN -> category y <> NaN -> sub_r F x y m = add_r F x (neg y) m.
Proof. intros x y m N N'. unfold sub_r. destruct (category x), (category y); congruence || reflexivity. Qed.
Lemma opp_quiet : forall x x', opp x x' -> is_signaling F x = false /\ is_signaling F x' = false /\ (category x = NaN <-> category x' = NaN).
Proof.
  intros x x' [_ [_ [[H [H' _]]|[[H [H' _]]|[[H Q] [H' Q']]]]]].
  - pose proof (finite_number x H). pose proof (finite_number x' H'). split; [apply number_quiet; assumption|]. split; [apply number_quiet; assumption|]. tauto.
  - split; [apply number_quiet; congruence|]. split; [apply number_quiet; congruence|]. split; congruence.
  - tauto.
Qed.
Lemma sub_opp : forall x x' y y' m, opp x x' -> opp y y' -> opp_out (sub_r F x y m) (sub_r F x' y' (mirrored m)).
Proof.
  intros x x' y y' m Hx Hy. destruct (opp_quiet x x' Hx) as [Qx [Qx' Nx]]. destruct (opp_quiet y y' Hy) as [Qy [Qy' Ny]].
  destruct (category_eqb (category x) NaN) eqn:Cx.
  - assert (category x = NaN) as C by (destruct (category x); discriminate Cx || reflexivity). pose proof (proj1 Nx C) as C'.
    rewrite (sub_add x y m Qx Qy (or_introl C)), (sub_add x' y' (mirrored m) Qx' Qy' (or_introl C')), C, C'. exists OK, x, x'. auto.
  - assert (category x <> NaN) as C by (intro E; rewrite E in Cx; discriminate Cx). assert (category x' <> NaN) as C' by tauto.
    destruct (category_eqb (category y) NaN) eqn:Cy.
    + assert (category y = NaN) as D by (destruct (category y); discriminate Cy || reflexivity). pose proof (proj1 Ny D) as D'.
      rewrite (sub_add x y m Qx Qy (or_intror D)), (sub_add x' y' (mirrored m) Qx' Qy' (or_intror D')), Cx.
      replace (category_eqb (category x') NaN) with false by (destruct (category x'); congruence || reflexivity). exists OK, y, y'. auto.
    + assert (category y <> NaN) as D by (intro E; rewrite E in Cy; discriminate Cy). assert (category y' <> NaN) as D' by tauto.
      rewrite !sub_is_add by assumption. apply add_opp; [exact Hx|apply opp_negs, Hy].
Qed.
(** a product changes its sign with one factor *)
Lemma mul_opp : forall x x' y y' m, wf F x -> wf F x' -> wf F y -> wf F y' -> finite x -> finite x' -> finite y -> finite y' ->
  (value F x' * value F y' = - (value F x * value F y))%R -> opp_out (mul_r F x y m) (mul_r F x' y' (mirrored m)).
Proof.
  intros x x' y y' m Wx Wx' Wy Wy' Fx Fx' Fy Fy' V. eapply opp_delivers; [exact (mul_r_crate F x y m HS Wx Wy Fx Fy)|].
  rewrite <- V. exact (mul_r_crate F x' y' (mirrored m) HS Wx' Wy' Fx' Fy').
Qed.

(** ** Opposite halves are treated alike *)
Lemma opp_is_infinite : forall x x', opp x x' -> is_infinite x' = is_infinite x.
Proof.
  intros x x' [_ [_ [[H [H' _]]|[[H [H' _]]|[[H _] [H' _]]]]]]; unfold is_infinite.
  - destruct H as [-> | ->], H' as [-> | ->]; reflexivity.
  - rewrite H, H'. reflexivity.
  - rewrite H, H'. reflexivity.
Qed.
Lemma opp_is_finite : forall x x', opp x x' -> is_finite x' = is_finite x.
Proof.
  intros x x' H. unfold is_finite. rewrite (opp_is_infinite x x' H). f_equal. f_equal. unfold is_nan.
  destruct (opp_quiet x x' H) as [_ [_ N]]. destruct (category x) eqn:C, (category x') eqn:C'; try reflexivity; exfalso;
    (assert (NaN = NaN) as K by reflexivity; apply N in K; discriminate K).
Qed.
Lemma is_finite_finite : forall x, is_finite x = true -> finite x.
Proof. intros x H. unfold is_finite, is_nan, is_infinite in H. unfold finite. destruct (category x); discriminate H || tauto. Qed.
Lemma opp_category : forall x x', opp x x' -> category x' = category x.
Proof.
  intros x x' H. pose proof H as H'. destruct H' as [W [W' [[A [A' V]]|[[A [A' _]]|[[A _] [A' _]]]]]]; [|congruence|congruence].
  destruct A as [A|A], A' as [A'|A']; try congruence; exfalso.
  - pose proof (normal_nonzero F x W A). unfold value at 1 in V. rewrite A' in V. lra.
  - pose proof (normal_nonzero F x' W' A'). unfold value at 2 in V. rewrite A in V. lra.
Qed.
Lemma opp_normal : forall x x', opp x x' -> category x = Normal -> x' = neg x.
Proof.
  intros x x' H C. pose proof (opp_category x x' H) as C'. rewrite C in C'. destruct H as [W [W' [[_ [_ V]]|[[A _]|[[A _] _]]]]]; [|congruence|congruence].
  assert (sign x' = negb (sign x)) as Sg.
  { rewrite (value_mag F x C), (value_mag F x' C') in V. pose proof (mag_pos F x W C). pose proof (mag_pos F x' W' C').
    unfold sgnr in V. destruct (sign x), (sign x'); try reflexivity; exfalso; lra. }
  assert (bitwise_eq x' (neg x) = true) as B.
  { apply (bitwise_eq_spec F _ _ HS W' (wf_neg F x W)). rewrite category_neg, sign_neg, value_neg. rewrite C, C'. repeat split; congruence. }
  unfold bitwise_eq, is_finite_non_zero, is_finite, is_nan, is_infinite, is_zero in B. rewrite category_neg, C, C' in B. cbn in B.
  destruct (Bool.eqb _ _) eqn:E1; [|discriminate B]. cbn in B. destruct (exp x' =? exp x) eqn:E2; [|discriminate B]. cbn in B.
  apply Z.eqb_eq in E2, B. destruct x as [s e c g], x' as [s' e' c' g']. unfold neg, is_negative. cbn [sig exp category sign] in *. subst. reflexivity.
Qed.

(** ** Sums in the modes that are their own mirror image *)
Definition self_mirrored (m : Round) : Prop := mirrored m = m.
Definition pos_zero (f : Float) : Prop := category f = Zero -> sign f = false.

Lemma add_zero_sign : forall x y m st f, self_mirrored m -> wf F x -> wf F y -> finite x -> finite y ->
  (category x = Zero -> category y = Zero -> sign x = false \/ sign y = false) -> add_r F x y m = Ret (st, f) -> pos_zero f.
Proof.
  intros x y m st f M Wx Wy Fx Fy Z E C. destruct (add_r_spec F x y m HS Wx Wy Fx Fy) as [res [E' D]]. rewrite E in E'. injection E' as <-.
  destruct D as [_ [[_ [_ G]] [A B]]]. assert (value F f = 0)%R as V by (unfold value; rewrite C; reflexivity).
  destruct (Rle_or_lt (Rabs (rounded F m (value F x + value F y))) (max_finite F)) as [L|L].
  - destruct (A L) as [_ [R _]]. rewrite V in R.
    assert (value F x + value F y = 0)%R as S0.
    { pose proof (fexp_valid F HS) as VE. pose proof (valid_rnd_of m) as VR. assert (Monotone_exp (fexp F)) as VM by apply FLT_exp_monotone.
      apply (round_plus_eq_0 r2 (fexp F) (rnd_of m)); [apply value_format; assumption|apply value_format; assumption|symmetry; exact R]. }
    rewrite (G S0). unfold sum_zero_sign. unfold self_mirrored in M.
    destruct (category x), (category y), (Bool.eqb (sign x) (sign y)) eqn:Q; try (destruct m; discriminate M || reflexivity).
    apply eqb_prop in Q. destruct (Z eq_refl eq_refl); congruence.
  - specialize (B L). rewrite HI in B. destruct (crate_to_infinity F m (value F x + value F y) (sign f)); destruct B as [_ B]; [congruence|destruct B; congruence].
Qed.
Lemma add_pos_zero : forall x y m st f, self_mirrored m -> wf F x -> wf F y -> is_signaling F x = false -> is_signaling F y = false ->
  (category x = Zero -> category y = Zero -> sign x = false \/ sign y = false) -> add_r F x y m = Ret (st, f) -> pos_zero f.
Proof.
  intros x y m st f M Wx Wy Qx Qy Z E C. destruct (category_eqb (category x) NaN) eqn:Cx.
  - assert (category x = NaN) as H by (destruct (category x); discriminate Cx || reflexivity).
    rewrite add_nan_left in E by assumption. injection E as _ <-. congruence.
  - assert (category x <> NaN) as Nx by (intro H; rewrite H in Cx; discriminate Cx).
    destruct (category_eqb (category y) NaN) eqn:Cy.
    + assert (category y = NaN) as H by (destruct (category y); discriminate Cy || reflexivity).
      rewrite add_nan_right in E by assumption. injection E as _ <-. congruence.
    + assert (category y <> NaN) as Ny by (intro H; rewrite H in Cy; discriminate Cy).
      destruct (finite_dec x Nx) as [Fx|Ix], (finite_dec y Ny) as [Fy|Iy].
      * exact (add_zero_sign x y m st f M Wx Wy Fx Fy Z E C).
      * rewrite add_inf_right in E by assumption. injection E as _ <-. congruence.
      * rewrite add_inf_left in E by assumption. injection E as _ <-. congruence.
      * rewrite add_inf_inf in E by assumption. destruct (xorb (sign x) (sign y)); injection E as _ <-; [discriminate C|congruence].
Qed.
Lemma opp_out_inv : forall o o', opp_out o o' -> exists st f f', o = Ret (st, f) /\ o' = Ret (st, f') /\ opp f f'.
Proof. intros o o' H. exact H. Qed.

Definition opp_pair_out (o o' : outcome (Z * DFloat)) : Prop :=
  exists st r r', o = Ret (st, r) /\ o' = Ret (st, r') /\ opp (d0 r) (d0 r') /\ opp (d1 r) (d1 r').
Hypothesis HZ : wf F (ZERO F).
Lemma ret_pair : forall st a b a' b', opp a a' -> opp b b' -> opp_pair_out (Ret (st, mkDF a b)) (Ret (st, mkDF a' b')).
Proof. intros st a b a' b' A B. exists st, (mkDF a b), (mkDF a' b'). auto. Qed.
Lemma opp_ZERO : opp (ZERO F) (ZERO F).
Proof. apply opp_zero; (exact HZ || reflexivity). Qed.

Tactic Notation "step" constr(H) ident(st) ident(f) ident(f') ident(E) ident(E') ident(O) :=
  destruct H as [st [f [f' [E [E' O]]]]]; rewrite E, E'; cbn [bind].

Lemma cmp_abs_normal_ret : forall a c, category a = Normal -> category c = Normal -> exists k, cmp_abs_normal a c = Ret k.
Proof.
  intros a c Ca Cc. unfold cmp_abs_normal, is_finite_non_zero, is_finite, is_nan, is_infinite, is_zero. rewrite Ca, Cc. cbn [category_eqb orb negb andb assertb].
  destruct (exp a ?= exp c); eexists; reflexivity.
Qed.
Lemma dd_add_normal_opp : forall x y x' y' m, self_mirrored m -> category (d0 x) = Normal -> category (d0 y) = Normal ->
  opp (d0 x) (d0 x') -> opp (d1 x) (d1 x') -> opp (d0 y) (d0 y') -> opp (d1 y) (d1 y') ->
  opp_pair_out (dd_add_normal F x y m) (dd_add_normal F x' y' m).
Proof.
  intros [a aa] [c cc] [a' aa'] [c' cc'] m M Ca Cc Ha Haa Hc Hcc. cbn [d0 d1] in *.
  pose proof (opp_normal a a' Ha Ca) as Ea. pose proof (opp_normal c c' Hc Cc) as Ec.
  assert (forall p p' q q', opp p p' -> opp q q' -> opp_out (add_r F p q m) (add_r F p' q' m)) as AD.
  { intros p p' q q' P Q. pose proof (add_opp p p' q q' m P Q) as H. rewrite M in H. exact H. }
  assert (forall p p' q q', opp p p' -> opp q q' -> opp_out (sub_r F p q m) (sub_r F p' q' m)) as SU.
  { intros p p' q q' P Q. pose proof (sub_opp p p' q q' m P Q) as H. rewrite M in H. exact H. }
  unfold dd_add_normal. cbn [d0 d1].
  step (AD a a' c c' Ha Hc) st z z' E1 E1' Oz.
  rewrite (opp_is_finite z z' Oz), (opp_is_infinite z z' Oz). destruct (negb (is_finite z)).
  - destruct (negb (is_infinite z)); [apply ret_pair; [exact Oz|exact opp_ZERO]|].
    replace (cmp_abs_normal a' c') with (cmp_abs_normal a c) by (subst; reflexivity).
    destruct (cmp_abs_normal a c) as [k| |] eqn:K.
    2, 3: exfalso; destruct (cmp_abs_normal_ret a c Ca Cc) as [k K']; congruence.
    cbn [bind]. step (AD cc cc' aa aa' Hcc Haa) st2 z2 z2' E2 E2' O2.
    assert (opp_out
      (match k with
       | Gt => let! '(st1, z) := add_r F z2 c m in let! '(st3, z) := add_r F z a m in Ret (Z.lor (Z.lor (Z.lor OK st2) st1) st3, z)
       | _ => let! '(st1, z) := add_r F z2 a m in let! '(st3, z) := add_r F z c m in Ret (Z.lor (Z.lor (Z.lor OK st2) st1) st3, z)
       end)
      (match k with
       | Gt => let! '(st1, z) := add_r F z2' c' m in let! '(st3, z) := add_r F z a' m in Ret (Z.lor (Z.lor (Z.lor OK st2) st1) st3, z)
       | _ => let! '(st1, z) := add_r F z2' a' m in let! '(st3, z) := add_r F z c' m in Ret (Z.lor (Z.lor (Z.lor OK st2) st1) st3, z)
       end)) as B.
    { destruct k.
      - step (AD z2 z2' a a' O2 Ha) st3 z3 z3' E3 E3' O3. step (AD z3 z3' c c' O3 Hc) st4 z4 z4' E4 E4' O4. repeat eexists; apply O4.
      - step (AD z2 z2' a a' O2 Ha) st3 z3 z3' E3 E3' O3. step (AD z3 z3' c c' O3 Hc) st4 z4 z4' E4 E4' O4. repeat eexists; apply O4.
      - step (AD z2 z2' c c' O2 Hc) st3 z3 z3' E3 E3' O3. step (AD z3 z3' a a' O3 Ha) st4 z4 z4' E4 E4' O4. repeat eexists; apply O4. }
    step B st5 z5 z5' E5 E5' O5. rewrite (opp_is_finite z5 z5' O5).
    destruct (negb (is_finite z5)); [apply ret_pair; [exact O5|exact opp_ZERO]|].
    step (AD aa aa' cc cc' Haa Hcc) st6 zz zz' E6 E6' Ozz.
    destruct k.
    + step (SU c c' z5 z5' Hc O5) st7 r r' E7 E7' O7. step (AD r r' a a' O7 Ha) st8 s s' E8 E8' O8. step (AD s s' zz zz' O8 Ozz) st9 t t' E9 E9' O9. apply ret_pair; assumption.
    + step (SU c c' z5 z5' Hc O5) st7 r r' E7 E7' O7. step (AD r r' a a' O7 Ha) st8 s s' E8 E8' O8. step (AD s s' zz zz' O8 Ozz) st9 t t' E9 E9' O9. apply ret_pair; assumption.
    + step (SU a a' z5 z5' Ha O5) st7 r r' E7 E7' O7. step (AD r r' c c' O7 Hc) st8 s s' E8 E8' O8. step (AD s s' zz zz' O8 Ozz) st9 t t' E9 E9' O9. apply ret_pair; assumption.
  - step (SU a a' z z' Ha Oz) st2 q q' E2 E2' Oq.
    step (AD q q' c c' Oq Hc) st3 w w' E3 E3' Ow.
    step (AD q q' z z' Oq Oz) st4 q2 q2' E4 E4' Oq2.
    step (SU q2 q2' a a' Oq2 Ha) st5 q3 q3' E5 E5' Oq3.
    pose proof (opp_negs q3 q3' Oq3) as On.
    step (AD w w' (neg q3) (neg q3') Ow On) st6 w2 w2' E6 E6' Ow2.
    step (AD w2 w2' aa aa' Ow2 Haa) st7 w3 w3' E7 E7' Ow3.
    step (AD w3 w3' cc cc' Ow3 Hcc) st8 w4 w4' E8 E8' Ow4.
    assert (forall f f' g g' st h h', opp f f' -> opp g g' -> opp h h' -> add_r F f g m = Ret (st, h) -> add_r F f' g' m = Ret (st, h') ->
      (category f = Zero -> category g = Zero -> (sign f = false \/ sign g = false) /\ (sign f' = false \/ sign g' = false)) -> pos_zero h /\ pos_zero h') as PZ.
    { intros f f' g g' s h h' Of Og Oh A A' Z. destruct (opp_quiet f f' Of) as [Q1 [Q1' _]]. destruct (opp_quiet g g' Og) as [Q2 [Q2' _]].
      pose proof (opp_category f f' Of) as C1. pose proof (opp_category g g' Og) as C2. destruct Of as [Wf [Wf' _]]. destruct Og as [Wg [Wg' _]]. split.
      - apply (add_pos_zero f g m s h); try assumption. intros Z1 Z2. exact (proj1 (Z Z1 Z2)).
      - apply (add_pos_zero f' g' m s h'); try assumption. intros Z1 Z2. rewrite C1 in Z1. rewrite C2 in Z2. exact (proj2 (Z Z1 Z2)). }
    assert (pos_zero w /\ pos_zero w') as P1 by (apply (PZ q q' c c' st3 w w'); try assumption; intros _ K; congruence).
    assert (forall f f' g g' st h h', opp f f' -> opp g g' -> opp h h' -> add_r F f g m = Ret (st, h) -> add_r F f' g' m = Ret (st, h') ->
      pos_zero f /\ pos_zero f' -> pos_zero h /\ pos_zero h') as PK.
    { intros f f' g g' s h h' Of Og Oh A A' [P P']. apply (PZ f f' g g' s h h'); try assumption. intros Z1 _. split; left; [apply P, Z1|apply P'; rewrite (opp_category f f' Of); exact Z1]. }
    pose proof (PK w w' (neg q3) (neg q3') st6 w2 w2' Ow On Ow2 E6 E6' P1) as P2.
    pose proof (PK w2 w2' aa aa' st7 w3 w3' Ow2 Haa Ow3 E7 E7' P2) as P3.
    pose proof (PK w3 w3' cc cc' st8 w4 w4' Ow3 Hcc Ow4 E8 E8' P3) as [P4 P4'].
    assert (is_zero w4' && negb (is_negative w4') = is_zero w4 && negb (is_negative w4)) as ->.
    { unfold is_zero, is_negative. unfold pos_zero in *. rewrite (opp_category w4 w4' Ow4) in *. destruct (category w4); try reflexivity. rewrite P4, P4' by reflexivity. reflexivity. }
    destruct (is_zero w4 && negb (is_negative w4)); [apply ret_pair; [exact Oz|exact opp_ZERO]|].
    step (AD z z' w4 w4' Oz Ow4) st9 r r' E9 E9' Or. rewrite (opp_is_finite r r' Or).
    destruct (negb (is_finite r)); [apply ret_pair; [exact Or|exact opp_ZERO]|].
    step (SU z z' r r' Oz Or) st10 t t' E10 E10' Ot. step (AD t t' w4 w4' Ot Ow4) st11 v v' E11 E11' Ov. apply ret_pair; assumption.
Qed.

(** ** Products *)
Lemma fma_opp : forall x y z m, wf F x -> wf F y -> wf F z -> finite x -> finite y -> finite z ->
  mul_add_r F x y z m = Panic /\ mul_add_r F (neg x) y (neg z) (mirrored m) = Panic \/
  opp_out (mul_add_r F x y z m) (mul_add_r F (neg x) y (neg z) (mirrored m)).
Proof.
  intros x y z m Wx Wy Wz Fx Fy Fz.
  destruct (Classical_Prop.classic (product_cut F x y z)) as [P|P].
  - assert (product_cut F (neg x) y (neg z)) as P' by (apply product_cut_neg; exact P).
    destruct (mul_add_r_cut F HS x y z m Wx Wy Wz Fx Fy Fz P) as [A B].
    destruct (mul_add_r_cut F HS (neg x) y (neg z) (mirrored m) (wf_neg F x Wx) Wy (wf_neg F z Wz) (finite_neg x Fx) Fy (finite_neg z Fz) P') as [A' B'].
    rewrite product_abs_neg, (value_neg F z), Rabs_Ropp in A', B'.
    destruct (Req_dec (cut_down F (Rabs (value F x * value F y))) (Rabs (value F z))) as [Q|Q].
    + left. exact (conj (A Q) (A' Q)).
    + right. destruct (B Q false) as [_ R]. destruct (B' Q true) as [_ R']. rewrite fma_seen_neg in R'. exact (opp_delivers m _ false true _ _ R R').
  - assert (~ product_cut F (neg x) y (neg z)) as P' by (intro H; apply P; apply product_cut_neg in H; destruct x, z; unfold neg in H; cbn in H; rewrite !Bool.negb_involutive in H; exact H).
    right. eapply opp_delivers; [exact (mul_add_r_uncut F HS x y z m Wx Wy Wz Fx Fy Fz P)|].
    replace (- (value F x * value F y + value F z))%R with (value F (neg x) * value F y + value F (neg z))%R by (rewrite !value_neg; ring).
    exact (mul_add_r_uncut F HS (neg x) y (neg z) (mirrored m) (wf_neg F x Wx) Wy (wf_neg F z Wz) (finite_neg x Fx) Fy (finite_neg z Fz) P').
Qed.
Lemma dd_mul_normal_opp : forall x y x' m, pair_wf F x -> pair_wf F y -> category (d0 x) = Normal -> category (d0 y) = Normal -> finite (d1 x) -> finite (d1 y) ->
  d0 x' = neg (d0 x) -> opp (d1 x) (d1 x') ->
  dd_mul_normal F x y m = Panic /\ dd_mul_normal F x' y (mirrored m) = Panic \/
  opp_pair_out (dd_mul_normal F x y m) (dd_mul_normal F x' y (mirrored m)).
Proof.
  intros [a b] [c d] [a' b'] m [Wa Wb] [Wc Wd] Ca Cc Fb Fd Ea Hb. cbn [d0 d1] in *. subst a'.
  assert (finite a) as Fa by (left; exact Ca). assert (finite c) as Fc by (left; exact Cc).
  pose proof (opp_category b b' Hb) as Cb. assert (finite b') as Fb' by (unfold finite in *; rewrite Cb; exact Fb).
  pose proof Hb as Hb'. destruct Hb' as [_ [Wb' [[_ [_ Vb]]|[[K _]|[[K _] _]]]]]; [|destruct Fb; congruence|destruct Fb; congruence].
  unfold dd_mul_normal. cbn [d0 d1].
  assert (forall p p' q q', opp p p' -> opp q q' -> opp_out (add_r F p q m) (add_r F p' q' (mirrored m))) as AD by (intros; apply add_opp; assumption).
  step (mul_opp a (neg a) c c m Wa (wf_neg F a Wa) Wc Wc Fa (finite_neg a Fa) Fc Fc ltac:(rewrite value_neg; ring)) st t t' E1 E1' Ot.
  assert (is_finite_non_zero t' = is_finite_non_zero t) as -> by (rewrite !is_finite_non_zero_spec, (opp_category t t' Ot); reflexivity).
  destruct (negb (is_finite_non_zero t)) eqn:N; [right; apply ret_pair; [exact Ot|exact opp_ZERO]|].
  assert (category t = Normal) as Ct by (rewrite is_finite_non_zero_spec in N; destruct (category t); discriminate N || reflexivity).
  pose proof (opp_normal t t' Ot Ct) as Et. pose proof (proj1 Ot) as Wt. subst t'.
  destruct (fma_opp a c (neg t) m Wa Wc (wf_neg F t Wt) Fa Fc (finite_neg t (or_introl Ct))) as [[P P']|O].
  - left. rewrite P, P'. split; reflexivity.
  - right. step O st2 tau tau' E2 E2' Otau.
    step (mul_opp a (neg a) d d m Wa (wf_neg F a Wa) Wd Wd Fa (finite_neg a Fa) Fd Fd ltac:(rewrite value_neg; ring)) st3 v v' E3 E3' Ov.
    step (mul_opp b b' c c m Wb Wb' Wc Wc Fb Fb' Fc Fc ltac:(rewrite Vb; ring)) st4 w w' E4 E4' Ow.
    step (AD v v' w w' Ov Ow) st5 v2 v2' E5 E5' Ov2. step (AD tau tau' v2 v2' Otau Ov2) st6 tau2 tau2' E6 E6' Otau2.
    step (AD t (neg t) tau2 tau2' Ot Otau2) st7 u u' E7 E7' Ou. rewrite (opp_is_finite u u' Ou).
    destruct (negb (is_finite u)); [apply ret_pair; [exact Ou|exact opp_ZERO]|].
    step (sub_opp t (neg t) u u' m Ot Ou) st8 t2 t2' E8 E8' Ot2. step (AD t2 t2' tau2 tau2' Ot2 Otau2) st9 t3 t3' E9 E9' Ot3. apply ret_pair; assumption.
Qed.

(** ** Negated pairs *)
Lemma opp_low : forall b, wf F b -> finite b -> opp b (if is_finite_non_zero b then neg b else b).
Proof.
  intros b W Fb. rewrite is_finite_non_zero_spec. destruct Fb as [C|C]; rewrite C; cbn [category_eqb].
  - apply opp_neg; [exact W|left; exact C].
  - apply opp_zero; assumption.
Qed.
Lemma dd_neg_d0 : forall x, d0 (dd_neg x) = neg (d0 x).
Proof. intro x. unfold dd_neg. destruct (is_finite_non_zero (d1 x)); reflexivity. Qed.
Lemma dd_neg_d1 : forall x, d1 (dd_neg x) = if is_finite_non_zero (d1 x) then neg (d1 x) else d1 x.
Proof. intro x. unfold dd_neg. destruct (is_finite_non_zero (d1 x)); reflexivity. Qed.
Lemma opposite_neg : forall x, wf F (d1 x) -> finite (d1 x) -> opposite_half F (d0 x) (d0 (dd_neg x)) /\ opposite_half F (d1 x) (d1 (dd_neg x)).
Proof.
  intros x W1 F1. rewrite dd_neg_d0, dd_neg_d1. split; [|apply opp_half, opp_low; assumption].
  unfold opposite_half. rewrite category_neg, sign_neg, value_neg. destruct (category (d0 x)) eqn:C; unfold finite; rewrite ?category_neg, ?C; tauto.
Qed.
Lemma opposite_special : forall st x, wf F (d1 x) -> finite (d1 x) -> opposite_result F (Ret (st, x)) (Ret (st, dd_neg x)).
Proof. intros st x W1 F1. exists st, x, (dd_neg x). split; [reflexivity|]. split; [reflexivity|]. apply opposite_neg; assumption. Qed.
Lemma opposite_opp : forall o o', opp_pair_out o o' -> opposite_result F o o'.
Proof. intros o o' [st [r [r' [E [E' [A B]]]]]]. exists st, r, r'. split; [exact E|]. split; [exact E'|]. split; apply opp_half; assumption. Qed.

Theorem dd_add_neg : forall x y m, m <> TowardPositive -> m <> TowardNegative -> pair_wf F x -> pair_wf F y -> finite (d1 x) -> finite (d1 y) ->
  opposite_result F (dd_add_r F x y m) (dd_add_r F (dd_neg x) (dd_neg y) m).
Proof.
  intros x y m M1 M2 [Wx Wx1] [Wy Wy1] Fx Fy. unfold dd_add_r, dd_category, dd_is_negative, is_negative. rewrite !dd_neg_d0, !category_neg, !sign_neg.
  destruct (category (d0 x)) eqn:Cx, (category (d0 y)) eqn:Cy; try (apply opposite_special; assumption).
  - replace (xorb (negb (sign (d0 x))) (negb (sign (d0 y)))) with (xorb (sign (d0 x)) (sign (d0 y))) by (destruct (sign (d0 x)), (sign (d0 y)); reflexivity).
    destruct (xorb (sign (d0 x)) (sign (d0 y))); [|apply opposite_special; assumption].
    do 3 eexists. split; [reflexivity|]. split; [reflexivity|]. unfold dd_copy_sign. split.
    + right. right. destruct (xorb _ _), (xorb _ _); rewrite ?dd_neg_d0; split; reflexivity.
    + left. destruct (xorb _ _), (xorb _ _); rewrite ?dd_neg_d1; cbn; unfold finite, value; cbn; (split; [right; reflexivity|]); (split; [right; reflexivity|]); ring.
  - apply opposite_opp, dd_add_normal_opp; try assumption.
    + destruct m; congruence || reflexivity.
    + rewrite dd_neg_d0. apply opp_neg; [assumption|left; assumption].
    + rewrite dd_neg_d1. apply opp_low; assumption.
    + rewrite dd_neg_d0. apply opp_neg; [assumption|left; assumption].
    + rewrite dd_neg_d1. apply opp_low; assumption.
Qed.
Theorem dd_mul_neg : forall x y m, pair_wf F x -> pair_wf F y -> finite (d1 x) -> finite (d1 y) -> category (d0 x) = Normal -> category (d0 y) = Normal ->
  dd_mul_r F x y m = Panic /\ dd_mul_r F (dd_neg x) y (mirrored m) = Panic \/
  opposite_result F (dd_mul_r F x y m) (dd_mul_r F (dd_neg x) y (mirrored m)).
Proof.
  intros x y m Wx Wy Fx Fy Cx Cy. unfold dd_mul_r, dd_category. rewrite dd_neg_d0, category_neg, Cx, Cy.
  destruct (dd_mul_normal_opp x y (dd_neg x) m Wx Wy Cx Cy Fx Fy (dd_neg_d0 x)) as [H|H].
  - rewrite dd_neg_d1. apply opp_low; [exact (proj2 Wx)|exact Fx].
  - left. exact H.
  - right. apply opposite_opp, H.
Qed.

(** ** The order of the factors *)
Definition same (f f' : Float) : Prop :=
  wf F f /\ wf F f' /\ is_signaling F f = false /\ is_signaling F f' = false /\ bitwise_eq f f' = true.
Definition same_out (o o' : outcome (Z * Float)) : Prop :=
  exists st f f', o = Ret (st, f) /\ o' = Ret (st, f') /\ same f f'.
Lemma same_facts : forall f f', same f f' -> category f' = category f /\ sign f' = sign f /\ (finite f -> value F f' = value F f).
Proof.
  intros f f' [W [W' [_ [_ B]]]]. apply (bitwise_eq_spec F f f' HS W W') in B. destruct B as [C [Sg [_ V]]].
  split; [congruence|]. split; [congruence|]. intros [N|N]; [symmetry; apply V; exact N|]. unfold value. rewrite <- C, N. reflexivity.
Qed.
Lemma same_normal : forall f f', same f f' -> category f = Normal -> f' = f.
Proof.
  intros [s e c g] [s' e' c' g'] H N. pose proof (same_facts _ _ H) as [C [G _]]. destruct H as [_ [_ [_ [_ B]]]]. cbn [category sign] in *. subst c c' g'.
  unfold bitwise_eq, is_finite_non_zero, is_finite, is_nan, is_infinite, is_zero, is_negative in B. cbn [category sign sig exp category_eqb negb orb andb] in B.
  rewrite Bool.eqb_reflx in B. cbn [negb orb] in B. destruct (e =? e') eqn:Ee; [|discriminate B]. apply Z.eqb_eq in Ee, B. subst. reflexivity.
Qed.
Lemma same_refl : forall f, wf F f -> is_signaling F f = false -> same f f.
Proof. intros f W Q. split; [exact W|]. split; [exact W|]. split; [exact Q|]. split; [exact Q|]. apply bitwise_eq_refl. Qed.
Lemma same_negs : forall f f', same f f' -> same (neg f) (neg f').
Proof.
  intros f f' [W [W' [Q [Q' B]]]]. split; [apply wf_neg, W|]. split; [apply wf_neg, W'|]. split; [exact Q|]. split; [exact Q'|]. rewrite bitwise_eq_neg. exact B.
Qed.
Lemma same_delivers : forall m v zs o o',
  (exists res, o = Ret res /\ crate_rounded F m v zs res) -> (exists res, o' = Ret res /\ crate_rounded F m v zs res) -> same_out o o'.
Proof.
  intros m v zs o o' [[st f] [E D]] [[st' f'] [E' D']]. destruct (delivers_unique _ _ _ _ _ _ _ _ _ HS D D') as [-> B].
  exists st', f, f'. split; [exact E|]. split; [exact E'|]. split; [exact (proj1 D)|]. split; [exact (proj1 D')|].
  assert (forall st f, crate_rounded F m v zs (st, f) -> is_signaling F f = false) as Q.
  { intros s g R. apply number_quiet. destruct (rounded_category m v zs s g R) as [K|K]; [apply finite_number, K|congruence]. }
  split; [exact (Q _ _ D)|]. split; [exact (Q _ _ D')|exact B].
Qed.
Lemma category_cases : forall x, finite x \/ category x = Infinity \/ category x = NaN.
Proof. intro x. unfold finite. destruct (category x); tauto. Qed.
Lemma add_same : forall x x' y y' m, same x x' -> same y y' -> same_out (add_r F x y m) (add_r F x' y' m).
Proof.
  intros x x' y y' m Hx Hy. destruct (same_facts x x' Hx) as [Cx [Sx Vx]]. destruct (same_facts y y' Hy) as [Cy [Sy Vy]].
  pose proof Hx as [Wx [Wx' [Qx [Qx' _]]]]. pose proof Hy as [Wy [Wy' [Qy [Qy' _]]]].
  destruct (category_cases x) as [Fx|[Ix|Nx]].
  - assert (finite x') as Fx' by (unfold finite in *; rewrite Cx; exact Fx).
    destruct (category_cases y) as [Fy|[Iy|Ny]].
    + assert (finite y') as Fy' by (unfold finite in *; rewrite Cy; exact Fy).
      eapply same_delivers; [exact (add_r_spec F x y m HS Wx Wy Fx Fy)|].
      pose proof (add_r_spec F x' y' m HS Wx' Wy' Fx' Fy') as K. rewrite (Vx Fx), (Vy Fy) in K. unfold sum_zero_sign in K |- *. rewrite Cx, Cy, Sx, Sy in K. exact K.
    + rewrite !add_inf_right by congruence || assumption. exists OK, y, y'. auto.
    + rewrite !add_nan_right by (congruence || apply finite_number; assumption). exists OK, y, y'. auto.
  - destruct (category_cases y) as [Fy|[Iy|Ny]].
    + assert (finite y') as Fy' by (unfold finite in *; rewrite Cy; exact Fy).
      rewrite !add_inf_left by congruence || assumption. exists OK, x, x'. auto.
    + rewrite !add_inf_inf by congruence. rewrite Sx, Sy. destruct (xorb (sign x) (sign y)).
      * exists INVALID_OP, (NAN F), (NAN F). split; [reflexivity|]. split; [reflexivity|]. apply same_refl; apply HN.
      * exists OK, x, x'. auto.
    + rewrite !add_nan_right by congruence. exists OK, y, y'. auto.
  - rewrite !add_nan_left by congruence. exists OK, x, x'. auto.
Qed.
Lemma sub_same : forall x x' y y' m, same x x' -> same y y' -> same_out (sub_r F x y m) (sub_r F x' y' m).
Proof.
  intros x x' y y' m Hx Hy. destruct (same_facts x x' Hx) as [Cx _]. destruct (same_facts y y' Hy) as [Cy _].
  pose proof Hx as [_ [_ [Qx [Qx' _]]]]. pose proof Hy as [_ [_ [Qy [Qy' _]]]].
  destruct (category_eqb (category x) NaN) eqn:Ex.
  - assert (category x = NaN) as C by (destruct (category x); discriminate Ex || reflexivity).
    rewrite !sub_add by (assumption || left; congruence). rewrite Cx, C. exists OK, x, x'. auto.
  - assert (category x <> NaN) as C by (intro E; rewrite E in Ex; discriminate Ex).
    destruct (category_eqb (category y) NaN) eqn:Ey.
    + assert (category y = NaN) as D by (destruct (category y); discriminate Ey || reflexivity).
      rewrite !sub_add by (assumption || right; congruence). rewrite Cx, Ex. exists OK, y, y'. auto.
    + assert (category y <> NaN) as D by (intro E; rewrite E in Ey; discriminate Ey).
      rewrite !sub_is_add by congruence. apply add_same; [exact Hx|apply same_negs, Hy].
Qed.
Lemma mul_swap : forall x y m, wf F x -> wf F y -> finite x -> finite y -> same_out (mul_r F x y m) (mul_r F y x m).
Proof.
  intros x y m Wx Wy Fx Fy. eapply same_delivers; [exact (mul_r_crate F x y m HS Wx Wy Fx Fy)|].
  pose proof (mul_r_crate F y x m HS Wy Wx Fy Fx) as K. rewrite Rmult_comm, xorb_comm in K. exact K.
Qed.
Lemma add_swap : forall x y m, same x x -> same y y -> category x <> NaN -> category y <> NaN -> same_out (add_r F x y m) (add_r F y x m).
Proof.
  intros x y m Hx Hy Nx Ny. destruct (add_r_comm F x y m HS (proj1 Hx) (proj1 Hy) Nx Ny) as [st [f [f' [E [E' B]]]]].
  destruct (add_same x x y y m Hx Hy) as [s [g [g' [G [G' K]]]]]. destruct (add_same y y x x m Hy Hx) as [t [h [h' [L [L' K']]]]].
  exists st, f, f'. split; [exact E|]. split; [exact E'|].
  rewrite E in G. injection G as <- <-. rewrite E' in L. injection L as <- <-.
  destruct K as [W [_ [Q _]]]. destruct K' as [W' [_ [Q' _]]]. unfold same. auto.
Qed.
Lemma same_self : forall f f', same f f' -> same f f /\ same f' f'.
Proof. intros f f' [W [W' [Q [Q' _]]]]. split; apply same_refl; assumption. Qed.
Lemma same_trans : forall f g h, same f g -> same g h -> same f h.
Proof.
  intros f g h [W [W' [Q [Q' B]]]] [_ [W'' [_ [Q'' B']]]]. split; [exact W|]. split; [exact W''|]. split; [exact Q|]. split; [exact Q''|].
  apply (bitwise_eq_spec F f h HS W W''). apply (bitwise_eq_spec F f g HS W W') in B. apply (bitwise_eq_spec F g h HS W' W'') in B'.
  destruct B as [C [Sg [N V]]], B' as [C' [Sg' [N' V']]]. split; [congruence|]. split; [congruence|].
  split; intro H; [rewrite (N H); apply N'; congruence|rewrite (V H); apply V'; congruence].
Qed.
Lemma add_swap_same : forall x x' y y' m, same x x' -> same y y' -> category x <> NaN -> category y <> NaN -> same_out (add_r F x y m) (add_r F y' x' m).
Proof.
  intros x x' y y' m Hx Hy Nx Ny. destruct (same_self x x' Hx) as [_ Kx]. destruct (same_self y y' Hy) as [_ Ky].
  pose proof (proj1 (same_facts x x' Hx)) as Cx. pose proof (proj1 (same_facts y y' Hy)) as Cy.
  destruct (add_same x x' y y' m Hx Hy) as [st [f [f' [E [E' H]]]]].
  destruct (add_swap x' y' m Kx Ky ltac:(congruence) ltac:(congruence)) as [st' [g [g' [G [G' H']]]]].
  rewrite E' in G. injection G as <- <-. exists st, f, g'. split; [exact E|]. split; [exact G'|]. exact (same_trans _ _ _ H H').
Qed.
Lemma mul_number : forall x y m st f, wf F x -> wf F y -> finite x -> finite y -> mul_r F x y m = Ret (st, f) -> category f <> NaN.
Proof.
  intros x y m st f Wx Wy Fx Fy E. destruct (mul_r_crate F x y m HS Wx Wy Fx Fy) as [[st' f'] [E' D]]. rewrite E in E'. injection E' as <- <-.
  destruct (rounded_category _ _ _ _ _ D) as [K|K]; [apply finite_number, K|congruence].
Qed.
Lemma ret_same : forall st a b a' b', same a a' -> same b b' -> same_pair (Ret (st, mkDF a b)) (Ret (st, mkDF a' b')).
Proof. intros st a b a' b' [_ [_ [_ [_ A]]]] [_ [_ [_ [_ B]]]]. exists st, (mkDF a b), (mkDF a' b'). auto. Qed.

Theorem dd_mul_comm : forall x y m, pair_wf F x -> pair_wf F y -> category (d0 x) = Normal -> category (d0 y) = Normal -> finite (d1 x) -> finite (d1 y) ->
  dd_mul_r F x y m = Panic /\ dd_mul_r F y x m = Panic \/ same_pair (dd_mul_r F x y m) (dd_mul_r F y x m).
Proof.
  intros [a b] [c d] m [Wa Wb] [Wc Wd] Ca Cc Fb Fd. cbn [d0 d1] in *. unfold dd_mul_r, dd_category. cbn [d0]. rewrite Ca, Cc. unfold dd_mul_normal. cbn [d0 d1].
  assert (finite a) as Fa by (left; exact Ca). assert (finite c) as Fc by (left; exact Cc).
  assert (same (ZERO F) (ZERO F)) as SZ by (apply same_refl; [exact HZ|reflexivity]).
  step (mul_swap a c m Wa Wc Fa Fc) st t t' E1 E1' Ot.
  assert (is_finite_non_zero t' = is_finite_non_zero t) as -> by (rewrite !is_finite_non_zero_spec, (proj1 (same_facts t t' Ot)); reflexivity).
  destruct (negb (is_finite_non_zero t)) eqn:N; [right; apply ret_same; assumption|].
  assert (category t = Normal) as Ct by (rewrite is_finite_non_zero_spec in N; destruct (category t); discriminate N || reflexivity).
  pose proof (same_normal t t' Ot Ct) as Et. subst t'. pose proof (proj1 Ot) as Wt.
  rewrite (mul_add_r_comm F c a (neg t) m HS Wc Wa ltac:(intros [K _]; congruence)).
  destruct (fma_opp a c (neg t) m Wa Wc (wf_neg F t Wt) Fa Fc (finite_neg t (or_introl Ct))) as [[P _]|[st2 [tau [? [E2 [_ Otau]]]]]].
  - left. rewrite P. split; reflexivity.
  - right. rewrite E2. cbn [bind].
    assert (same tau tau) as St by (apply same_refl; [exact (proj1 Otau)|exact (proj1 (opp_quiet _ _ Otau))]).
    destruct (mul_swap a d m Wa Wd Fa Fd) as [st3 [v [v' [E3 [E3' Ov]]]]]. destruct (mul_swap b c m Wb Wc Fb Fc) as [st4 [w [w' [E4 [E4' Ow]]]]].
    rewrite E3, E4'. cbn [bind]. rewrite E4, E3'. cbn [bind].
    step (add_swap_same v v' w w' m Ov Ow (mul_number a d m st3 v Wa Wd Fa Fd E3) (mul_number b c m st4 w Wb Wc Fb Fc E4)) st5 v2 v2' E5 E5' Ov2.
    replace (Z.lor (Z.lor (Z.lor st st2) st4) st3) with (Z.lor (Z.lor (Z.lor st st2) st3) st4) by (rewrite <- !Z.lor_assoc, (Z.lor_comm st3 st4); reflexivity).
    step (add_same tau tau v2 v2' m St Ov2) st6 tau2 tau2' E6 E6' Otau2. step (add_same t t tau2 tau2' m Ot Otau2) st7 u u' E7 E7' Ou.
    assert (is_finite u' = is_finite u) as -> by (unfold is_finite, is_nan, is_infinite; rewrite (proj1 (same_facts u u' Ou)); reflexivity).
    destruct (negb (is_finite u)); [apply ret_same; assumption|].
    step (sub_same t t u u' m Ot Ou) st8 t2 t2' E8 E8' Ot2. step (add_same t2 t2' tau2 tau2' m Ot2 Otau2) st9 t3 t3' E9 E9' Ot3. apply ret_same; assumption.
Qed.

(** ** Exact steps *)
Lemma exact_step : forall m v zs o, (exists res, o = Ret res /\ crate_rounded F m v zs res) -> representable F v ->
  exists f, o = Ret (OK, f) /\ wf F f /\ finite f /\ value F f = v.
Proof.
  intros m v zs o [[st f] [E D]] R. destruct (delivers_representable _ _ _ _ _ _ _ HS D R) as [-> [A B]]. exists f. split; [exact E|]. split; [exact (proj1 D)|]. auto.
Qed.
Lemma add_exact : forall x y m v, wf F x -> wf F y -> finite x -> finite y -> representable F v -> (value F x + value F y = v)%R ->
  exists f, add_r F x y m = Ret (OK, f) /\ wf F f /\ finite f /\ value F f = v.
Proof. intros x y m v Wx Wy Fx Fy R <-. eapply exact_step; [exact (add_r_spec F x y m HS Wx Wy Fx Fy)|exact R]. Qed.
Lemma sub_exact : forall x y m v, wf F x -> wf F y -> finite x -> finite y -> representable F v -> (value F x - value F y = v)%R ->
  exists f, sub_r F x y m = Ret (OK, f) /\ wf F f /\ finite f /\ value F f = v.
Proof.
  intros x y m v Wx Wy Fx Fy R V. rewrite sub_is_add by (apply finite_number; assumption). 
  apply (add_exact x (neg y) m v Wx (wf_neg F y Wy) Fx (finite_neg y Fy) R). rewrite value_neg. lra.
Qed.
Tactic Notation "exactly" constr(H) ident(f) ident(E) ident(W) ident(K) ident(V) :=
  destruct H as [f [E [W [K V]]]]; rewrite E; cbn [bind].

Theorem dd_sub_self : forall x m, pair_wf F x -> category (d0 x) = Normal -> finite (d1 x) ->
  exists r, dd_sub_r F x x m = Ret (OK, r) /\ category (d0 r) = Zero /\ category (d1 r) = Zero.
Proof.
  intros [a b] m [Wa Wb] Ca Fb. cbn [d0 d1] in *. assert (finite a) as Fa by (left; exact Ca).
  unfold dd_sub_r. assert (exists b', dd_neg (mkDF a b) = mkDF (neg a) b' /\ wf F b' /\ finite b' /\ value F b' = (- value F b)%R) as [b' [-> [Wb' [Fb' Vb]]]].
  { unfold dd_neg. cbn [d0 d1]. rewrite is_finite_non_zero_spec. destruct Fb as [K|K]; rewrite K; cbn [category_eqb].
    - exists (neg b). split; [reflexivity|]. split; [apply wf_neg, Wb|]. split; [apply finite_neg; left; exact K|apply value_neg].
    - exists b. split; [reflexivity|]. split; [exact Wb|]. split; [right; exact K|]. unfold value. rewrite K. ring. }
  pose proof (representable_value F a HS Wa) as Ra. pose proof (representable_value F b HS Wb) as Rb. pose proof zero_representable as R0.
  unfold dd_add_r, dd_category. cbn [d0]. rewrite category_neg, Ca. unfold dd_add_normal. cbn [d0 d1].
  pose proof (wf_neg F a Wa) as Wc. pose proof (finite_neg a Fa) as Fc. pose proof (value_neg F a) as Vc.
  exactly (add_exact a (neg a) m 0 Wa Wc Fa Fc R0 ltac:(lra)) z E1 W1 F1 V1.
  assert (forall f, finite f -> is_finite f = true) as IF by (intros f [K|K]; unfold is_finite, is_nan, is_infinite; rewrite K; reflexivity).
  rewrite (IF z F1). cbn [negb].
  exactly (sub_exact a z m (value F a) Wa W1 Fa F1 Ra ltac:(lra)) q E2 W2 F2 V2.
  exactly (add_exact q (neg a) m 0 W2 Wc F2 Fc R0 ltac:(lra)) zz E3 W3 F3 V3.
  exactly (add_exact q z m (value F a) W2 W1 F2 F1 Ra ltac:(lra)) q2 E4 W4 F4 V4.
  exactly (sub_exact q2 a m 0 W4 Wa F4 Fa R0 ltac:(lra)) q3 E5 W5 F5 V5.
  exactly (add_exact zz (neg q3) m 0 W3 (wf_neg F q3 W5) F3 (finite_neg q3 F5) R0 ltac:(rewrite value_neg; lra)) zz2 E6 W6 F6 V6.
  exactly (add_exact zz2 b m (value F b) W6 Wb F6 Fb Rb ltac:(lra)) zz3 E7 W7 F7 V7.
  exactly (add_exact zz3 b' m 0 W7 Wb' F7 Fb' R0 ltac:(lra)) zz4 E8 W8 F8 V8.
  pose proof (finite_value_zero F z W1 F1 V1) as Zz.
  destruct (is_zero zz4 && negb (is_negative zz4)).
  - exists (mkDF z (ZERO F)). split; [reflexivity|]. split; [exact Zz|reflexivity].
  - exactly (add_exact z zz4 m 0 W1 W8 F1 F8 R0 ltac:(lra)) r0 E9 W9 F9 V9. rewrite (IF r0 F9). cbn [negb].
    exactly (sub_exact z r0 m 0 W1 W9 F1 F9 R0 ltac:(lra)) r1 Ea W10 F10 V10.
    exactly (add_exact r1 zz4 m 0 W10 W8 F10 F8 R0 ltac:(lra)) r2 Eb W11 F11 V11.
    exists (mkDF r0 r2). split; [reflexivity|]. split; [exact (finite_value_zero F r0 W9 F9 V9)|exact (finite_value_zero F r2 W11 F11 V11)].
Qed.

(** one *)
Lemma no_cut_one : forall x y z, wf F x -> finite x -> value F y = 1%R -> ~ product_cut F x y z.
Proof.
  intros x y z Wx Fx V [_ [_ [_ [_ H]]]]. apply H. rewrite V, Rmult_1_r. destruct (multiple_of_smallest F HS x Wx Fx) as [k E].
  rewrite E, Rabs_mult, (Rabs_pos_eq (bpow _ _)) by apply bpow_ge_0. rewrite <- abs_IZR. apply cut_down_multiple.
Qed.
Theorem dd_mul_one : forall x y, canonical_pair F x -> category (d0 x) = Normal -> pair_wf F y -> value F (d0 y) = 1%R -> category (d0 y) = Normal -> category (d1 y) = Zero ->
  exists st r, dd_mul_r F x y NearestTiesToEven = Ret (st, r) /\ bitwise_eq (d0 r) (d0 x) = true /\ value F (d1 r) = value F (d1 x) /\
    (category (d1 x) = Zero -> st = OK).
Proof.
  intros [a b] [c d] [[Wa Wb] [[Fa Fb] V]] Ca [Wc Wd] Vc Cc Cd. cbn [d0 d1] in *. assert (finite c) as Fc by (left; exact Cc). assert (finite d) as Fd by (right; exact Cd).
  pose proof (value_zero F d Cd) as Vd.
  pose proof (representable_value F a HS Wa) as Ra. pose proof (representable_value F b HS Wb) as Rb. pose proof zero_representable as R0.
  unfold dd_mul_r, dd_category. cbn [d0]. rewrite Ca, Cc. unfold dd_mul_normal. cbn [d0 d1].
  assert (forall x y m v, wf F x -> wf F y -> finite x -> finite y -> representable F v -> (value F x * value F y = v)%R ->
    exists f, mul_r F x y m = Ret (OK, f) /\ wf F f /\ finite f /\ value F f = v) as ME.
  { intros x y m v Wx Wy Fx Fy R <-. eapply exact_step; [exact (mul_r_crate F x y m HS Wx Wy Fx Fy)|exact R]. }
  exactly (ME a c NearestTiesToEven (value F a) Wa Wc Fa Fc Ra ltac:(rewrite Vc; ring)) t E1 W1 F1 V1.
  assert (category t = Normal) as Ct by (destruct F1 as [K|K]; [exact K|]; exfalso; apply (normal_nonzero F a Wa Ca); rewrite <- V1; apply value_zero, K).
  assert (is_finite_non_zero t = true) as -> by (rewrite is_finite_non_zero_spec, Ct; reflexivity). cbn [negb].
  pose proof (mul_add_r_uncut F HS a c (neg t) NearestTiesToEven Wa Wc (wf_neg F t W1) Fa Fc (finite_neg t F1) (no_cut_one a c (neg t) Wa Fa Vc)) as U.
  replace (value F a * value F c + value F (neg t))%R with 0%R in U by (rewrite value_neg, Vc, V1; ring).
  exactly (exact_step _ _ _ _ U R0) tau E2 W2 F2 V2.
  exactly (ME a d NearestTiesToEven 0%R Wa Wd Fa Fd R0 ltac:(rewrite Vd; ring)) v E3 W3 F3 V3.
  exactly (ME b c NearestTiesToEven (value F b) Wb Wc Fb Fc Rb ltac:(rewrite Vc; ring)) w E4 W4 F4 V4.
  exactly (add_exact v w NearestTiesToEven (value F b) W3 W4 F3 F4 Rb ltac:(lra)) v2 E5 W5 F5 V5.
  exactly (add_exact tau v2 NearestTiesToEven (value F b) W2 W5 F2 F5 Rb ltac:(lra)) tau2 E6 W6 F6 V6.
  destruct (add_r_spec F t tau2 NearestTiesToEven HS W1 W6 F1 F6) as [[st u] [E7 D]]. rewrite E7. cbn [bind].
  rewrite V1, V6 in D. unfold pair_value in V. cbn [d0 d1] in V.
  pose proof D as D'. destruct D as [Wu [Su [Du _]]]. rewrite <- V in Du. destruct (Du (proj2 Ra)) as [Fu [Vu Stu]].
  assert (is_finite u = true) as -> by (destruct Fu as [K|K]; unfold is_finite, is_nan, is_infinite; rewrite K; reflexivity). cbn [negb].
  exactly (sub_exact t u NearestTiesToEven 0%R W1 Wu F1 Fu R0 ltac:(lra)) t2 E8 W8 F8 V8.
  exactly (add_exact t2 tau2 NearestTiesToEven (value F b) W8 W6 F8 F6 Rb ltac:(lra)) t3 E9 W9 F9 V9.
  eexists _, _. split; [reflexivity|]. cbn [d0 d1]. split; [|split; [exact V9|]].
  - apply (bitwise_eq_spec F u a HS Wu Wa). assert (category u = Normal) as Cu.
    { destruct Fu as [K|K]; [exact K|]. exfalso. apply (normal_nonzero F a Wa Ca). rewrite <- Vu. apply value_zero, K. }
    split; [congruence|]. split; [|split; [congruence|intros _; exact Vu]].
    destruct (normal_sign F u Wu Cu) as [P Q]. destruct (normal_sign F a Wa Ca) as [P' Q']. rewrite Vu in P, Q.
    destruct (Rtotal_order (value F a) 0) as [K|[K|K]]; [rewrite (proj1 P K), (proj1 P' K); reflexivity| |rewrite (proj1 Q K), (proj1 Q' K); reflexivity].
    exfalso. exact (normal_nonzero F a Wa Ca K).
  - intro Cb. pose proof (value_zero F b Cb) as Vb. rewrite Vb, Rplus_0_r in D'.
    destruct (delivers_representable _ _ _ _ _ _ _ HS D' Ra) as [-> _]. reflexivity.
Qed.
End Laws.
