(** * Expr.v -- expressions evaluated with the crate, statuses accumulated *)
From Coq Require Import ZArith Reals List Bool Lia Lra.
From Flocq Require Import Core.
From Verif Require Import Machine Ieee Spec Norm Arith Special Int Algebra Laws Total Reach Flocq754 SpecPrograms SpecExpr.
Local Open Scope Z_scope.
Ltac Zify.zify_post_hook ::= idtac.

(** src/ieee.rs:1009 [add_r], 1070 [sub_r], 1080 [mul_r], 1234 [div_r] *)
Definition op_r (o : binary) (S : Semantics) (m : Round) (x y : Float) : outcome (Z * Float) :=
  match o with Add => add_r S x y m | Sub => sub_r S x y m | Mul => mul_r S x y m | Div => div_r S x y m end.
(** A client that evaluates an expression and ors the statuses together
    (as [unpack!(status |=, ...)] does, src/lib.rs:102-110). *)
Fixpoint c_eval (S : Semantics) (env : nat -> Float) (e : expr) : outcome (Z * Float) :=
  match e with
  | Var i => Ret (OK, env i)
  | Num n m => from_i128_r S n m
  | Opp e => let! '(st, x) := c_eval S env e in Ret (st, neg x)
  | Op o m a b =>
    let! '(sa, x) := c_eval S env a in
    let! '(sb, y) := c_eval S env b in
    let! '(st, r) := op_r o S m x y in
    Ret (Z.lor (Z.lor sa sb) st, r)
  end.

Lemma op_total : forall o S m x y, sem_ok S -> wf S x -> wf S y -> returns S (op_r o S m x y).
Proof.
  intros o S m x y HS Wx Wy. destruct (arithmetic_returns S x y m HS Wx Wy) as [A [B [C [D _]]]]. destruct o; assumption.
Qed.
Lemma op_flags : forall o S m x y, sem_ok S -> wf S x -> wf S y -> finite x -> finite y -> (o = Div -> category y = Normal) ->
  exists st f, op_r o S m x y = Ret (st, f) /\ flags_exact S m (real_op o (value S x) (value S y)) st f.
Proof.
  intros o S m x y HS Wx Wy Fx Fy N. destruct o; cbn [op_r real_op].
  - apply add_r_flags; assumption.
  - apply sub_r_flags; assumption.
  - apply mul_r_flags; assumption.
  - apply div_r_flags; auto.
Qed.
Lemma op_exact : forall o S m x y, sem_ok S -> wf S x -> wf S y -> finite x -> finite y -> (o = Div -> category y = Normal) ->
  representable S (real_op o (value S x) (value S y)) ->
  exists f, op_r o S m x y = Ret (OK, f) /\ finite f /\ value S f = real_op o (value S x) (value S y).
Proof.
  intros o S m x y HS Wx Wy Fx Fy N [G L]. set (v := real_op o (value S x) (value S y)) in *.
  assert (D : exists pol zs res, op_r o S m x y = Ret res /\ delivers pol S m v zs res).
  { subst v. destruct o; cbn [op_r real_op].
    - destruct (add_r_spec S x y m HS Wx Wy Fx Fy) as [res [E D]]. eexists _, _, res. exact (conj E D).
    - destruct (sub_r_spec S x y m HS Wx Wy Fx Fy) as [res [E D]]. eexists _, _, res. exact (conj E D).
    - destruct (mul_r_crate S x y m HS Wx Wy Fx Fy) as [res [E D]]. eexists _, _, res. exact (conj E D).
    - destruct (div_r_crate S x y m HS Wx Wy Fx (N eq_refl)) as [res [E D]]. eexists _, _, res. exact (conj E D). }
  destruct D as [pol [zs [[st f] [E [W [SG [D _]]]]]]]. rewrite (rounded_format S m v G) in D. destruct (D L) as [F [V [K _]]].
  exists f. rewrite (K eq_refl) in E. exact (conj E (conj F V)).
Qed.
Lemma zero_divisor : forall S x y m st f, sem_ok S -> wf S x -> wf S y -> finite x -> category y = Zero ->
  div_r S x y m = Ret (st, f) -> raised DIV_BY_ZERO st \/ raised INVALID_OP st.
Proof.
  intros S x y m st f HS Wx Wy Fx Zy E.
  destruct (div_r_special S x y m HS Wx Wy) as [st' [f' [E' D]]].
  { destruct Fx as [C|C]; rewrite C; discriminate. } { rewrite Zy; discriminate. } { tauto. }
  assert (st' = st) by congruence. subst st'. cbv zeta in D. rewrite Zy in D.
  destruct Fx as [C|C]; rewrite C in D; destruct D as [-> _]; [left|right]; unfold raised; vm_compute; discriminate.
Qed.
Lemma ok_lor : forall a b, Z.lor a b = OK <-> a = OK /\ b = OK.
Proof. intros a b. apply Z.lor_eq_0_iff. Qed.
Lemma raised_lor : forall f a b, raised f (Z.lor a b) <-> raised f a \/ raised f b.
Proof.
  intros f a b. unfold raised. rewrite Z.land_lor_distr_l. rewrite Z.lor_eq_0_iff.
  destruct (Z.eq_dec (Z.land a f) 0), (Z.eq_dec (Z.land b f) 0); tauto.
Qed.
Definition trouble (st : Z) : Prop := raised OVERFLOW st \/ raised INVALID_OP st \/ raised DIV_BY_ZERO st.
Lemma trouble_lor : forall a b, trouble (Z.lor a b) <-> trouble a \/ trouble b.
Proof. intros a b. unfold trouble. rewrite !raised_lor. tauto. Qed.

Section Eval.
Variables (S : Semantics) (env : nat -> Float).
Hypothesis HS : sem_ok S.
Hypothesis W : forall i, wf S (env i).
Hypothesis F : forall i, finite (env i).
Let val := fun i => value S (env i).
Lemma finite_representable' : forall f, wf S f -> representable S (value S f).
Proof. intros f Wf. split; [apply value_format|apply value_le_max]; assumption. Qed.

Lemma eval_flags : forall e, numerals_ok e ->
  exists st f, c_eval S env e = Ret (st, f) /\ wf S f /\ (trouble st \/ finite f) /\
    (st = OK <-> needs_no_rounding S val e) /\ (st = OK -> finite f /\ value S f = exact val e).
Proof.
  induction e as [i|n m|e IH|o m a IHa b IHb]; intros R; cbn [c_eval needs_no_rounding exact].
  - exists OK, (env i). split; [reflexivity|]. split; [apply W|]. split; [right; apply F|]. split; [tauto|].
    intros _. split; [apply F|reflexivity].
  - destruct (from_i128_r_spec S n m HS R) as [[st f] [E D]]. destruct (from_i128_r_flags S n m HS R) as [st' [f' [E' K]]].
    assert (X : st' = st /\ f' = f) by (split; congruence). destruct X as [-> ->].
    exists st, f. split; [exact E|]. destruct D as [Wf [_ [D _]]]. split; [exact Wf|].
    destruct K as [K1 [_ [_ [K4 _]]]].
    split. { destruct (finite_cases f) as [Ff|Nf]; [right; exact Ff|left; left; apply K4; intros [C|C]; destruct Nf; congruence]. }
    split.
    + split.
      * intros O. apply K1 in O. destruct O as [_ V]. rewrite <- V. apply finite_representable'. exact Wf.
      * intros [G L]. rewrite (rounded_format S m _ G) in D. apply (D L). reflexivity.
    + intros O. apply K1. exact O.
  - destruct (IH R) as [st [f [E [Wf [T [O V]]]]]]. rewrite E. cbn [bind]. exists st, (neg f). split; [reflexivity|].
    split; [exact Wf|]. split; [exact T|]. split; [exact O|]. intros K. destruct (V K) as [Ff Vf]. split; [exact Ff|].
    rewrite value_neg, Vf. reflexivity.
  - destruct R as [Ra Rb]. destruct (IHa Ra) as [sa [x [Ea [Wx [Tx [Ox Vx]]]]]]. destruct (IHb Rb) as [sb [y [Eb [Wy [Ty [Oy Vy]]]]]].
    rewrite Ea, Eb. cbn [bind]. destruct (op_total o S m x y HS Wx Wy) as [st [f [E Wf]]]. rewrite E. cbn [bind].
    exists (Z.lor (Z.lor sa sb) st), f. split; [reflexivity|]. split; [exact Wf|].
    assert (ND : finite x -> finite y -> ~ trouble st -> o = Div -> category y = Normal).
    { intros Fx Fy NT ->. destruct Fy as [C|C]; [exact C|exfalso]. apply NT. right.
      destruct (zero_divisor S x y m st f HS Wx Wy Fx C E); tauto. }
    split; [|split].
    + rewrite !trouble_lor. destruct Tx as [Tx|Fx]; [tauto|]. destruct Ty as [Ty|Fy]; [tauto|].
      destruct (finite_cases f) as [Ff|Nf]; [right; exact Ff|left]. right.
      assert (DT : trouble st \/ ~ trouble st).
      { unfold trouble, raised. destruct (Z.eq_dec (Z.land st OVERFLOW) 0), (Z.eq_dec (Z.land st INVALID_OP) 0), (Z.eq_dec (Z.land st DIV_BY_ZERO) 0); tauto. }
      destruct DT as [DT|NT]; [exact DT|]. destruct (op_flags o S m x y HS Wx Wy Fx Fy (ND Fx Fy NT)) as [st' [f' [E' K]]].
      assert (X : st' = st /\ f' = f) by (split; congruence). destruct X as [-> ->]. destruct K as [_ [_ [_ [K4 _]]]].
      left. apply K4. intros [C|C]; destruct Nf; congruence.
    + rewrite !ok_lor, Ox, Oy. split.
      * intros [[Na Nb] O]. split; [exact Na|]. split; [exact Nb|].
        destruct (Vx (proj2 Ox Na)) as [Fx Ex]. destruct (Vy (proj2 Oy Nb)) as [Fy Ey].
        assert (NT : ~ trouble st) by (rewrite O; unfold trouble, raised, OK; rewrite !Z.land_0_l; tauto).
        pose proof (ND Fx Fy NT) as N. split.
        { intros D. rewrite <- Ey. apply (normal_nonzero S y Wy). exact (N D). }
        destruct (op_flags o S m x y HS Wx Wy Fx Fy N) as [st' [f' [E' K]]].
        assert (X : st' = st /\ f' = f) by (split; congruence). destruct X as [-> ->]. destruct (proj1 (proj1 K) O) as [_ V].
        rewrite <- Ex, <- Ey, <- V. apply finite_representable'. exact Wf.
      * intros [Na [Nb [D RP]]]. split; [exact (conj Na Nb)|].
        destruct (Vx (proj2 Ox Na)) as [Fx Ex]. destruct (Vy (proj2 Oy Nb)) as [Fy Ey].
        assert (N : o = Div -> category y = Normal).
        { intros Q. destruct Fy as [C|C]; [exact C|exfalso]. apply (D Q). rewrite <- Ey. unfold value. rewrite C. reflexivity. }
        rewrite <- Ex, <- Ey in RP. destruct (op_exact o S m x y HS Wx Wy Fx Fy N RP) as [f' [E' _]]. congruence.
    + rewrite !ok_lor. intros [[Oa Ob] O].
      destruct (Vx Oa) as [Fx Ex]. destruct (Vy Ob) as [Fy Ey].
      assert (NT : ~ trouble st) by (rewrite O; unfold trouble, raised, OK; rewrite !Z.land_0_l; tauto).
      destruct (op_flags o S m x y HS Wx Wy Fx Fy (ND Fx Fy NT)) as [st' [f' [E' K]]].
      assert (X : st' = st /\ f' = f) by (split; congruence). destruct X as [-> ->]. destruct (proj1 (proj1 K) O) as [Ff V].
      split; [exact Ff|]. rewrite V, Ex, Ey. reflexivity.
Qed.
End Eval.
