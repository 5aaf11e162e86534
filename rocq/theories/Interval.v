(** * Interval.v -- interval arithmetic with the directed modes of the crate

    A client of the crate: intervals with floats as ends, evaluated with
    [TowardNegative] below and [TowardPositive] above. *)
From Coq Require Import ZArith Reals List Bool Lia Lra Psatz.
From Flocq Require Import Core.
From Verif Require Import Machine Ieee Spec Norm Arith Special Order Int Algebra Laws Total Reach Orderx More Eft Flocq754 SpecPrograms SpecExpr Expr.
Local Open Scope Z_scope.
Ltac Zify.zify_post_hook ::= idtac.

(** ** The client

    It calls src/ieee.rs:1009 [add_r], 1070 [sub_r], 1080 [mul_r], 1234 [div_r], 458 [partial_cmp],
    493 [neg], src/lib.rs:345 [from_i128_r], 445 [minimum], 465 [maximum]. *)
Definition interval : Type := Float * Float.
Definition whole (S : Semantics) : interval := (neg (INFINITY S), INFINITY S).
(** an end that is a NaN (0 * infinity, infinity / infinity) tells nothing *)
Definition guard (S : Semantics) (i : interval) : interval := if is_nan (fst i) || is_nan (snd i) then whole S else i.
Definition drop {A : Type} (o : outcome (Z * A)) : outcome A := let! '(_, r) := o in Ret r.
Definition least (p q r s : Float) : outcome Float := let! a := minimum p q in let! b := minimum r s in minimum a b.
Definition greatest (p q r s : Float) : outcome Float := let! a := maximum p q in let! b := maximum r s in maximum a b.
(** one operation on all four pairs of ends *)
Definition corners (op : Float -> Float -> Round -> outcome (Z * Float)) (i j : interval) : outcome interval :=
  let all pick m :=
    let! p := drop (op (fst i) (fst j) m) in let! q := drop (op (fst i) (snd j) m) in
    let! r := drop (op (snd i) (fst j) m) in let! s := drop (op (snd i) (snd j) m) in
    pick p q r s in
  let! lo := all least TowardNegative in let! hi := all greatest TowardPositive in
  Ret (lo, hi).
Definition i_op (S : Semantics) (o : binary) (i j : interval) : outcome interval :=
  match o with
  | Add =>
    let! lo := drop (add_r S (fst i) (fst j) TowardNegative) in
    let! hi := drop (add_r S (snd i) (snd j) TowardPositive) in Ret (lo, hi)
  | Sub =>
    let! lo := drop (sub_r S (fst i) (snd j) TowardNegative) in
    let! hi := drop (sub_r S (snd i) (fst j) TowardPositive) in Ret (lo, hi)
  | Mul => let! r := corners (mul_r S) i j in Ret (guard S r)
  | Div =>
    let! above := gt_f (fst j) (ZERO S) in
    let! below := lt_f (snd j) (ZERO S) in
    if above || below then let! r := corners (div_r S) i j in Ret (guard S r) else Ret (whole S)
  end.
Fixpoint i_eval (S : Semantics) (env : nat -> interval) (e : expr) : outcome interval :=
  match e with
  | Var i => Ret (env i)
  | Num n _ =>
    let! lo := drop (from_i128_r S n TowardNegative) in
    let! hi := drop (from_i128_r S n TowardPositive) in Ret (lo, hi)
  | Opp e => let! i := i_eval S env e in Ret (neg (snd i), neg (fst i))
  | Op o _ a b => let! i := i_eval S env a in let! j := i_eval S env b in i_op S o i j
  end.

(** ** The claim *)
Definition contains (S : Semantics) (i : interval) (v : R) : Prop :=
  exists a b, ext_of S (fst i) = Some a /\ ext_of S (snd i) = Some b /\ ext_le a (Fin v) /\ ext_le (Fin v) b.
Definition ends_ok (S : Semantics) (i : interval) : Prop := wf S (fst i) /\ wf S (snd i).

(** ** Products of extended numbers *)
Definition signed_inf (x : R) (i : extended) : option extended :=
  match Rcompare x 0 with Eq => None | Gt => Some i | Lt => Some (opposite i) end.
Definition ext_mul (a b : extended) : option extended :=
  match a, b with
  | Fin x, Fin y => Some (Fin (x * y))
  | Fin x, i | i, Fin x => signed_inf x i
  | PosInf, i => Some i
  | NegInf, i => Some (opposite i)
  end.
Definition ext_inv (a : extended) : extended := match a with Fin x => Fin (/ x) | _ => Fin 0 end.
Definition below (q : option extended) (v : R) : Prop := match q with None => True | Some e => ext_le e (Fin v) end.
Definition above (q : option extended) (v : R) : Prop := match q with None => True | Some e => ext_le (Fin v) e end.

Lemma ext_le_trans' : forall a b c, ext_le a b -> ext_le b c -> ext_le a c.
Proof.
  intros a b c H K. destruct a, b, c; unfold ext_le in *; cbn in *; try tauto; try (left; exact I); try (right; reflexivity);
  try (destruct H as [H|H]; [tauto|discriminate]); try (destruct K as [K|K]; [tauto|discriminate]).
  assert (x <= x1)%R as [L|L].
  { apply Rle_trans with x0; [destruct H as [H|H]|destruct K as [K|K]]; try (left; assumption); right; congruence. }
  - left. exact L.
  - right. congruence.
Qed.
Lemma NegInf_le : forall a, ext_le NegInf a.
Proof. intros []; [right; reflexivity|left; exact I|left; exact I]. Qed.
Lemma le_PosInf : forall a, ext_le a PosInf.
Proof. intros []; [left; exact I|left; exact I|right; reflexivity]. Qed.
Lemma ext_mul_comm : forall a b, ext_mul a b = ext_mul b a.
Proof. intros [|x|] [|y|]; cbn; try reflexivity. rewrite Rmult_comm. reflexivity. Qed.

Lemma low_corner : forall a b c d x y, ext_le a (Fin x) -> ext_le (Fin x) b -> ext_le c (Fin y) -> ext_le (Fin y) d ->
  below (ext_mul a c) (x * y) \/ below (ext_mul a d) (x * y) \/ below (ext_mul b c) (x * y) \/ below (ext_mul b d) (x * y).
Proof.
  assert (NO : forall z, ext_le PosInf (Fin z) -> False) by (intros z [H|H]; [exact H|discriminate]).
  assert (NO' : forall z, ext_le (Fin z) NegInf -> False) by (intros z [H|H]; [exact H|discriminate]).
  assert (POS : forall z i v, (0 <= z)%R -> i = NegInf -> below (signed_inf z i) v).
  { intros z i v H ->. unfold signed_inf. destruct (Rcompare_spec z 0); cbn; [lra|exact I|apply NegInf_le]. }
  assert (NEG : forall z i v, (z <= 0)%R -> i = PosInf -> below (signed_inf z i) v).
  { intros z i v H ->. unfold signed_inf. destruct (Rcompare_spec z 0); cbn; [apply NegInf_le|exact I|lra]. }
  intros a b c d x y Ha Hb Hc Hd. destruct (Rle_lt_dec 0 y) as [Y|Y].
  - destruct a as [|a|]; [| |destruct (NO _ Ha)].
    + (* a = -oo: a * d *)
      right; left. destruct d as [|d|]; [destruct (NO' _ Hd)| |cbn; apply NegInf_le].
      apply le_Fin_inv in Hd. cbn [ext_mul]. apply POS; [lra|reflexivity].
    + apply le_Fin_inv in Ha. destruct (Rle_lt_dec 0 a) as [A|A].
      * left. destruct c as [|c|]; [cbn [ext_mul]; apply POS; [exact A|reflexivity]| |destruct (NO _ Hc)].
        apply le_Fin_inv in Hc. cbn. apply le_Fin. nra.
      * right; left. destruct d as [|d|]; [destruct (NO' _ Hd)| |cbn [ext_mul]; apply NEG; [lra|reflexivity]].
        apply le_Fin_inv in Hd. cbn. apply le_Fin. nra.
  - destruct b as [|b|]; [destruct (NO' _ Hb)| |].
    + apply le_Fin_inv in Hb. destruct (Rle_lt_dec 0 b) as [B|B].
      * right; right; left. destruct c as [|c|]; [cbn [ext_mul]; apply POS; [exact B|reflexivity]| |destruct (NO _ Hc)].
        apply le_Fin_inv in Hc. cbn. apply le_Fin. nra.
      * right; right; right. destruct d as [|d|]; [destruct (NO' _ Hd)| |cbn [ext_mul]; apply NEG; [lra|reflexivity]].
        apply le_Fin_inv in Hd. cbn. apply le_Fin. nra.
    + right; right; left. destruct c as [|c|]; [cbn; apply NegInf_le| |destruct (NO _ Hc)].
      apply le_Fin_inv in Hc. cbn [ext_mul]. apply NEG; [lra|reflexivity].
Qed.
Lemma ext_mul_opposite : forall a b, ext_mul (opposite a) b = option_map opposite (ext_mul a b).
Proof.
  assert (G : forall x i, signed_inf (- x) i = option_map opposite (signed_inf x i)).
  { intros x i. unfold signed_inf. destruct (Rcompare_spec (- x) 0), (Rcompare_spec x 0); try lra; cbn; try reflexivity.
    rewrite opposite_opposite. reflexivity. }
  assert (G' : forall x i, signed_inf x (opposite i) = option_map opposite (signed_inf x i)).
  { intros x i. unfold signed_inf. destruct (Rcompare_spec x 0); cbn; reflexivity. }
  intros [|x|] [|y|]; cbn [opposite ext_mul option_map]; try reflexivity; try apply G.
  - exact (G' y NegInf).
  - f_equal. f_equal. ring.
  - exact (G' y PosInf).
Qed.
Lemma high_corner : forall a b c d x y, ext_le a (Fin x) -> ext_le (Fin x) b -> ext_le c (Fin y) -> ext_le (Fin y) d ->
  above (ext_mul a c) (x * y) \/ above (ext_mul a d) (x * y) \/ above (ext_mul b c) (x * y) \/ above (ext_mul b d) (x * y).
Proof.
  intros a b c d x y Ha Hb Hc Hd.
  assert (T : forall p q, below (ext_mul (opposite p) q) (- x * y) -> above (ext_mul p q) (x * y)).
  { intros p q. rewrite ext_mul_opposite. destruct (ext_mul p q) as [e|]; [|tauto]. cbn. intros H. apply opposite_le in H.
    rewrite opposite_opposite in H. cbn in H. replace (x * y)%R with (- (- x * y))%R by ring. exact H. }
  destruct (low_corner (opposite b) (opposite a) c d (- x) y (opposite_le _ _ Hb) (opposite_le _ _ Ha) Hc Hd) as [H|[H|[H|H]]]; apply T in H; tauto.
Qed.
Lemma inv_order : forall c d y, ext_le c (Fin y) -> ext_le (Fin y) d -> ext_lt (Fin 0) c \/ ext_lt d (Fin 0) ->
  ext_le (ext_inv d) (Fin (/ y)) /\ ext_le (Fin (/ y)) (ext_inv c).
Proof.
  intros c d y Hc Hd [P|N].
  - destruct c as [|c|]; cbn in P; [tauto| |destruct Hc as [H|H]; [destruct H|discriminate]]. apply le_Fin_inv in Hc.
    split; [|cbn; apply le_Fin, Rinv_le; assumption]. assert (0 < / y)%R by (apply Rinv_0_lt_compat; lra).
    destruct d as [|d|]; cbn; [destruct Hd as [H'|H']; [destruct H'|discriminate]| |left; cbn; assumption].
    apply le_Fin_inv in Hd. apply le_Fin, Rinv_le; lra.
  - destruct d as [|d|]; cbn in N; [destruct Hd as [H|H]; [destruct H|discriminate]| |tauto]. apply le_Fin_inv in Hd.
    assert (I : forall u v, (u <= v < 0)%R -> (/ v <= / u)%R).
    { intros u v H. apply Ropp_le_cancel. rewrite <- !Rinv_opp. apply Rinv_le; lra. }
    split; [cbn; apply le_Fin, I; lra|]. assert (/ y < 0)%R by (apply Rinv_lt_0_compat; lra).
    destruct c as [|c|]; cbn; [left; cbn; assumption| |destruct Hc as [H'|H']; [destruct H'|discriminate]].
    apply le_Fin_inv in Hc. apply le_Fin, I. lra.
Qed.

(** ** The operations of the crate, one end at a time *)
Lemma ext_some : forall S x, category x <> NaN -> exists a, ext_of S x = Some a.
Proof. intros S x N. unfold ext_of. destruct (category x); try (eexists; reflexivity). congruence. Qed.
Lemma ext_not_nan : forall S x a, ext_of S x = Some a -> category x <> NaN.
Proof. intros S x a H C. unfold ext_of in H. rewrite C in H. discriminate. Qed.
Lemma ext_finite : forall S x, finite x -> ext_of S x = Some (Fin (value S x)).
Proof. intros S x [C|C]; unfold ext_of; rewrite C; reflexivity. Qed.
Lemma normal_sign : forall S x, wf S x -> category x = Normal -> (if sign x then value S x < 0 else 0 < value S x)%R.
Proof.
  intros S x W C. unfold value. rewrite C. destruct W as [_ [_ K]]. rewrite C in K.
  assert (P : 0 < sig x) by (destruct K as [K _]; lia). pose proof (bpow_gt_0 r2 (exp x - (PRECISION S - 1))) as B.
  apply IZR_lt in P. unfold signed. destruct (sign x); [rewrite opp_IZR|]; nra.
Qed.
Lemma compare_normal : forall S x i, wf S x -> category x = Normal -> signed_inf (value S x) i = Some (if sign x then opposite i else i).
Proof.
  intros S x i W C. pose proof (normal_sign S x W C) as K. unfold signed_inf. destruct (sign x).
  - rewrite Rcompare_Lt by exact K. reflexivity.
  - rewrite Rcompare_Gt by exact K. reflexivity.
Qed.
Lemma compare_zero : forall S x i, category x = Zero -> signed_inf (value S x) i = None.
Proof. intros S x i C. unfold value. rewrite C. unfold signed_inf. rewrite Rcompare_Eq; reflexivity. Qed.

Section Ends.
Variable S : Semantics.
Hypothesis HS : sem_ok S.
Hypothesis NB : NONFINITE_BEHAVIOR S = IEEE754.

(** what an operation returns lies on the right side of the exact result *)
Definition lands (m : Round) (o : outcome (Z * Float)) (q : option extended) : Prop :=
  exists st p, o = Ret (st, p) /\ wf S p /\
    match q with
    | None => category p = NaN
    | Some e => exists e', ext_of S p = Some e' /\ (m = TowardNegative -> ext_le e' e) /\ (m = TowardPositive -> ext_le e e')
    end.
Definition directed (m : Round) : Prop := m = TowardNegative \/ m = TowardPositive.

Lemma lands_finite : forall m o v od ou, directed m -> returns S o -> encloses S v od ou ->
  (m = TowardNegative -> o = od) -> (m = TowardPositive -> o = ou) -> lands m o (Some (Fin v)).
Proof.
  intros m o v od ou [M|M] [st [p [E W]]] [s1 [lo [s2 [hi [a [b [E1 [E2 [A [B [L1 [L2 _]]]]]]]]]]]] D U.
  - exists st, p. split; [exact E|]. split; [exact W|]. rewrite (D M), E1 in E. assert (lo = p) by congruence. subst lo.
    exists a. split; [exact A|]. split; [intros _; exact L1|]. rewrite M. discriminate.
  - exists st, p. split; [exact E|]. split; [exact W|]. rewrite (U M), E2 in E. assert (hi = p) by congruence. subst hi.
    exists b. split; [exact B|]. split; [rewrite M; discriminate|]. intros _. exact L2.
Qed.
Lemma lands_special : forall m st p e, wf S p -> ext_of S p = Some e -> lands m (Ret (st, p)) (Some e).
Proof.
  intros m st p e W E. exists st, p. split; [reflexivity|]. split; [exact W|]. exists e. split; [exact E|].
  split; intros _; right; reflexivity.
Qed.
Lemma lands_nan : forall m st p, default_nan S p -> lands m (Ret (st, p)) None.
Proof. intros m st p [W [C _]]. exists st, p. exact (conj eq_refl (conj W C)). Qed.
Lemma ext_inf : forall g p, is_special S Infinity g p -> ext_of S p = Some (if g then NegInf else PosInf).
Proof. intros g p [_ [C G]]. unfold ext_of. rewrite C, G. reflexivity. Qed.

Lemma mul_lands : forall m x y a b, directed m -> wf S x -> wf S y -> ext_of S x = Some a -> ext_of S y = Some b ->
  lands m (mul_r S x y m) (ext_mul a b).
Proof.
  intros m x y a b M Wx Wy A B. pose proof (ext_not_nan _ _ _ A) as Nx. pose proof (ext_not_nan _ _ _ B) as Ny.
  assert (RT : returns S (mul_r S x y m)) by (exact (op_total Mul S m x y HS Wx Wy)).
  destruct (finite_dec x Nx) as [Fx|Ix]; [destruct (finite_dec y Ny) as [Fy|Iy]|].
  - rewrite (ext_finite S x Fx) in A. rewrite (ext_finite S y Fy) in B. assert (a = Fin (value S x)) by congruence. assert (b = Fin (value S y)) by congruence. subst a b.
    cbn [ext_mul]. eapply lands_finite; [exact M|exact RT|apply (mul_encloses S x y HS NB Wx Wy Fx Fy)| |]; intros ->; reflexivity.
  - destruct (mul_r_infinite S x y m HS Wx Wy Nx Ny ltac:(tauto)) as [st [f [E D]]]. rewrite E. rewrite Iy in D.
    rewrite (ext_finite S x Fx) in A. assert (a = Fin (value S x)) by congruence. subst a.
    assert (b = if sign y then NegInf else PosInf) by (unfold ext_of in B; rewrite Iy in B; congruence). subst b.
    destruct Fx as [Cx|Cx]; rewrite Cx in D; destruct D as [_ D].
    + assert (Q : ext_mul (Fin (value S x)) (if sign y then NegInf else PosInf) = Some (if xorb (sign x) (sign y) then NegInf else PosInf)).
      { destruct (sign y); cbn [ext_mul]; rewrite (compare_normal S x _ Wx Cx); destruct (sign x); reflexivity. }
      rewrite Q. apply lands_special; [apply D|]. apply ext_inf. exact D.
    + assert (Q : ext_mul (Fin (value S x)) (if sign y then NegInf else PosInf) = None).
      { destruct (sign y); cbn [ext_mul]; apply compare_zero; exact Cx. }
      rewrite Q. apply lands_nan. exact D.
  - destruct (mul_r_infinite S x y m HS Wx Wy Nx Ny ltac:(tauto)) as [st [f [E D]]]. rewrite E. rewrite Ix in D.
    assert (a = if sign x then NegInf else PosInf) by (unfold ext_of in A; rewrite Ix in A; congruence). subst a.
    destruct (category y) eqn:Cy; try congruence; destruct D as [_ D].
    + assert (b = if sign y then NegInf else PosInf) by (unfold ext_of in B; rewrite Cy in B; congruence). subst b.
      assert (Q : ext_mul (if sign x then NegInf else PosInf) (if sign y then NegInf else PosInf) = Some (if xorb (sign x) (sign y) then NegInf else PosInf)) by (destruct (sign x), (sign y); reflexivity).
      rewrite Q. apply lands_special; [apply D|]. apply ext_inf. exact D.
    + rewrite (ext_finite S y (or_introl Cy)) in B. assert (b = Fin (value S y)) by congruence. subst b.
      assert (Q : ext_mul (if sign x then NegInf else PosInf) (Fin (value S y)) = Some (if xorb (sign x) (sign y) then NegInf else PosInf)).
      { destruct (sign x); cbn [ext_mul]; rewrite (compare_normal S y _ Wy Cy); destruct (sign y); reflexivity. }
      rewrite Q. apply lands_special; [apply D|]. apply ext_inf. exact D.
    + rewrite (ext_finite S y (or_intror Cy)) in B. assert (b = Fin (value S y)) by congruence. subst b.
      assert (Q : ext_mul (if sign x then NegInf else PosInf) (Fin (value S y)) = None).
      { destruct (sign x); cbn [ext_mul]; apply compare_zero; exact Cy. }
      rewrite Q. apply lands_nan. exact D.
Qed.
Lemma div_lands : forall m x y a b, directed m -> wf S x -> wf S y -> ext_of S x = Some a -> ext_of S y = Some b -> b <> Fin 0 ->
  lands m (div_r S x y m) (ext_mul a (ext_inv b)).
Proof.
  intros m x y a b M Wx Wy A B NZ. pose proof (ext_not_nan _ _ _ A) as Nx. pose proof (ext_not_nan _ _ _ B) as Ny.
  assert (RT : returns S (div_r S x y m)) by (exact (op_total Div S m x y HS Wx Wy)).
  destruct (category y) eqn:Cy; try congruence.
  - destruct (div_r_special S x y m HS Wx Wy Nx ltac:(congruence) ltac:(tauto)) as [st [f [E D]]]. rewrite E. cbv zeta in D. rewrite Cy in D.
    assert (Q : ext_inv b = Fin 0) by (unfold ext_of in B; rewrite Cy in B; assert (b = if sign y then NegInf else PosInf) as -> by congruence; destruct (sign y); reflexivity).
    rewrite Q. destruct (category x) eqn:Cx; try congruence; destruct D as [_ D].
    + assert (a = if sign x then NegInf else PosInf) as -> by (unfold ext_of in A; rewrite Cx in A; congruence).
      assert (K : ext_mul (if sign x then NegInf else PosInf) (Fin 0) = None) by (destruct (sign x); cbn; unfold signed_inf; rewrite Rcompare_Eq; reflexivity).
      rewrite K. apply lands_nan. exact D.
    + rewrite (ext_finite S x (or_introl Cx)) in A. assert (a = Fin (value S x)) as -> by congruence. cbn [ext_mul]. rewrite Rmult_0_r.
      apply lands_special; [apply D|]. destruct D as [_ [C _]]. unfold ext_of, value. rewrite C. reflexivity.
    + rewrite (ext_finite S x (or_intror Cx)) in A. assert (a = Fin (value S x)) as -> by congruence. cbn [ext_mul]. rewrite Rmult_0_r.
      apply lands_special; [apply D|]. destruct D as [_ [C _]]. unfold ext_of, value. rewrite C. reflexivity.
  - rewrite (ext_finite S y (or_introl Cy)) in B. assert (b = Fin (value S y)) as -> by congruence. cbn [ext_inv].
    destruct (finite_dec x Nx) as [Fx|Ix].
    + rewrite (ext_finite S x Fx) in A. assert (a = Fin (value S x)) as -> by congruence. cbn [ext_mul].
      eapply lands_finite; [exact M|exact RT|apply (div_encloses S x y HS NB Wx Wy Fx Cy)| |]; intros ->; reflexivity.
    + destruct (div_r_special S x y m HS Wx Wy Nx ltac:(congruence) ltac:(tauto)) as [st [f [E D]]]. rewrite E. cbv zeta in D. rewrite Ix, Cy in D. destruct D as [_ D].
      assert (a = if sign x then NegInf else PosInf) as -> by (unfold ext_of in A; rewrite Ix in A; congruence).
      assert (Q : ext_mul (if sign x then NegInf else PosInf) (Fin (/ value S y)) = Some (if xorb (sign x) (sign y) then NegInf else PosInf)).
      { assert (G : forall i, signed_inf (/ value S y) i = Some (if sign y then opposite i else i)).
        { intros i. pose proof (normal_sign S y Wy Cy) as K. unfold signed_inf. destruct (sign y).
          - rewrite Rcompare_Lt by (apply Rinv_lt_0_compat; exact K). reflexivity.
          - rewrite Rcompare_Gt by (apply Rinv_0_lt_compat; exact K). reflexivity. }
        destruct (sign x); cbn [ext_mul]; rewrite G; destruct (sign y); reflexivity. }
      rewrite Q. apply lands_special; [apply D|]. apply ext_inf. exact D.
  - exfalso. apply NZ. rewrite (ext_finite S y (or_intror Cy)) in B. unfold value in B. rewrite Cy in B. congruence.
Qed.

(** the least of several floats, or a NaN if there is one among them *)
Definition lower_of (f p : Float) : Prop := exists c e, ext_of S f = Some c /\ ext_of S p = Some e /\ ext_le c e.
Definition upper_of (f p : Float) : Prop := exists c e, ext_of S f = Some c /\ ext_of S p = Some e /\ ext_le e c.
Lemma nan_ext : forall x, category x = NaN -> ext_of S x = None.
Proof. intros x C. unfold ext_of. rewrite C. reflexivity. Qed.
Lemma ext_nan : forall x, ext_of S x = None -> category x = NaN.
Proof. intros x H. unfold ext_of in H. destruct (category x); try discriminate. reflexivity. Qed.
Lemma minimum_lower : forall p q, wf S p -> wf S q -> exists f, minimum p q = Ret f /\ wf S f /\ (category f = NaN \/ lower_of f p /\ lower_of f q).
Proof.
  intros p q Wp Wq. destruct (minimum_spec S p q HS Wp Wq) as [f [E [I D]]]. exists f. split; [exact E|].
  split; [destruct I as [-> | ->]; assumption|]. destruct (ext_of S p) as [a|] eqn:A; [destruct (ext_of S q) as [b|] eqn:B|].
  - right. destruct D as [[c [C [L1 L2]]] _]. split; [exists c, a|exists c, b]; tauto.
  - left. subst f. apply ext_nan. exact B.
  - left. destruct (ext_of S q); subst f; apply ext_nan; exact A.
Qed.
Lemma maximum_upper : forall p q, wf S p -> wf S q -> exists f, maximum p q = Ret f /\ wf S f /\ (category f = NaN \/ upper_of f p /\ upper_of f q).
Proof.
  intros p q Wp Wq. destruct (maximum_spec S p q HS Wp Wq) as [f [E [I D]]]. exists f. split; [exact E|].
  split; [destruct I as [-> | ->]; assumption|]. destruct (ext_of S p) as [a|] eqn:A; [destruct (ext_of S q) as [b|] eqn:B|].
  - right. destruct D as [[c [C [L1 L2]]] _]. split; [exists c, a|exists c, b]; tauto.
  - left. subst f. apply ext_nan. exact B.
  - left. destruct (ext_of S q); subst f; apply ext_nan; exact A.
Qed.
Lemma lower_trans : forall f g p, lower_of f g -> lower_of g p -> lower_of f p.
Proof.
  intros f g p [c [e [C [G L]]]] [c' [e' [G' [P L']]]]. assert (c' = e) by congruence. subst c'.
  exists c, e'. exact (conj C (conj P (ext_le_trans' _ _ _ L L'))).
Qed.
Lemma upper_trans : forall f g p, upper_of f g -> upper_of g p -> upper_of f p.
Proof.
  intros f g p [c [e [C [G L]]]] [c' [e' [G' [P L']]]]. assert (c' = e) by congruence. subst c'.
  exists c, e'. exact (conj C (conj P (ext_le_trans' _ _ _ L' L))).
Qed.
Lemma lower_nan : forall f g, lower_of f g -> category g <> NaN.
Proof. intros f g [c [e [_ [G _]]]]. exact (ext_not_nan _ _ _ G). Qed.
Lemma upper_nan : forall f g, upper_of f g -> category g <> NaN.
Proof. intros f g [c [e [_ [G _]]]]. exact (ext_not_nan _ _ _ G). Qed.
Lemma least_lower : forall p q r s, wf S p -> wf S q -> wf S r -> wf S s -> exists f, least p q r s = Ret f /\ wf S f /\
  (category f = NaN \/ lower_of f p /\ lower_of f q /\ lower_of f r /\ lower_of f s).
Proof.
  intros p q r s Wp Wq Wr Ws. unfold least. destruct (minimum_lower p q Wp Wq) as [a [-> [Wa Da]]]. destruct (minimum_lower r s Wr Ws) as [b [-> [Wb Db]]].
  cbn [bind]. destruct (minimum_lower a b Wa Wb) as [f [-> [Wf Df]]]. exists f. split; [reflexivity|]. split; [exact Wf|].
  destruct Df as [Df|[L1 L2]]; [left; exact Df|right].
  destruct Da as [Da|[A1 A2]]; [destruct (lower_nan _ _ L1 Da)|]. destruct Db as [Db|[B1 B2]]; [destruct (lower_nan _ _ L2 Db)|].
  split; [exact (lower_trans _ _ _ L1 A1)|]. split; [exact (lower_trans _ _ _ L1 A2)|]. split; [exact (lower_trans _ _ _ L2 B1)|exact (lower_trans _ _ _ L2 B2)].
Qed.
Lemma greatest_upper : forall p q r s, wf S p -> wf S q -> wf S r -> wf S s -> exists f, greatest p q r s = Ret f /\ wf S f /\
  (category f = NaN \/ upper_of f p /\ upper_of f q /\ upper_of f r /\ upper_of f s).
Proof.
  intros p q r s Wp Wq Wr Ws. unfold greatest. destruct (maximum_upper p q Wp Wq) as [a [-> [Wa Da]]]. destruct (maximum_upper r s Wr Ws) as [b [-> [Wb Db]]].
  cbn [bind]. destruct (maximum_upper a b Wa Wb) as [f [-> [Wf Df]]]. exists f. split; [reflexivity|]. split; [exact Wf|].
  destruct Df as [Df|[L1 L2]]; [left; exact Df|right].
  destruct Da as [Da|[A1 A2]]; [destruct (upper_nan _ _ L1 Da)|]. destruct Db as [Db|[B1 B2]]; [destruct (upper_nan _ _ L2 Db)|].
  split; [exact (upper_trans _ _ _ L1 A1)|]. split; [exact (upper_trans _ _ _ L1 A2)|]. split; [exact (upper_trans _ _ _ L2 B1)|exact (upper_trans _ _ _ L2 B2)].
Qed.

Lemma lands_lower : forall o q v f p, lands TowardNegative o q -> drop o = Ret p -> lower_of f p -> below q v ->
  exists c, ext_of S f = Some c /\ ext_le c (Fin v).
Proof.
  intros o q v f p [st [p' [E [W D]]]] P [c [e [C [Pe L]]]] B. rewrite E in P. cbn [drop bind] in P. assert (p' = p) by congruence. subst p'.
  exists c. split; [exact C|]. destruct q as [q|].
  - destruct D as [e' [E' [D _]]]. assert (e' = e) by congruence. subst e'. eapply ext_le_trans'; [exact L|]. eapply ext_le_trans'; [exact (D eq_refl)|exact B].
  - rewrite (nan_ext p D) in Pe. discriminate.
Qed.
Lemma lands_upper : forall o q v f p, lands TowardPositive o q -> drop o = Ret p -> upper_of f p -> above q v ->
  exists c, ext_of S f = Some c /\ ext_le (Fin v) c.
Proof.
  intros o q v f p [st [p' [E [W D]]]] P [c [e [C [Pe L]]]] B. rewrite E in P. cbn [drop bind] in P. assert (p' = p) by congruence. subst p'.
  exists c. split; [exact C|]. destruct q as [q|].
  - destruct D as [e' [E' [_ D]]]. assert (e' = e) by congruence. subst e'. eapply ext_le_trans'; [exact B|]. eapply ext_le_trans'; [exact (D eq_refl)|exact L].
  - rewrite (nan_ext p D) in Pe. discriminate.
Qed.
Lemma lands_drop : forall m o q, lands m o q -> exists p, drop o = Ret p /\ wf S p.
Proof. intros m o q [st [p [E [W _]]]]. exists p. rewrite E. exact (conj eq_refl W). Qed.

Lemma corners_contain : forall op i j v q1 q2 q3 q4,
  (forall m, directed m -> lands m (op (fst i) (fst j) m) q1 /\ lands m (op (fst i) (snd j) m) q2 /\
    lands m (op (snd i) (fst j) m) q3 /\ lands m (op (snd i) (snd j) m) q4) ->
  below q1 v \/ below q2 v \/ below q3 v \/ below q4 v -> above q1 v \/ above q2 v \/ above q3 v \/ above q4 v ->
  exists k, corners op i j = Ret k /\ ends_ok S k /\ (category (fst k) = NaN \/ category (snd k) = NaN \/ contains S k v).
Proof.
  intros op i j v q1 q2 q3 q4 H B A. unfold corners.
  destruct (H TowardNegative (or_introl eq_refl)) as [L1 [L2 [L3 L4]]]. destruct (H TowardPositive (or_intror eq_refl)) as [U1 [U2 [U3 U4]]].
  destruct (lands_drop _ _ _ L1) as [p1 [P1 W1]]. destruct (lands_drop _ _ _ L2) as [p2 [P2 W2]].
  destruct (lands_drop _ _ _ L3) as [p3 [P3 W3]]. destruct (lands_drop _ _ _ L4) as [p4 [P4 W4]].
  destruct (lands_drop _ _ _ U1) as [r1 [R1 X1]]. destruct (lands_drop _ _ _ U2) as [r2 [R2 X2]].
  destruct (lands_drop _ _ _ U3) as [r3 [R3 X3]]. destruct (lands_drop _ _ _ U4) as [r4 [R4 X4]].
  rewrite P1, P2, P3, P4, R1, R2, R3, R4. cbn [bind].
  destruct (least_lower p1 p2 p3 p4 W1 W2 W3 W4) as [lo [-> [Wlo Dlo]]]. destruct (greatest_upper r1 r2 r3 r4 X1 X2 X3 X4) as [hi [-> [Whi Dhi]]].
  cbn [bind]. exists (lo, hi). split; [reflexivity|]. split; [exact (conj Wlo Whi)|]. cbn [fst snd].
  destruct Dlo as [N|[D1 [D2 [D3 D4]]]]; [left; exact N|]. destruct Dhi as [N|[E1 [E2 [E3 E4]]]]; [right; left; exact N|]. right; right.
  assert (LO : exists c, ext_of S lo = Some c /\ ext_le c (Fin v)).
  { destruct B as [B|[B|[B|B]]]; [exact (lands_lower _ _ _ _ _ L1 P1 D1 B)|exact (lands_lower _ _ _ _ _ L2 P2 D2 B)|exact (lands_lower _ _ _ _ _ L3 P3 D3 B)|exact (lands_lower _ _ _ _ _ L4 P4 D4 B)]. }
  assert (HI : exists c, ext_of S hi = Some c /\ ext_le (Fin v) c).
  { destruct A as [A|[A|[A|A]]]; [exact (lands_upper _ _ _ _ _ U1 R1 E1 A)|exact (lands_upper _ _ _ _ _ U2 R2 E2 A)|exact (lands_upper _ _ _ _ _ U3 R3 E3 A)|exact (lands_upper _ _ _ _ _ U4 R4 E4 A)]. }
  destruct LO as [a [LA LB]], HI as [b [HA HB]]. exists a, b. exact (conj LA (conj HA (conj LB HB))).
Qed.
Lemma whole_ok : ends_ok S (whole S) /\ forall v, contains S (whole S) v.
Proof.
  destruct (INFINITY_special S false HS) as [W [C G]].
  unfold infinity_of in C. rewrite NB in C. cbn [category sign] in C. clear G.
  assert (WI : wf S (INFINITY S)).
  { destruct (INFINITY S) as [f e c s]. exact W. }
  assert (SI : sign (INFINITY S) = false) by (unfold INFINITY; rewrite NB; reflexivity).
  split; [exact (conj WI WI)|]. intros v. exists NegInf, PosInf. cbn [whole fst snd].
  split; [unfold ext_of, neg, is_negative; cbn [category sign]; rewrite C, SI; reflexivity|].
  split; [unfold ext_of; rewrite C, SI; reflexivity|]. split; [apply NegInf_le|apply le_PosInf].
Qed.
Lemma guard_contains : forall k v, ends_ok S k -> category (fst k) = NaN \/ category (snd k) = NaN \/ contains S k v ->
  ends_ok S (guard S k) /\ contains S (guard S k) v.
Proof.
  intros k v W H. unfold guard, is_nan. destruct whole_ok as [WO WC].
  destruct (category_eqb (category (fst k)) NaN) eqn:A; [exact (conj WO (WC v))|].
  destruct (category_eqb (category (snd k)) NaN) eqn:B; [exact (conj WO (WC v))|]. cbn [orb]. split; [exact W|].
  destruct H as [H|[H|H]]; [rewrite H in A; discriminate|rewrite H in B; discriminate|exact H].
Qed.

Lemma low_inf : forall x a u, ext_of S x = Some a -> ext_le a (Fin u) -> category x = Infinity -> sign x = true.
Proof.
  intros x a u A L C. unfold ext_of in A. rewrite C in A. destruct (sign x); [reflexivity|].
  assert (a = PosInf) as -> by congruence. destruct L as [[]|]. discriminate.
Qed.
Lemma high_inf : forall x a u, ext_of S x = Some a -> ext_le (Fin u) a -> category x = Infinity -> sign x = false.
Proof.
  intros x a u A L C. unfold ext_of in A. rewrite C in A. destruct (sign x); [|reflexivity].
  assert (a = NegInf) as -> by congruence. destruct L as [[]|]. discriminate.
Qed.
Definition ends_below (o : outcome (Z * Float)) (v : R) : Prop :=
  exists p c, drop o = Ret p /\ wf S p /\ ext_of S p = Some c /\ ext_le c (Fin v).
Definition ends_above (o : outcome (Z * Float)) (v : R) : Prop :=
  exists p c, drop o = Ret p /\ wf S p /\ ext_of S p = Some c /\ ext_le (Fin v) c.
Lemma below_finite : forall o ou w v, returns S o -> encloses S w o ou -> (w <= v)%R -> ends_below o v.
Proof.
  intros o ou w v [st [p [E W]]] [s1 [lo [s2 [hi [a [b [E1 [E2 [A [B [L1 [L2 _]]]]]]]]]]]] H. rewrite E in E1. assert (lo = p) by congruence. subst lo.
  exists p, a. rewrite E. split; [reflexivity|]. split; [exact W|]. split; [exact A|]. exact (ext_le_trans' _ _ _ L1 (le_Fin _ _ H)).
Qed.
Lemma above_finite : forall o od w v, returns S o -> encloses S w od o -> (v <= w)%R -> ends_above o v.
Proof.
  intros o od w v [st [p [E W]]] [s1 [lo [s2 [hi [a [b [E1 [E2 [A [B [L1 [L2 _]]]]]]]]]]]] H. rewrite E in E2. assert (hi = p) by congruence. subst hi.
  exists p, b. rewrite E. split; [reflexivity|]. split; [exact W|]. split; [exact B|]. exact (ext_le_trans' _ _ _ (le_Fin _ _ H) L2).
Qed.
Lemma below_inf : forall st f v, is_special S Infinity true f -> ends_below (Ret (st, f)) v.
Proof.
  intros st f v D. exists f, NegInf. split; [reflexivity|]. split; [apply D|]. split; [exact (ext_inf true f D)|apply NegInf_le].
Qed.
Lemma above_inf : forall st f v, is_special S Infinity false f -> ends_above (Ret (st, f)) v.
Proof.
  intros st f v D. exists f, PosInf. split; [reflexivity|]. split; [apply D|]. split; [exact (ext_inf false f D)|apply le_PosInf].
Qed.
Lemma finite_value : forall x a, ext_of S x = Some a -> finite x -> a = Fin (value S x).
Proof. intros x a A F. rewrite (ext_finite S x F) in A. congruence. Qed.

Lemma add_below : forall x y a b u v, wf S x -> wf S y -> ext_of S x = Some a -> ext_of S y = Some b -> ext_le a (Fin u) -> ext_le b (Fin v) ->
  ends_below (add_r S x y TowardNegative) (u + v).
Proof.
  intros x y a b u v Wx Wy A B La Lb. pose proof (ext_not_nan _ _ _ A) as Nx. pose proof (ext_not_nan _ _ _ B) as Ny.
  pose proof (low_inf x a u A La) as Ix. pose proof (low_inf y b v B Lb) as Iy.
  destruct (category x) eqn:Cx; try congruence; destruct (category y) eqn:Cy; try congruence;
  try (destruct (add_r_infinite S x y TowardNegative HS Wx Wy ltac:(congruence) ltac:(congruence) ltac:(tauto)) as [st [f [E D]]]; rewrite E;
    rewrite Cx in D; try rewrite Cy in D; try rewrite (Ix eq_refl) in D; try rewrite (Iy eq_refl) in D; cbn [Bool.eqb] in D; apply below_inf, (proj2 D));
  (assert (Fx : finite x) by (unfold finite; tauto)); (assert (Fy : finite y) by (unfold finite; tauto));
  rewrite (finite_value _ _ A Fx) in La; rewrite (finite_value _ _ B Fy) in Lb; apply le_Fin_inv in La; apply le_Fin_inv in Lb;
  (eapply below_finite; [exact (op_total Add S _ x y HS Wx Wy)|apply (add_encloses S x y HS NB Wx Wy Fx Fy)|lra]).
Qed.
Lemma add_above : forall x y a b u v, wf S x -> wf S y -> ext_of S x = Some a -> ext_of S y = Some b -> ext_le (Fin u) a -> ext_le (Fin v) b ->
  ends_above (add_r S x y TowardPositive) (u + v).
Proof.
  intros x y a b u v Wx Wy A B La Lb. pose proof (ext_not_nan _ _ _ A) as Nx. pose proof (ext_not_nan _ _ _ B) as Ny.
  pose proof (high_inf x a u A La) as Ix. pose proof (high_inf y b v B Lb) as Iy.
  destruct (category x) eqn:Cx; try congruence; destruct (category y) eqn:Cy; try congruence;
  try (destruct (add_r_infinite S x y TowardPositive HS Wx Wy ltac:(congruence) ltac:(congruence) ltac:(tauto)) as [st [f [E D]]]; rewrite E;
    rewrite Cx in D; try rewrite Cy in D; try rewrite (Ix eq_refl) in D; try rewrite (Iy eq_refl) in D; cbn [Bool.eqb] in D; apply above_inf, (proj2 D));
  (assert (Fx : finite x) by (unfold finite; tauto)); (assert (Fy : finite y) by (unfold finite; tauto));
  rewrite (finite_value _ _ A Fx) in La; rewrite (finite_value _ _ B Fy) in Lb; apply le_Fin_inv in La; apply le_Fin_inv in Lb;
  (eapply above_finite; [exact (op_total Add S _ x y HS Wx Wy)|apply (add_encloses S x y HS NB Wx Wy Fx Fy)|lra]).
Qed.
Lemma sub_below : forall x y a b u v, wf S x -> wf S y -> ext_of S x = Some a -> ext_of S y = Some b -> ext_le a (Fin u) -> ext_le (Fin v) b ->
  ends_below (sub_r S x y TowardNegative) (u - v).
Proof.
  intros x y a b u v Wx Wy A B La Lb. pose proof (ext_not_nan _ _ _ A) as Nx. pose proof (ext_not_nan _ _ _ B) as Ny.
  pose proof (low_inf x a u A La) as Ix. pose proof (high_inf y b v B Lb) as Iy.
  destruct (category x) eqn:Cx; try congruence; destruct (category y) eqn:Cy; try congruence;
  try (destruct (sub_r_infinite S x y TowardNegative HS Wx Wy ltac:(congruence) ltac:(congruence) ltac:(tauto)) as [st [f [E D]]]; rewrite E;
    rewrite Cx in D; try rewrite Cy in D; try rewrite (Ix eq_refl) in D; try rewrite (Iy eq_refl) in D; cbn [Bool.eqb negb] in D; apply below_inf, (proj2 D));
  (assert (Fx : finite x) by (unfold finite; tauto)); (assert (Fy : finite y) by (unfold finite; tauto));
  rewrite (finite_value _ _ A Fx) in La; rewrite (finite_value _ _ B Fy) in Lb; apply le_Fin_inv in La; apply le_Fin_inv in Lb;
  (eapply below_finite; [exact (op_total Sub S _ x y HS Wx Wy)|apply (sub_encloses S x y HS NB Wx Wy Fx Fy)|lra]).
Qed.
Lemma sub_above : forall x y a b u v, wf S x -> wf S y -> ext_of S x = Some a -> ext_of S y = Some b -> ext_le (Fin u) a -> ext_le b (Fin v) ->
  ends_above (sub_r S x y TowardPositive) (u - v).
Proof.
  intros x y a b u v Wx Wy A B La Lb. pose proof (ext_not_nan _ _ _ A) as Nx. pose proof (ext_not_nan _ _ _ B) as Ny.
  pose proof (high_inf x a u A La) as Ix. pose proof (low_inf y b v B Lb) as Iy.
  destruct (category x) eqn:Cx; try congruence; destruct (category y) eqn:Cy; try congruence;
  try (destruct (sub_r_infinite S x y TowardPositive HS Wx Wy ltac:(congruence) ltac:(congruence) ltac:(tauto)) as [st [f [E D]]]; rewrite E;
    rewrite Cx in D; try rewrite Cy in D; try rewrite (Ix eq_refl) in D; try rewrite (Iy eq_refl) in D; cbn [Bool.eqb negb] in D; apply above_inf, (proj2 D));
  (assert (Fx : finite x) by (unfold finite; tauto)); (assert (Fy : finite y) by (unfold finite; tauto));
  rewrite (finite_value _ _ A Fx) in La; rewrite (finite_value _ _ B Fy) in Lb; apply le_Fin_inv in La; apply le_Fin_inv in Lb;
  (eapply above_finite; [exact (op_total Sub S _ x y HS Wx Wy)|apply (sub_encloses S x y HS NB Wx Wy Fx Fy)|lra]).
Qed.
Lemma two_ends : forall od ou v, ends_below od v -> ends_above ou v ->
  exists k, (let! lo := drop od in let! hi := drop ou in Ret (lo, hi)) = Ret k /\ ends_ok S k /\ contains S k v.
Proof.
  intros od ou v [p [c [E [W [C L]]]]] [q [d [E' [W' [D L']]]]]. rewrite E, E'. cbn [bind]. exists (p, q). split; [reflexivity|].
  split; [exact (conj W W')|]. exists c, d. exact (conj C (conj D (conj L L'))).
Qed.

Lemma op_contains : forall o i j u v, ends_ok S i -> ends_ok S j -> contains S i u -> contains S j v ->
  exists k, i_op S o i j = Ret k /\ ends_ok S k /\ contains S k (real_op o u v).
Proof.
  intros o i j u v [W1 W2] [W3 W4] [a [b [A [B [La Lb]]]]] [c [d [C [D [Lc Ld]]]]]. destruct o; cbn [i_op real_op].
  - apply two_ends; [eapply add_below|eapply add_above]; eassumption.
  - apply two_ends; [eapply sub_below|eapply sub_above]; eassumption.
  - destruct (corners_contain (mul_r S) i j (u * v) (ext_mul a c) (ext_mul a d) (ext_mul b c) (ext_mul b d)) as [k [E [W H]]].
    + intros m M. split; [|split; [|split]]; apply mul_lands; assumption.
    + apply low_corner; assumption.
    + apply high_corner; assumption.
    + rewrite E. cbn [bind]. exists (guard S k). split; [reflexivity|]. apply guard_contains; assumption.
  - assert (WZ : wf S (ZERO S)) by (apply (constants_spec S HS)).
    destruct (gt_f_spec S (fst j) (ZERO S) HS W3 WZ) as [ab [-> GA]]. destruct (lt_f_spec S (snd j) (ZERO S) HS W4 WZ) as [be [-> GB]]. cbn [bind].
    destruct (ab || be) eqn:K; [|exists (whole S); split; [reflexivity|]; destruct whole_ok as [WO WC]; exact (conj WO (WC _))].
    assert (SG : ext_lt (Fin 0) c \/ ext_lt d (Fin 0)).
    { destruct ab.
      - left. destruct (proj1 GA eq_refl) as [p [q [P [Q L]]]]. assert (p = c) by congruence. assert (q = Fin 0) by (change (Some (Fin 0) = Some q) in Q; congruence). subst p q. exact L.
      - destruct be; [|discriminate]. right. destruct (proj1 GB eq_refl) as [p [q [P [Q L]]]]. assert (p = d) by congruence. assert (q = Fin 0) by (change (Some (Fin 0) = Some q) in Q; congruence). subst p q. exact L. }
    destruct (inv_order c d v Lc Ld SG) as [Li Ri].
    assert (Nc : c <> Fin 0).
    { intros ->. destruct SG as [H|H]; [cbn in H; lra|]. destruct d as [|d|]; cbn in H; [|apply le_Fin_inv in Ld; apply le_Fin_inv in Lc; lra|exact H].
      destruct Ld as [[]|]; discriminate. }
    assert (Nd : d <> Fin 0).
    { intros ->. destruct SG as [H|H]; [|cbn in H; lra]. destruct c as [|c|]; cbn in H; [exact H|apply le_Fin_inv in Ld; apply le_Fin_inv in Lc; lra|].
      destruct Lc as [[]|]; discriminate. }
    destruct (corners_contain (div_r S) i j (u / v) (ext_mul a (ext_inv c)) (ext_mul a (ext_inv d)) (ext_mul b (ext_inv c)) (ext_mul b (ext_inv d))) as [k [E [W H]]].
    + intros m M. split; [|split; [|split]]; apply div_lands; assumption.
    + destruct (low_corner a b _ _ u (/ v) La Lb Li Ri) as [H|[H|[H|H]]]; tauto.
    + destruct (high_corner a b _ _ u (/ v) La Lb Li Ri) as [H|[H|[H|H]]]; tauto.
    + rewrite E. cbn [bind]. exists (guard S k). split; [reflexivity|]. apply guard_contains; assumption.
Qed.
Lemma eval_contains : forall e env ienv, numerals_ok e -> (forall i, ends_ok S (ienv i) /\ contains S (ienv i) (env i)) ->
  exists k, i_eval S ienv e = Ret k /\ ends_ok S k /\ contains S k (exact env e).
Proof.
  induction e as [i|n m|e IH|o m a IHa b IHb]; intros env ienv R H; cbn [i_eval exact].
  - exists (ienv i). split; [reflexivity|]. apply H.
  - assert (RT : forall m, returns S (from_i128_r S n m)).
    { intros m'. destruct (from_i128_r_spec S n m' HS R) as [[st f] [E [W _]]]. exists st, f. exact (conj E W). }
    apply two_ends.
    + eapply below_finite; [apply RT|apply (from_i128_encloses S n HS NB R)|apply Rle_refl].
    + eapply above_finite; [apply RT|apply (from_i128_encloses S n HS NB R)|apply Rle_refl].
  - destruct (IH env ienv R H) as [k [-> [[W1 W2] [a [b [A [B [La Lb]]]]]]]]. cbn [bind]. eexists. split; [reflexivity|].
    split; [exact (conj W2 W1)|]. exists (opposite b), (opposite a). cbn [fst snd].
    assert (NE : forall x p, ext_of S x = Some p -> ext_of S (neg x) = Some (opposite p)).
    { intros x p. unfold ext_of. rewrite value_neg. unfold neg, is_negative. cbn [category sign]. destruct (category x), (sign x); cbn; intros Q; try discriminate; assert (X : p = p) by reflexivity; congruence || (inversion Q; reflexivity). }
    split; [apply NE; exact B|]. split; [apply NE; exact A|]. split; [exact (opposite_le _ _ Lb)|exact (opposite_le _ _ La)].
  - destruct R as [Ra Rb]. destruct (IHa env ienv Ra H) as [i [-> [Wi Ci]]]. destruct (IHb env ienv Rb H) as [j [-> [Wj Cj]]]. cbn [bind].
    apply op_contains; assumption.
Qed.

(** ** No wider than need be: numbers are computed as numbers *)
Definition point (k : interval) (v : R) : Prop :=
  ends_ok S k /\ finite (fst k) /\ finite (snd k) /\ value S (fst k) = v /\ value S (snd k) = v.
Definition is_number (f : Float) (v : R) : Prop := wf S f /\ finite f /\ value S f = v.
Lemma minimum_number : forall p q v, is_number p v -> is_number q v -> exists f, minimum p q = Ret f /\ is_number f v.
Proof.
  intros p q v P Q. destruct (minimum_spec S p q HS (proj1 P) (proj1 Q)) as [f [E [D _]]]. exists f. split; [exact E|].
  destruct D as [-> | ->]; assumption.
Qed.
Lemma maximum_number : forall p q v, is_number p v -> is_number q v -> exists f, maximum p q = Ret f /\ is_number f v.
Proof.
  intros p q v P Q. destruct (maximum_spec S p q HS (proj1 P) (proj1 Q)) as [f [E [D _]]]. exists f. split; [exact E|].
  destruct D as [-> | ->]; assumption.
Qed.
Lemma op_number : forall o m x y u v, is_number x u -> is_number y v -> (o = Div -> v <> 0%R) -> representable S (real_op o u v) ->
  exists f, drop (op_r o S m x y) = Ret f /\ is_number f (real_op o u v).
Proof.
  intros o m x y u v [Wx [Fx Vx]] [Wy [Fy Vy]] N R. subst u v.
  assert (N' : o = Div -> category y = Normal).
  { intros Q. destruct Fy as [C|C]; [exact C|exfalso]. apply (N Q). unfold value. rewrite C. reflexivity. }
  destruct (op_exact o S m x y HS Wx Wy Fx Fy N' R) as [f [E [F V]]]. destruct (op_total o S m x y HS Wx Wy) as [st [f' [E' W]]].
  assert (f' = f) by congruence. subst f'. exists f. rewrite E. exact (conj eq_refl (conj W (conj F V))).
Qed.
Lemma corners_point : forall o i j u v, point i u -> point j v -> (o = Div -> v <> 0%R) -> representable S (real_op o u v) ->
  exists k, corners (fun x y m => op_r o S m x y) i j = Ret k /\ point k (real_op o u v).
Proof.
  intros o i j u v [[A1 A2] [A3 [A4 [A5 A6]]]] [[B1 B2] [B3 [B4 [B5 B6]]]] N R. unfold corners.
  assert (I1 : is_number (fst i) u) by (exact (conj A1 (conj A3 A5))). assert (I2 : is_number (snd i) u) by (exact (conj A2 (conj A4 A6))).
  assert (J1 : is_number (fst j) v) by (exact (conj B1 (conj B3 B5))). assert (J2 : is_number (snd j) v) by (exact (conj B2 (conj B4 B6))).
  assert (ALL : forall m, exists p q r s, drop (op_r o S m (fst i) (fst j)) = Ret p /\ drop (op_r o S m (fst i) (snd j)) = Ret q /\
    drop (op_r o S m (snd i) (fst j)) = Ret r /\ drop (op_r o S m (snd i) (snd j)) = Ret s /\
    is_number p (real_op o u v) /\ is_number q (real_op o u v) /\ is_number r (real_op o u v) /\ is_number s (real_op o u v)).
  { intros m. destruct (op_number o m _ _ u v I1 J1 N R) as [p [Ep Np]]. destruct (op_number o m _ _ u v I1 J2 N R) as [q [Eq Nq]].
    destruct (op_number o m _ _ u v I2 J1 N R) as [r [Er Nr]]. destruct (op_number o m _ _ u v I2 J2 N R) as [s [Es Ns]].
    exists p, q, r, s. tauto. }
  destruct (ALL TowardNegative) as [p [q [r [s [-> [-> [-> [-> [Np [Nq [Nr Ns]]]]]]]]]]].
  destruct (ALL TowardPositive) as [p' [q' [r' [s' [-> [-> [-> [-> [Np' [Nq' [Nr' Ns']]]]]]]]]]]. cbn [bind]. unfold least, greatest.
  destruct (minimum_number p q _ Np Nq) as [a [-> Na]]. destruct (minimum_number r s _ Nr Ns) as [b [-> Nb]]. cbn [bind].
  destruct (minimum_number a b _ Na Nb) as [lo [-> [W1 [F1 V1]]]].
  destruct (maximum_number p' q' _ Np' Nq') as [a' [-> Na']]. destruct (maximum_number r' s' _ Nr' Ns') as [b' [-> Nb']]. cbn [bind].
  destruct (maximum_number a' b' _ Na' Nb') as [hi [-> [W2 [F2 V2]]]]. cbn [bind].
  exists (lo, hi). split; [reflexivity|]. exact (conj (conj W1 W2) (conj F1 (conj F2 (conj V1 V2)))).
Qed.
Lemma guard_point : forall k v, point k v -> guard S k = k.
Proof.
  intros k v [_ [F1 [F2 _]]]. unfold guard, is_nan. destruct F1 as [-> | ->], F2 as [-> | ->]; reflexivity.
Qed.
Lemma ends_point : forall o m m' x y x' y' u v, is_number x u -> is_number y v -> is_number x' u -> is_number y' v -> o <> Div -> representable S (real_op o u v) ->
  exists k, (let! lo := drop (op_r o S m x y) in let! hi := drop (op_r o S m' x' y') in Ret (lo, hi)) = Ret k /\ point k (real_op o u v).
Proof.
  intros o m m' x y x' y' u v X Y X' Y' N R.
  destruct (op_number o m x y u v X Y ltac:(congruence) R) as [p [-> [W1 [F1 V1]]]]. destruct (op_number o m' x' y' u v X' Y' ltac:(congruence) R) as [q [-> [W2 [F2 V2]]]].
  cbn [bind]. exists (p, q). split; [reflexivity|]. exact (conj (conj W1 W2) (conj F1 (conj F2 (conj V1 V2)))).
Qed.
Lemma op_point : forall o i j u v, point i u -> point j v -> (o = Div -> v <> 0%R) -> representable S (real_op o u v) ->
  exists k, i_op S o i j = Ret k /\ point k (real_op o u v).
Proof.
  intros o i j u v I J N R. pose proof I as I0. pose proof J as J0.
  destruct I as [[A1 A2] [A3 [A4 [A5 A6]]]], J as [[B1 B2] [B3 [B4 [B5 B6]]]].
  assert (I1 : is_number (fst i) u) by (exact (conj A1 (conj A3 A5))). assert (I2 : is_number (snd i) u) by (exact (conj A2 (conj A4 A6))).
  assert (J1 : is_number (fst j) v) by (exact (conj B1 (conj B3 B5))). assert (J2 : is_number (snd j) v) by (exact (conj B2 (conj B4 B6))).
  destruct o.
  - apply (ends_point Add); try assumption. discriminate.
  - apply (ends_point Sub); try assumption. discriminate.
  - destruct (corners_point Mul i j u v I0 J0 N R) as [k [E P]]. cbn [i_op]. change (corners (mul_r S) i j) with (corners (fun x y m => op_r Mul S m x y) i j).
    rewrite E. cbn [bind]. rewrite (guard_point k _ P). exists k. exact (conj eq_refl P).
  - destruct (corners_point Div i j u v I0 J0 N R) as [k [E P]]. cbn [i_op]. change (corners (div_r S) i j) with (corners (fun x y m => op_r Div S m x y) i j).
    assert (WZ : wf S (ZERO S)) by (apply (constants_spec S HS)).
    destruct (gt_f_spec S (fst j) (ZERO S) HS B1 WZ) as [ab [-> GA]]. destruct (lt_f_spec S (snd j) (ZERO S) HS B2 WZ) as [be [-> GB]]. cbn [bind].
    specialize (N eq_refl).
    assert (K : ab || be = true).
    { apply orb_true_iff. destruct (Rlt_or_le 0 v) as [L|L].
      - left. apply GA. exists (Fin (value S (fst j))), (Fin 0). split; [apply ext_finite; exact B3|]. split; [reflexivity|]. cbn. lra.
      - right. apply GB. exists (Fin (value S (snd j))), (Fin 0). split; [apply ext_finite; exact B4|]. split; [reflexivity|]. cbn. lra. }
    rewrite K, E. cbn [bind]. rewrite (guard_point k _ P). exists k. exact (conj eq_refl P).
Qed.
Lemma eval_point : forall e env ienv, numerals_ok e -> (forall i, point (ienv i) (env i)) -> needs_no_rounding S env e ->
  exists k, i_eval S ienv e = Ret k /\ point k (exact env e).
Proof.
  induction e as [i|n m|e IH|o m a IHa b IHb]; intros env ienv R H D; cbn [i_eval exact needs_no_rounding] in *.
  - exists (ienv i). split; [reflexivity|apply H].
  - assert (NU : forall m, exists f, drop (from_i128_r S n m) = Ret f /\ is_number f (IZR n)).
    { intros m'. destruct (from_i128_r_spec S n m' HS R) as [[st f] [E [W [_ [K _]]]]]. destruct D as [G L]. rewrite (rounded_format S m' _ G) in K.
      exists f. rewrite E. split; [reflexivity|]. destruct (K L) as [F [V _]]. exact (conj W (conj F V)). }
    destruct (NU TowardNegative) as [p [-> [W1 [F1 V1]]]]. destruct (NU TowardPositive) as [q [-> [W2 [F2 V2]]]]. cbn [bind].
    exists (p, q). split; [reflexivity|]. exact (conj (conj W1 W2) (conj F1 (conj F2 (conj V1 V2)))).
  - destruct (IH env ienv R H D) as [k [-> [[W1 W2] [F1 [F2 [V1 V2]]]]]]. cbn [bind]. exists (neg (snd k), neg (fst k)). split; [reflexivity|].
    unfold point. cbn [fst snd]. rewrite !value_neg, V1, V2. exact (conj (conj W2 W1) (conj F2 (conj F1 (conj eq_refl eq_refl)))).
  - destruct R as [Ra Rb], D as [Da [Db [N P]]]. destruct (IHa env ienv Ra H Da) as [i [-> Pi]]. destruct (IHb env ienv Rb H Db) as [j [-> Pj]]. cbn [bind].
    apply op_point; assumption.
Qed.
End Ends.
