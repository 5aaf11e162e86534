(** * Sort.v -- clients that sort and select by comparing *)
From Coq Require Import ZArith Reals List Bool Lia Lra Sorting.Permutation Sorting.Sorted.
From Flocq Require Import Core.
From Verif Require Import Machine Ieee Spec Norm Arith Order Orderx Rem Samples Interval.
Import ListNotations.
Local Open Scope Z_scope.
Ltac Zify.zify_post_hook ::= idtac.

(** insertion sort, smaller ones first; src/ieee.rs:458-488 [partial_cmp] *)
Fixpoint c_insert (x : Float) (ys : list Float) : outcome (list Float) :=
  match ys with
  | [] => Ret [x]
  | y :: ys' =>
    let! less := lt_f y x in
    if less then
      let! r := c_insert x ys' in
      Ret (y :: r)
    else Ret (x :: ys)
  end.
Fixpoint c_sort (xs : list Float) : outcome (list Float) :=
  match xs with
  | [] => Ret []
  | x :: xs =>
    let! ys := c_sort xs in
    c_insert x ys
  end.
(** folds with src/lib.rs:417 [min], 431 [max], 445 [minimum], 465 [maximum] *)
Fixpoint c_fold (f : Float -> Float -> outcome Float) (acc : Float) (xs : list Float) : outcome Float :=
  match xs with
  | [] => Ret acc
  | x :: xs =>
    let! r := f acc x in
    c_fold f r xs
  end.

(** ** What is claimed *)
Definition no_nans (S : Semantics) (xs : list Float) : Prop := forall x, In x xs -> wf S x /\ category x <> NaN.
(** less or equal, NaNs unordered *)
Definition le_ext (S : Semantics) (x y : Float) : Prop :=
  match ext_of S x, ext_of S y with Some a, Some b => ext_le a b | _, _ => False end.
(** equal in value *)
Definition same (S : Semantics) (z y : Float) : bool := match eq_f z y with Ret b => b | _ => false end.

Section Sort.
Variable S : Semantics.
Hypothesis HS : sem_ok S.
Lemma ext_some : forall x, category x <> NaN -> exists a, ext_of S x = Some a.
Proof. intros x N. unfold ext_of. destruct (category x); eauto. destruct (N eq_refl). Qed.
Lemma less_spec : forall x y, wf S x -> wf S y -> category x <> NaN -> category y <> NaN ->
  exists b a c, lt_f x y = Ret b /\ ext_of S x = Some a /\ ext_of S y = Some c /\ (if b then ext_lt a c else ext_le c a).
Proof.
  intros x y Wx Wy Nx Ny. destruct (ext_some x Nx) as [a Ea]. destruct (ext_some y Ny) as [c Ec].
  destruct (partial_cmp_spec S x y HS Wx Wy) as [r [E H]]. rewrite Ea, Ec in H. destruct r as [o|]; [|contradiction].
  unfold lt_f. rewrite E. cbn [bind]. eexists; exists a, c. split; [reflexivity|]. split; [exact Ea|]. split; [exact Ec|].
  destruct o; cbn [ext_compare] in H; [right; congruence|exact H|left; exact H].
Qed.
Lemma same_ext : forall x y, wf S x -> wf S y -> same S x y = true -> exists a, ext_of S x = Some a /\ ext_of S y = Some a.
Proof.
  intros x y Wx Wy H. unfold same, eq_f in H. destruct (partial_cmp_spec S x y HS Wx Wy) as [r [E K]]. rewrite E in H. cbn [bind] in H.
  destruct (ext_of S x) as [a|], (ext_of S y) as [c|], r as [[]|]; try discriminate; try contradiction. cbn [ext_compare] in K. subst. eauto.
Qed.
Lemma insert_spec : forall x ys, wf S x -> category x <> NaN -> no_nans S ys -> StronglySorted (le_ext S) ys ->
  exists zs, c_insert x ys = Ret zs /\ Permutation (x :: ys) zs /\ StronglySorted (le_ext S) zs /\
    forall z, wf S z -> filter (same S z) zs = filter (same S z) (x :: ys).
Proof.
  intros x ys Wx Nx. induction ys as [|y ys IH]; intros H SS; cbn [c_insert].
  - exists [x]. split; [reflexivity|]. split; [apply Permutation_refl|]. split; [repeat constructor|reflexivity].
  - destruct (H y (or_introl eq_refl)) as [Wy Ny]. assert (H' : no_nans S ys) by (intros z I; apply H; right; exact I).
    pose proof (StronglySorted_inv SS) as [S1 S2]. destruct (less_spec y x Wy Wx Ny Nx) as [b [a [c [E [Ea [Ec K]]]]]]. rewrite E. cbn [bind]. destruct b.
    + destruct (IH H' S1) as [zs [E2 [P [Q R]]]]. rewrite E2. cbn [bind]. exists (y :: zs). split; [reflexivity|].
      split; [eapply perm_trans; [apply perm_swap|]; apply perm_skip; exact P|]. split.
      * constructor; [exact Q|]. apply Forall_forall. intros z I. apply (Permutation_in z (Permutation_sym P)) in I. destruct I as [<-|I].
        -- unfold le_ext. rewrite Ea, Ec. left. exact K.
        -- rewrite Forall_forall in S2. exact (S2 z I).
      * intros z Wz. cbn [filter]. rewrite (R z Wz). cbn [filter].
        destruct (same S z y) eqn:Sy; destruct (same S z x) eqn:Sx; try reflexivity. exfalso.
        destruct (same_ext z y Wz Wy Sy) as [e [E3 E4]]. destruct (same_ext z x Wz Wx Sx) as [e' [E5 E6]].
        assert (a = c) by congruence. subst c. exact (ext_lt_irrefl _ K).
    + exists (x :: y :: ys). split; [reflexivity|]. split; [apply Permutation_refl|]. split; [|reflexivity].
      constructor; [exact SS|]. apply Forall_forall. assert (LE : le_ext S x y) by (unfold le_ext; rewrite Ea, Ec; exact K).
      intros z [<-|I]; [exact LE|]. rewrite Forall_forall in S2. pose proof (S2 z I) as L2. unfold le_ext in *. rewrite Ea, Ec in *.
      destruct (ext_of S z) as [d|]; [|contradiction]. eapply ext_le_trans'; eassumption.
Qed.
Theorem sort_spec : forall xs, no_nans S xs ->
  exists ys, c_sort xs = Ret ys /\ Permutation xs ys /\ StronglySorted (le_ext S) ys /\
    forall z, wf S z -> filter (same S z) ys = filter (same S z) xs.
Proof.
  induction xs as [|x xs IH]; intros H; cbn [c_sort].
  - exists []. split; [reflexivity|]. split; [apply perm_nil|]. split; [constructor|reflexivity].
  - destruct (H x (or_introl eq_refl)) as [Wx Nx]. destruct IH as [ys [E [P [Q R]]]]; [intros z I; apply H; right; exact I|]. rewrite E. cbn [bind].
    destruct (insert_spec x ys Wx Nx) as [zs [E2 [P2 [Q2 R2]]]]; [intros z I; apply H; right; apply (Permutation_in z (Permutation_sym P)); exact I|exact Q|].
    exists zs. split; [exact E2|]. split; [eapply perm_trans; [apply perm_skip; exact P|exact P2]|]. split; [exact Q2|].
    intros z Wz. rewrite (R2 z Wz). cbn [filter]. rewrite (R z Wz). reflexivity.
Qed.
(** a relation that the fold keeps to everything met *)
Lemma fold_spec : forall (f : Float -> Float -> outcome Float) (R : Float -> Float -> Prop),
  (forall x y, wf S x -> wf S y -> exists r, f x y = Ret r /\ (r = x \/ r = y) /\ R x r /\ R y r) ->
  (forall x y z, wf S x -> wf S y -> wf S z -> R x y -> R y z -> R x z) -> (forall x, R x x) ->
  forall xs acc, wf S acc -> (forall x, In x xs -> wf S x) ->
  exists r, c_fold f acc xs = Ret r /\ In r (acc :: xs) /\ forall x, In x (acc :: xs) -> R x r.
Proof.
  intros f R H TR RF. induction xs as [|x xs IH]; intros acc Wa W; cbn [c_fold].
  - exists acc. split; [reflexivity|]. split; [left; reflexivity|]. intros x [<-|[]]. apply RF.
  - assert (Wx : wf S x) by (apply W; left; reflexivity). destruct (H acc x Wa Wx) as [r [E [C [R1 R2]]]]. rewrite E. cbn [bind].
    assert (Wr : wf S r) by (destruct C; subst; assumption).
    destruct (IH r Wr) as [q [E2 [I K]]]; [intros z J; apply W; right; exact J|]. exists q. split; [exact E2|].
    assert (I' : In q (acc :: x :: xs)).
    { destruct I as [<-|I]; [destruct C; subst; [left|right; left]; reflexivity|right; right; exact I]. }
    split; [exact I'|]. assert (Wq : wf S q) by (destruct I' as [<-|[<-|I']]; [exact Wa|exact Wx|apply W; right; exact I']).
    intros z [<-|[<-|J]]; [| |apply K; right; exact J].
    + apply TR with r; try assumption. apply K. left. reflexivity.
    + apply TR with r; try assumption. apply K. left. reflexivity.
Qed.
(** at least as great, NaNs below everything *)
Definition below (x r : Float) : Prop := match ext_of S x, ext_of S r with None, _ => True | Some a, Some b => ext_le a b | Some _, None => False end.
Definition above (x r : Float) : Prop := match ext_of S x, ext_of S r with None, _ => True | Some a, Some b => ext_le b a | Some _, None => False end.
Lemma ext_le_refl' : forall a, ext_le a a. Proof. intros a. right. reflexivity. Qed.
Theorem max_fold : forall xs acc, wf S acc -> (forall x, In x xs -> wf S x) ->
  exists r, c_fold max acc xs = Ret r /\ In r (acc :: xs) /\ forall x, In x (acc :: xs) -> below x r.
Proof.
  apply fold_spec.
  - intros x y Wx Wy. destruct (max_spec S x y HS Wx Wy) as [r [E [C K]]]. exists r. split; [exact E|]. split; [exact C|]. unfold below.
    destruct (ext_of S x) as [a|] eqn:Ex, (ext_of S y) as [b|] eqn:Ey.
    + destruct K as [c [-> [K1 K2]]]. auto.
    + subst r. rewrite Ex. split; [apply ext_le_refl'|exact I].
    + subst r. rewrite Ey. split; [exact I|apply ext_le_refl'].
    + auto.
  - intros x y z _ _ _. unfold below. destruct (ext_of S x), (ext_of S y), (ext_of S z); try tauto. apply ext_le_trans'.
  - intros x. unfold below. destruct (ext_of S x); [apply ext_le_refl'|exact I].
Qed.
Theorem min_fold : forall xs acc, wf S acc -> (forall x, In x xs -> wf S x) ->
  exists r, c_fold min acc xs = Ret r /\ In r (acc :: xs) /\ forall x, In x (acc :: xs) -> above x r.
Proof.
  apply fold_spec.
  - intros x y Wx Wy. destruct (min_spec S x y HS Wx Wy) as [r [E [C K]]]. exists r. split; [exact E|]. split; [exact C|]. unfold above.
    destruct (ext_of S x) as [a|] eqn:Ex, (ext_of S y) as [b|] eqn:Ey.
    + destruct K as [c [-> [K1 K2]]]. auto.
    + subst r. rewrite Ex. split; [apply ext_le_refl'|exact I].
    + subst r. rewrite Ey. split; [exact I|apply ext_le_refl'].
    + auto.
  - intros x y z _ _ _. unfold above. destruct (ext_of S x), (ext_of S y), (ext_of S z); try tauto. intros K1 K2. eapply ext_le_trans'; eassumption.
  - intros x. unfold above. destruct (ext_of S x); [apply ext_le_refl'|exact I].
Qed.
(** at least as great, NaNs above everything, +0 above -0 *)
Definition below_strict (x r : Float) : Prop :=
  match ext_of S r, ext_of S x with
  | None, _ => True
  | Some b, Some a => ext_le a b /\ (category r = Zero -> category x = Zero -> sign r = true -> sign x = true)
  | Some _, None => False
  end.
Definition above_strict (x r : Float) : Prop :=
  match ext_of S r, ext_of S x with
  | None, _ => True
  | Some b, Some a => ext_le b a /\ (category r = Zero -> category x = Zero -> sign r = false -> sign x = false)
  | Some _, None => False
  end.
Lemma zero_ext : forall x, wf S x -> ext_of S x = Some (Fin 0) -> category x = Zero.
Proof.
  intros x W E. unfold ext_of in E. destruct (category x) eqn:C; try discriminate; [destruct (sign x); discriminate| |reflexivity].
  exfalso. apply (Algebra.normal_nonzero S x W C). congruence.
Qed.
Lemma ext_zero : forall x, category x = Zero -> ext_of S x = Some (Fin 0).
Proof. intros x C. unfold ext_of, value. rewrite C. reflexivity. Qed.
Lemma ext_le_antisym' : forall a b, ext_le a b -> ext_le b a -> a = b.
Proof.
  intros a b [H|H] [K|K]; try congruence. destruct (ext_lt_irrefl a (ext_lt_trans _ _ _ H K)).
Qed.
Lemma below_trans : forall x y z, wf S x -> wf S y -> wf S z -> below_strict x y -> below_strict y z -> below_strict x z.
Proof.
  intros x y z Wx Wy Wz. unfold below_strict.
  destruct (ext_of S z) as [c|] eqn:Ez; [|tauto]. destruct (ext_of S y) as [b|] eqn:Ey; [|tauto]. destruct (ext_of S x) as [a|] eqn:Ex; [|tauto].
  intros [L1 Z1] [L2 Z2]. split; [eapply ext_le_trans'; eassumption|]. intros Cz Cx Sz.
  rewrite (ext_zero z Cz) in Ez. rewrite (ext_zero x Cx) in Ex. assert (b = Fin 0) by (apply ext_le_antisym'; congruence). subst b.
  pose proof (zero_ext y Wy Ey) as Cy. auto.
Qed.
Lemma above_trans : forall x y z, wf S x -> wf S y -> wf S z -> above_strict x y -> above_strict y z -> above_strict x z.
Proof.
  intros x y z Wx Wy Wz. unfold above_strict.
  destruct (ext_of S z) as [c|] eqn:Ez; [|tauto]. destruct (ext_of S y) as [b|] eqn:Ey; [|tauto]. destruct (ext_of S x) as [a|] eqn:Ex; [|tauto].
  intros [L1 Z1] [L2 Z2]. split; [eapply ext_le_trans'; eassumption|]. intros Cz Cx Sz.
  rewrite (ext_zero z Cz) in Ez. rewrite (ext_zero x Cx) in Ex. assert (b = Fin 0) by (apply ext_le_antisym'; congruence). subst b.
  pose proof (zero_ext y Wy Ey) as Cy. auto.
Qed.
Theorem maximum_fold : forall xs acc, wf S acc -> (forall x, In x xs -> wf S x) ->
  exists r, c_fold maximum acc xs = Ret r /\ In r (acc :: xs) /\ forall x, In x (acc :: xs) -> below_strict x r.
Proof.
  apply fold_spec.
  - intros x y Wx Wy. destruct (maximum_spec S x y HS Wx Wy) as [r [E [C K]]]. exists r. split; [exact E|]. split; [exact C|]. unfold below_strict.
    destruct (ext_of S x) as [a|] eqn:Ex, (ext_of S y) as [b|] eqn:Ey.
    + destruct K as [[c [Er [K1 K2]]] Z0]. rewrite Er. split; (split; [assumption|]); intros Cr Cx Sr.
      * destruct C as [C|C]; [congruence|]. subst r. specialize (Z0 Cx Cr). rewrite Sr in Z0. symmetry in Z0. apply andb_true_iff in Z0. tauto.
      * destruct C as [C|C]; [|congruence]. subst r. specialize (Z0 Cr Cx). rewrite Sr in Z0. symmetry in Z0. apply andb_true_iff in Z0. tauto.
    + subst r. rewrite Ey. auto.
    + subst r. rewrite Ex. auto.
    + subst r. rewrite Ex. auto.
  - exact below_trans.
  - intros x. unfold below_strict. destruct (ext_of S x); [split; [apply ext_le_refl'|auto]|exact I].
Qed.
Theorem minimum_fold : forall xs acc, wf S acc -> (forall x, In x xs -> wf S x) ->
  exists r, c_fold minimum acc xs = Ret r /\ In r (acc :: xs) /\ forall x, In x (acc :: xs) -> above_strict x r.
Proof.
  apply fold_spec.
  - intros x y Wx Wy. destruct (minimum_spec S x y HS Wx Wy) as [r [E [C K]]]. exists r. split; [exact E|]. split; [exact C|]. unfold above_strict.
    destruct (ext_of S x) as [a|] eqn:Ex, (ext_of S y) as [b|] eqn:Ey.
    + destruct K as [[c [Er [K1 K2]]] Z0]. rewrite Er. split; (split; [assumption|]); intros Cr Cx Sr.
      * destruct C as [C|C]; [congruence|]. subst r. specialize (Z0 Cx Cr). rewrite Sr in Z0. symmetry in Z0. apply orb_false_iff in Z0. tauto.
      * destruct C as [C|C]; [|congruence]. subst r. specialize (Z0 Cr Cx). rewrite Sr in Z0. symmetry in Z0. apply orb_false_iff in Z0. tauto.
    + subst r. rewrite Ey. auto.
    + subst r. rewrite Ex. auto.
    + subst r. rewrite Ex. auto.
  - exact above_trans.
  - intros x. unfold above_strict. destruct (ext_of S x); [split; [apply ext_le_refl'|auto]|exact I].
Qed.
End Sort.
(** a NaN keeps numbers apart *)
Lemma sort_nan_refuted : exists x n y ys, wf HalfS x /\ wf HalfS n /\ wf HalfS y /\ category n = NaN /\
  c_sort [x; n; y] = Ret ys /\ ys = [x; n; y] /\ (value HalfS y < value HalfS x)%R /\ finite x /\ finite y.
Proof.
  exists h_three, h_qnan, h_one, [h_three; h_qnan; h_one]. split; [exact h_three_wf|]. split; [unfold h_qnan; sample_wf|]. split; [exact h_one_wf|].
  split; [reflexivity|]. split; [vm_compute; reflexivity|]. split; [reflexivity|]. split; [unfold value; cbn; lra|]. split; left; reflexivity.
Qed.
