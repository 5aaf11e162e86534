(** * StatusDoc.v -- which statuses the operations return

    src/lib.rs:48-57 documents: UNDERFLOW or OVERFLOW are always returned or-ed
    with INEXACT, and invalid operations deliver quiet NaNs.  These lemmas hold
    for operands of any shape, well-formed or not. *)
From Coq Require Import ZArith String List Bool Lia.
From Verif Require Import Machine Sig Ieee Parse Ppc.
Import ListNotations.
Local Open Scope Z_scope.
Ltac Zify.zify_post_hook ::= idtac.

Ltac inv1 := match goal with
  | H : bind ?e _ = Ret _ |- _ => destruct e eqn:?; [cbn [bind] in H|discriminate H|discriminate H]
  | H : assertb ?b _ = Ret _ |- _ => unfold assertb in H
  | H : Panic = Ret _ |- _ => discriminate H
  | H : Diverge = Ret _ |- _ => discriminate H
  | H : Ret _ = Ret _ |- _ => inversion H; subst; clear H
  | H : (let '(_, _) := ?p in _) = Ret _ |- _ => destruct p eqn:?
  | H : (if ?b then _ else _) = Ret _ |- _ => destruct b eqn:?
  end.
Ltac inv := repeat inv1.

(** the statuses of a rounded result *)
Definition rounding_status (st : Z) : Prop := st = OK \/ st = INEXACT \/ st = Z.lor OVERFLOW INEXACT \/ st = Z.lor UNDERFLOW INEXACT.
Definition documented_status (st : Z) : Prop := rounding_status st \/ st = INVALID_OP.
Lemma rs_inexact : forall st, rounding_status st -> rounding_status (Z.lor st INEXACT).
Proof. intros st [->|[->|[->| ->]]]; unfold rounding_status; cbn; auto. Qed.
Local Hint Resolve rs_inexact : core.
Lemma rs_ok : rounding_status OK. Proof. left. reflexivity. Qed.
Lemma rs_in : rounding_status INEXACT. Proof. right. left. reflexivity. Qed.
Lemma rs_over : rounding_status (Z.lor OVERFLOW INEXACT). Proof. right. right. left. reflexivity. Qed.
Lemma rs_under : rounding_status (Z.lor UNDERFLOW INEXACT). Proof. right. right. right. reflexivity. Qed.
Local Hint Resolve rs_ok rs_in rs_over rs_under : core.

Lemma overflow_status : forall S m, rounding_status (fst (overflow_result S m)).
Proof. intros S []; cbn [overflow_result fst]; auto. Qed.
Lemma overflow_signed_status : forall S m x, rounding_status (fst (overflow_result_signed S m x)).
Proof. intros S m x. unfold overflow_result_signed. pose proof (overflow_status S m). destruct (overflow_result S m). assumption. Qed.
Lemma overflow_fst : forall S m x st r, overflow_result_signed S m x = (st, r) -> rounding_status st.
Proof. intros S m x st r E. pose proof (overflow_signed_status S m x) as H. rewrite E in H. exact H. Qed.
Lemma tail_status : forall S x o m l st r, normalize_tail S x o m l = Ret (st, r) -> rounding_status st.
Proof.
  intros S x o m l st r H. unfold normalize_tail in H. cbv zeta in H. inv; auto; eapply overflow_fst; eassumption.
Qed.
Theorem normalize_status : forall S x m l st r, normalize S x m l = Ret (st, r) -> rounding_status st.
Proof.
  intros S x m l st r H. unfold normalize in H. cbv zeta in H. inv; auto; try (eapply overflow_fst; eassumption); eapply tail_status; eassumption.
Qed.

Lemma nan_status : forall S x st r, result_from_nan S x = Ret (st, r) -> (st = OK \/ st = INVALID_OP).
Proof. intros S x st r H. unfold result_from_nan in H. cbv zeta in H. inv; auto. Qed.
Lemma either_status : forall S a b st r, binop_result_from_either_nan S a b = Ret (st, r) -> st = OK \/ st = INVALID_OP.
Proof.
  intros S a b st r H. unfold binop_result_from_either_nan in H. cbv zeta in H. inv;
  match goal with E : result_from_nan _ _ = Ret _ |- _ => destruct (nan_status _ _ _ _ E) as [->| ->] end; destruct (is_signaling S b); auto.
Qed.
Lemma doc_rounding : forall st, rounding_status st -> documented_status st. Proof. left. assumption. Qed.
Lemma doc_nan : forall st, st = OK \/ st = INVALID_OP -> documented_status st.
Proof. intros st [->| ->]; [left; auto|right; reflexivity]. Qed.
Lemma doc_invalid : documented_status INVALID_OP. Proof. right. reflexivity. Qed.
Local Hint Resolve doc_rounding doc_invalid : core.
Lemma doc_lossy : forall st (b : bool), rounding_status st -> documented_status (if b then Z.lor st INEXACT else st).
Proof. intros st [] H; auto. Qed.
Local Hint Resolve doc_lossy : core.

Ltac close := auto; match goal with
  | E : normalize _ _ _ _ = Ret (_, _) |- _ => apply normalize_status in E
  | E : binop_result_from_either_nan _ _ _ = Ret (_, _) |- _ => apply either_status in E; apply doc_nan
  | E : result_from_nan _ _ = Ret (_, _) |- _ => apply nan_status in E; apply doc_nan
  end; auto.
Theorem add_status : forall S x y m st r, add_r S x y m = Ret (st, r) -> documented_status st.
Proof. intros S x y m st r H. unfold add_r in H. cbv zeta in H. destruct (category x), (category y); inv; close. Qed.
Theorem sub_status : forall S x y m st r, sub_r S x y m = Ret (st, r) -> documented_status st.
Proof. intros S x y m st r H. unfold sub_r in H. destruct (category x), (category y); try (eapply add_status; exact H); close. Qed.
Theorem mul_status : forall S x y m st r, mul_r S x y m = Ret (st, r) -> documented_status st.
Proof. intros S x y m st r H. unfold mul_r in H. cbv zeta in H. destruct (category (negate_if x (is_negative y))), (category y); inv; close. Qed.
Theorem div_status : forall S x y m st r, div_r S x y m = Ret (st, r) -> documented_status st \/ st = DIV_BY_ZERO.
Proof.
  intros S x y m st r H. unfold div_r in H. cbv zeta in H.
  destruct (category (negate_if x (is_negative y))), (category y); inv; try (right; reflexivity); left; close.
Qed.
Theorem mul_add_status : forall S x y z m st r, mul_add_r S x y z m = Ret (st, r) -> documented_status st.
Proof.
  intros S x y z m st r H. unfold mul_add_r in H.
  destruct (negb (is_finite_non_zero x) || negb (is_finite_non_zero y) || negb (is_finite z)).
  - destruct (is_finite_non_zero x && is_finite_non_zero y); inv; solve [eapply add_status; eassumption|eapply mul_status; eassumption|auto].
  - cbv zeta in H. repeat inv1; close.
Qed.
Theorem c_fmod_status : forall S x y st r, c_fmod S x y = Ret (st, r) -> st = OK \/ st = INVALID_OP.
Proof. intros S x y st r H. unfold c_fmod in H. destruct (category x), (category y); inv; auto; eapply either_status; eassumption. Qed.
Theorem ieee_rem_status : forall S x y st r, ieee_rem S x y = Ret (st, r) -> st = OK \/ st = INVALID_OP.
Proof.
  intros S x y st r H. unfold ieee_rem in H. destruct (category x), (category y); try (cbv zeta in H; inv; solve [auto|eapply either_status; eassumption]).
  all: cbv zeta in H; repeat match goal with
    | H : bind ?e _ = Ret _ |- _ => destruct e as [[? ?]| |]; [cbn [bind] in H|discriminate H|discriminate H]
    | H : bind ?e _ = Ret _ |- _ => destruct e; [cbn [bind] in H|discriminate H|discriminate H]
    end; inv; auto.
Qed.
Theorem round_to_integral_status : forall S x m st r, round_to_integral S x m = Ret (st, r) -> documented_status st.
Proof.
  intros S x m st r H. unfold round_to_integral in H. destruct (category x); inv; try close. eapply add_status. eassumption.
Qed.
Theorem next_up_status : forall S x st r, next_up S x = Ret (st, r) -> st = OK \/ st = INVALID_OP.
Proof. intros S x st r H. unfold next_up in H. cbv zeta in H. destruct (category x); inv; auto. Qed.
Theorem next_down_status : forall S x st r, next_down S x = Ret (st, r) -> st = OK \/ st = INVALID_OP.
Proof. intros S x st r H. unfold next_down in H. inv. eapply next_up_status; eassumption. Qed.
Theorem from_u128_status : forall S n m st r, from_u128_r S n m = Ret (st, r) -> rounding_status st.
Proof. intros S n m st r H. eapply normalize_status. exact H. Qed.
Theorem from_i128_status : forall S n m st r, from_i128_r S n m = Ret (st, r) -> rounding_status st.
Proof. intros S n m st r H. unfold from_i128_r in H. inv; eapply from_u128_status; eassumption. Qed.
Lemma result_cat : forall S x st r, result_from_nan S x = Ret (st, r) -> category r = NaN /\ category x = NaN.
Proof.
  intros S x st r H. unfold result_from_nan in H. cbv zeta in H. inv; cbn [category]; unfold is_nan, category_eqb in *; destruct (category _); try discriminate; auto.
Qed.
Theorem convert_status : forall S T x m st r l, convert_r S T x m = Ret (st, r, l) -> documented_status st.
Proof.
  intros S T x m st r l H. unfold convert_r in H. cbv zeta in H.
  assert (K : exists st0 x0, (if is_nan x then result_from_nan S x else Ret (OK, x)) = Ret (st0, x0) /\
    (category x0 = NaN /\ (st0 = OK \/ st0 = INVALID_OP) \/ category x0 <> NaN /\ st0 = OK)).
  { destruct (is_nan x) eqn:N.
    - destruct (result_from_nan S x) as [[s1 r1]| |] eqn:E; cbn [bind] in H; try discriminate. exists s1, r1. split; [reflexivity|].
      left. split; [apply (result_cat _ _ _ _ E)|apply (nan_status _ _ _ _ E)].
    - exists OK, x. split; [reflexivity|]. right. split; [|reflexivity]. unfold is_nan, category_eqb in N. intro E. rewrite E in N. discriminate. }
  destruct K as (st0 & x0 & E0 & K). rewrite E0 in H. cbn [bind] in H. clear E0.
  destruct (convert_adjust S T x0) as [[sh e]| |]; cbn [bind] in H; try discriminate.
  match type of H with bind ?e _ = _ => destruct e as [[l0 loss]| |]; cbn [bind] in H; try discriminate end.
  match type of H with bind ?e _ = _ => destruct e as [l1| |]; cbn [bind] in H; try discriminate end.
  destruct (get l1 0) as [s0| |]; cbn [bind] in H; try discriminate.
  destruct K as [[C K]|[C K]].
  - rewrite C in H. cbn in H. inversion H. subst. apply doc_nan. exact K.
  - subst st0. destruct (category x0) eqn:C0; try congruence.
    + inv; match goal with |- documented_status (if ?b then _ else _) => destruct b end; cbn; auto.
    + inv. apply doc_rounding. eapply normalize_status. eassumption.
    + inv; match goal with |- documented_status (if ?b then _ else _) => destruct b end; cbn; auto.
Qed.
Theorem to_u128_status : forall S x w m st v e, to_u128_r S x w m = Ret (st, v, e) -> st = OK \/ st = INEXACT \/ st = INVALID_OP.
Proof. intros S x w m st v e H. unfold to_u128_r in H. cbv zeta in H. destruct (category x); inv; auto. Qed.
Theorem to_i128_status : forall S x w m st v e, to_i128_r S x w m = Ret (st, v, e) -> st = OK \/ st = INEXACT \/ st = INVALID_OP.
Proof. intros S x w m st v e H. unfold to_i128_r in H. inv; auto; eapply to_u128_status; eassumption. Qed.
Lemma attempts_status : forall fuel S a d p e m c1 c2 c3 st r, dec_attempts fuel S a d p e m c1 c2 c3 = Ret (st, r) -> rounding_status st.
Proof.
  induction fuel as [|fuel IH]; intros S a d p e m c1 c2 c3 st r H; [discriminate|]. cbn [dec_attempts] in H. cbv zeta in H.
  repeat match goal with
    | H : bind ?e _ = Ret _ |- _ => destruct e; [cbn [bind] in H|discriminate H|discriminate H]
    | H : (let '(_, _) := ?p in _) = Ret _ |- _ => destruct p
    | H : assertb ?b _ = Ret _ |- _ => unfold assertb in H; destruct b; [|discriminate H]
    | H : (if ?b then _ else _) = Ret _ |- _ => destruct b
    end;
  solve [discriminate|eapply normalize_status; eassumption|eapply IH; eassumption].
Qed.
Lemma hexadecimal_status : forall S s m st r, from_hexadecimal_string S s m = Ret (Ok (st, r)) -> rounding_status st.
Proof.
  intros S s m st r H. unfold from_hexadecimal_string, rbind in H.
  destruct (hex_loop _ _ _ _) as [[h|e]| |]; cbn [bind] in H; try discriminate.
  destruct (negb (h_any_digits h)); [discriminate|]. destruct (negb (h_has_exp h)); [discriminate|].
  destruct (h_first h); [|inversion H; auto]. cbv zeta in H.
  match type of H with bind ?e _ = _ => destruct e as [adj| |]; cbn [bind] in H; try discriminate end.
  match type of H with bind ?e _ = _ => destruct e as [[s1 r1]| |] eqn:E; cbn [bind] in H; try discriminate end.
  inversion H; subst. eapply normalize_status; eassumption.
Qed.
Lemma decimal_status : forall S s m st r, from_decimal_string S s m = Ret (Ok (st, r)) -> rounding_status st.
Proof.
  intros S s m st r H. unfold from_decimal_string, rbind in H.
  destruct (dec_loop _ _ _ _) as [[d|e]| |]; cbn [bind] in H; try discriminate.
  destruct (negb (d_any_digits d)); [discriminate|]. destruct (d_first d); [|inversion H; auto]. cbv zeta in H.
  repeat match goal with
    | H : bind ?e _ = Ret _ |- _ => destruct e eqn:?; [cbn [bind] in H|discriminate H|discriminate H]
    | H : (let '(_, _) := ?p in _) = Ret _ |- _ => destruct p
    | H : (if ?b then _ else _) = Ret _ |- _ => destruct b
    end.
  - pose proof (overflow_status S m) as K. inversion H as [E]. rewrite E in K. exact K.
  - inversion H. auto.
  - inversion H; subst. eapply attempts_status; eassumption.
Qed.
Theorem from_str_status : forall S s m st r, from_str_r S s m = Ret (Ok (st, r)) -> rounding_status st.
Proof.
  intros S s m st r H. unfold from_str_r in H. destruct (is_empty s); [discriminate|].
  destruct (match strip_prefix (bytes "-") s with Some s => (true, s) | None => (false, s) end) as [minus s1].
  match type of H with (let '(_, _) := ?p in _) = _ => destruct p as [plus s2] end.
  match type of H with match ?o with Some _ => _ | None => _ end = _ => destruct o end; [inversion H; auto|].
  destruct (is_empty s2); [discriminate|].
  match type of H with (let '(_, _) := ?p in _) = _ => destruct p as [hex s3] end.
  unfold rbind in H. destruct hex; [destruct (is_empty s3); [discriminate|]|].
  - destruct (from_hexadecimal_string _ _ _) as [[[s4 r4]|]| |] eqn:E; cbn [bind] in H; try discriminate. inversion H; subst.
    eapply hexadecimal_status; eassumption.
  - destruct (from_decimal_string _ _ _) as [[[s4 r4]|]| |] eqn:E; cbn [bind] in H; try discriminate. inversion H; subst.
    eapply decimal_status; eassumption.
Qed.

(** ** Pairs: the statuses of their components together *)
Definition flags_coherent (st : Z) : Prop :=
  0 <= st < 32 /\ (Z.testbit st 2 = true -> Z.testbit st 4 = true) /\ (Z.testbit st 3 = true -> Z.testbit st 4 = true).
Lemma coherent_lor : forall a b, flags_coherent a -> flags_coherent b -> flags_coherent (Z.lor a b).
Proof.
  intros a b ((A0 & A1) & A2 & A3) ((B0 & B1) & B2 & B3). split; [|split; rewrite !Z.lor_spec; intro H; apply orb_true_iff in H; apply orb_true_iff; tauto].
  split; [apply Z.lor_nonneg; auto|].
  assert (K : Z.lor a b = Z.land (Z.lor a b) (Z.ones 5)).
  { rewrite Z.land_lor_distr_l, !Z.land_ones by lia. rewrite !Z.mod_small by lia. reflexivity. }
  rewrite K, Z.land_ones by lia. apply (Z.mod_pos_bound _ 32). lia.
Qed.
Lemma rounding_coherent : forall st, rounding_status st -> flags_coherent st.
Proof. intros st [->|[->|[->| ->]]]; (split; [split; [discriminate|reflexivity]|split; cbn; auto]). Qed.
Lemma documented_coherent : forall st, documented_status st -> flags_coherent st.
Proof. intros st [H| ->]; [apply rounding_coherent; exact H|]; (split; [split; [discriminate|reflexivity]|split; cbn; auto]). Qed.
Lemma coherent_ok : flags_coherent OK. Proof. apply rounding_coherent. auto. Qed.
Lemma coherent_invalid : flags_coherent INVALID_OP. Proof. apply documented_coherent. auto. Qed.
Ltac coh := solve [repeat apply coherent_lor; solve [exact coherent_ok | exact coherent_invalid | apply documented_coherent;
  solve [eapply add_status; eassumption|eapply sub_status; eassumption|eapply mul_status; eassumption|eapply mul_add_status; eassumption]]].
Ltac pinv := repeat match goal with
    | H : bind ?e _ = Ret _ |- _ => destruct e eqn:?; [cbn [bind] in H|discriminate H|discriminate H]
    | H : (let '(_, _) := ?p in _) = Ret _ |- _ => destruct p
    | H : Ret _ = Ret _ |- _ => inversion H; subst; clear H
    | H : (if ?b then _ else _) = Ret _ |- _ => destruct b
    | H : match ?c with Eq => _ | Lt => _ | Gt => _ end = Ret _ |- _ => destruct c
    end.
Lemma dd_add_normal_status : forall F x y m st r, dd_add_normal F x y m = Ret (st, r) -> flags_coherent st.
Proof. intros F x y m st r H. unfold dd_add_normal in H. cbv zeta in H. pinv; coh. Qed.
Lemma dd_add_status : forall F x y m st r, dd_add_r F x y m = Ret (st, r) -> flags_coherent st.
Proof. intros F x y m st r H. unfold dd_add_r in H. destruct (dd_category x), (dd_category y); pinv; try coh; eapply dd_add_normal_status; eassumption. Qed.
Lemma dd_sub_status : forall F x y m st r, dd_sub_r F x y m = Ret (st, r) -> flags_coherent st.
Proof. intros F x y m st r H. eapply dd_add_status. exact H. Qed.
Lemma dd_mul_normal_status : forall F x y m st r, dd_mul_normal F x y m = Ret (st, r) -> flags_coherent st.
Proof. intros F x y m st r H. unfold dd_mul_normal in H. cbv zeta in H. pinv; coh. Qed.
Lemma dd_mul_status : forall F x y m st r, dd_mul_r F x y m = Ret (st, r) -> flags_coherent st.
Proof. intros F x y m st r H. unfold dd_mul_r in H. destruct (dd_category x), (dd_category y); pinv; try coh; eapply dd_mul_normal_status; eassumption. Qed.
Lemma map_status : forall F e st r, map_from_fallback F e = Ret (st, r) -> exists q, e = Ret (st, q).
Proof. intros F e st r H. unfold map_from_fallback in H. pinv. eauto. Qed.
Ltac viafb l := intros; pinv; match goal with E : map_from_fallback _ _ = Ret _ |- _ => apply map_status in E; destruct E as (? & E); revert E; apply l end.
Lemma dd_mul_add_status : forall F x y z m st r, dd_mul_add_r F x y z m = Ret (st, r) -> documented_status st.
Proof. unfold dd_mul_add_r. viafb mul_add_status. Qed.
Lemma dd_div_status : forall F x y m st r, dd_div_r F x y m = Ret (st, r) -> documented_status st \/ st = DIV_BY_ZERO.
Proof. unfold dd_div_r. viafb div_status. Qed.
Lemma dd_ieee_rem_status : forall F x y st r, dd_ieee_rem F x y = Ret (st, r) -> st = OK \/ st = INVALID_OP.
Proof. unfold dd_ieee_rem. viafb ieee_rem_status. Qed.
Lemma dd_c_fmod_status : forall F x y st r, dd_c_fmod F x y = Ret (st, r) -> st = OK \/ st = INVALID_OP.
Proof. unfold dd_c_fmod. viafb c_fmod_status. Qed.
Lemma dd_round_status : forall F x m st r, dd_round_to_integral F x m = Ret (st, r) -> documented_status st.
Proof. unfold dd_round_to_integral. viafb round_to_integral_status. Qed.
Lemma dd_next_up_status : forall F x st r, dd_next_up F x = Ret (st, r) -> st = OK \/ st = INVALID_OP.
Proof. unfold dd_next_up. viafb next_up_status. Qed.
Lemma dd_next_down_status : forall F x st r, dd_next_down F x = Ret (st, r) -> st = OK \/ st = INVALID_OP.
Proof. intros F x st r H. unfold dd_next_down in H. pinv. eapply dd_next_up_status; eassumption. Qed.
Lemma dd_from_u128_status : forall F n m st r, dd_from_u128_r F n m = Ret (st, r) -> rounding_status st.
Proof. unfold dd_from_u128_r. viafb from_u128_status. Qed.
Lemma dd_from_i128_status : forall F n m st r, dd_from_i128_r F n m = Ret (st, r) -> rounding_status st.
Proof. intros F n m st r H. unfold dd_from_i128_r in H. pinv; eapply dd_from_u128_status; eassumption. Qed.
Lemma dd_from_str_status : forall F s m st r, dd_from_str_r F s m = Ret (Ok (st, r)) -> rounding_status st.
Proof.
  intros F s m st r H. unfold dd_from_str_r, rbind in H. destruct (from_str_r _ _ _) as [[[s4 r4]|]| |] eqn:E; cbn [bind] in H; try discriminate.
  pinv. eapply from_str_status; eassumption.
Qed.
Lemma dd_to_u128_status : forall F x w m st v e, dd_to_u128_r F x w m = Ret (st, v, e) -> st = OK \/ st = INEXACT \/ st = INVALID_OP.
Proof. intros F x w m st v e H. unfold dd_to_u128_r in H. pinv. eapply to_u128_status; eassumption. Qed.
Lemma dd_to_i128_status : forall F x w m st v e, dd_to_i128_r F x w m = Ret (st, v, e) -> st = OK \/ st = INEXACT \/ st = INVALID_OP.
Proof. intros F x w m st v e H. unfold dd_to_i128_r in H. pinv; auto; eapply dd_to_u128_status; eassumption. Qed.

(** ** Invalid operations and NaN results *)
Lemma either_cat : forall S a b st r, binop_result_from_either_nan S a b = Ret (st, r) -> category r = NaN.
Proof.
  intros S a b st r H. unfold binop_result_from_either_nan in H. cbv zeta in H. inv.
  all: match goal with E : result_from_nan _ _ = Ret _ |- _ => apply result_cat in E; tauto end.
Qed.
Lemma rounding_not_invalid : forall st, rounding_status st -> st <> INVALID_OP.
Proof. intros st [->|[->|[->| ->]]]; discriminate. Qed.
Lemma rounding_not_zero : forall st, rounding_status st -> st <> DIV_BY_ZERO.
Proof. intros st [->|[->|[->| ->]]]; discriminate. Qed.
Lemma lossy_rounding : forall st (b : bool), rounding_status st -> rounding_status (if b then Z.lor st INEXACT else st).
Proof. intros st [] H; auto. Qed.
Ltac fin := try discriminate; match goal with
  | E : binop_result_from_either_nan _ _ _ = Ret _ |- _ => intros _; exact (either_cat _ _ _ _ _ E)
  | E : result_from_nan _ _ = Ret _ |- _ => intros _; apply result_cat in E; tauto
  | E : normalize _ _ _ _ = Ret (_, _) |- _ =>
      let I := fresh in intro I; exfalso; revert I; apply rounding_not_invalid; try apply lossy_rounding; exact (normalize_status _ _ _ _ _ _ E)
  | _ => intros _; reflexivity
  end.
Lemma add_invalid : forall S x y m st r, add_r S x y m = Ret (st, r) -> st = INVALID_OP -> category r = NaN.
Proof. intros S x y m st r H. unfold add_r in H. cbv zeta in H. destruct (category x), (category y); inv; fin. Qed.
Lemma sub_invalid : forall S x y m st r, sub_r S x y m = Ret (st, r) -> st = INVALID_OP -> category r = NaN.
Proof. intros S x y m st r H. unfold sub_r in H. destruct (category x), (category y); try (eapply add_invalid; eassumption); inv; fin. Qed.
Lemma mul_invalid : forall S x y m st r, mul_r S x y m = Ret (st, r) -> st = INVALID_OP -> category r = NaN.
Proof. intros S x y m st r H. unfold mul_r in H. cbv zeta in H. destruct (category (negate_if x (is_negative y))), (category y); inv; fin. Qed.
Lemma div_invalid : forall S x y m st r, div_r S x y m = Ret (st, r) -> st = INVALID_OP -> category r = NaN.
Proof. intros S x y m st r H. unfold div_r in H. cbv zeta in H. destruct (category (negate_if x (is_negative y))), (category y); inv; fin. Qed.
Lemma mul_add_invalid : forall S x y z m st r, mul_add_r S x y z m = Ret (st, r) -> st = INVALID_OP -> category r = NaN.
Proof.
  intros S x y z m st r H. unfold mul_add_r in H.
  destruct (negb (is_finite_non_zero x) || negb (is_finite_non_zero y) || negb (is_finite z)).
  - destruct (is_finite_non_zero x && is_finite_non_zero y); inv; solve [eapply add_invalid; eassumption|eapply mul_invalid; eassumption|discriminate].
  - cbv zeta in H. inv; fin.
Qed.
Lemma c_fmod_invalid : forall S x y st r, c_fmod S x y = Ret (st, r) -> st = INVALID_OP -> category r = NaN.
Proof. intros S x y st r H. unfold c_fmod in H. destruct (category x), (category y); inv; fin. Qed.
Lemma ieee_rem_invalid : forall S x y st r, ieee_rem S x y = Ret (st, r) -> st = INVALID_OP -> category r = NaN.
Proof.
  intros S x y st r H. unfold ieee_rem in H. destruct (category x), (category y); try (inv; fin; fail).
  all: cbv zeta in H; repeat match goal with
    | H : bind ?e _ = Ret _ |- _ => destruct e as [[? ?]| |]; [cbn [bind] in H|discriminate H|discriminate H]
    | H : bind ?e _ = Ret _ |- _ => destruct e; [cbn [bind] in H|discriminate H|discriminate H]
    end; inv; fin.
Qed.

Lemma with_sign_cat : forall x b, category (with_sign x b) = category x.
Proof. intros x b. unfold with_sign, negate_if. match goal with |- context [if ?b then _ else _] => destruct b end; reflexivity. Qed.
Lemma negate_cat : forall x b, category (negate_if x b) = category x. Proof. intros x []; reflexivity. Qed.
Lemma copy_cat : forall x y, category (copy_sign x y) = category x.
Proof. intros x y. unfold copy_sign. match goal with |- context [if ?b then _ else _] => destruct b end; reflexivity. Qed.
Lemma overflow_not_nan : forall S m x st r, NONFINITE_BEHAVIOR S = IEEE754 -> overflow_result_signed S m x = (st, r) -> category r <> NaN.
Proof.
  intros S m x st r N E. unfold overflow_result_signed in E. destruct (overflow_result S m) as [s1 r1] eqn:O. inversion E; subst.
  assert (K : category r1 <> NaN).
  { unfold overflow_result, INFINITY, largest in O. rewrite N in O. destruct m; inversion O; discriminate. }
  rewrite copy_cat. exact K.
Qed.
Lemma set_cat : forall x s e, category (set_sig_exp x s e) = category x. Proof. reflexivity. Qed.
Lemma infinity_not_nan : forall S, NONFINITE_BEHAVIOR S = IEEE754 -> category (INFINITY S) <> NaN.
Proof. intros S N. unfold INFINITY. rewrite N. discriminate. Qed.
Lemma tail_not_nan : forall S x o m l st r, NONFINITE_BEHAVIOR S = IEEE754 -> category x <> NaN -> normalize_tail S x o m l = Ret (st, r) -> category r <> NaN.
Proof.
  intros S x o m l st r N C H. unfold normalize_tail in H. cbv zeta in H. inv; cbn [category set_sig_exp]; auto; try discriminate; try (eapply overflow_not_nan; eassumption).
  all: repeat match goal with |- context [if ?b then _ else _] => destruct b end; rewrite ?copy_cat, ?set_cat; first [assumption|discriminate|apply infinity_not_nan; assumption].
Qed.
Lemma normalize_not_nan : forall S x m l st r, NONFINITE_BEHAVIOR S = IEEE754 -> category x <> NaN -> normalize S x m l = Ret (st, r) -> category r <> NaN.
Proof.
  intros S x m l st r N C H. unfold normalize in H. cbv zeta in H.
  inv; auto; solve [eapply overflow_not_nan; eassumption|rewrite set_cat; assumption|eapply tail_not_nan; [eassumption| |eassumption]; rewrite ?set_cat; assumption].
Qed.

Ltac nn := try reflexivity; match goal with
  | N : NONFINITE_BEHAVIOR _ = IEEE754, E : normalize _ _ _ _ = Ret (_, _) |- _ => let K := fresh in
      pose proof (fun C => normalize_not_nan _ _ _ _ _ _ N C E) as K; rewrite ?with_sign_cat, ?set_cat, ?with_sign_cat, ?negate_cat in K;
      rewrite ?with_sign_cat, ?negate_cat; let G := fresh in intro G; exfalso; apply K; [first [assumption|congruence]|exact G]
  | _ => rewrite ?with_sign_cat, ?negate_cat, ?copy_cat; let G := fresh in intro G; exfalso; first [discriminate G|congruence]
  end.
Lemma add_nan : forall S x y m st r, NONFINITE_BEHAVIOR S = IEEE754 -> category x <> NaN -> category y <> NaN ->
  add_r S x y m = Ret (st, r) -> category r = NaN -> st = INVALID_OP.
Proof.
  intros S x y m st r N X Y H. unfold add_r in H. cbv zeta in H. destruct (category x) eqn:CX; try congruence; destruct (category y) eqn:CY; try congruence; inv; nn.
Qed.
Lemma sub_nan : forall S x y m st r, NONFINITE_BEHAVIOR S = IEEE754 -> category x <> NaN -> category y <> NaN ->
  sub_r S x y m = Ret (st, r) -> category r = NaN -> st = INVALID_OP.
Proof.
  intros S x y m st r N X Y H. unfold sub_r in H.
  assert (H' : add_r S x (neg y) m = Ret (st, r)) by (destruct (category x); try congruence; destruct (category y); congruence).
  revert H'. apply add_nan; auto.
Qed.
Lemma mul_nan : forall S x y m st r, NONFINITE_BEHAVIOR S = IEEE754 -> category x <> NaN -> category y <> NaN ->
  mul_r S x y m = Ret (st, r) -> category r = NaN -> st = INVALID_OP.
Proof.
  intros S x y m st r N X Y H. unfold mul_r in H. cbv zeta in H. rewrite negate_cat in H. pose proof (infinity_not_nan S N).
  destruct (category x) eqn:CX; try congruence; destruct (category y) eqn:CY; try congruence; inv; nn.
Qed.
Lemma div_nan : forall S x y m st r, NONFINITE_BEHAVIOR S = IEEE754 -> category x <> NaN -> category y <> NaN ->
  div_r S x y m = Ret (st, r) -> category r = NaN -> st = INVALID_OP.
Proof.
  intros S x y m st r N X Y H. unfold div_r in H. cbv zeta in H. rewrite negate_cat in H. pose proof (infinity_not_nan S N).
  destruct (category x) eqn:CX; try congruence; destruct (category y) eqn:CY; try congruence; inv; nn.
Qed.
Lemma div_by_zero : forall S x y m st r, div_r S x y m = Ret (st, r) ->
  (st = DIV_BY_ZERO <-> category x = Normal /\ category y = Zero).
Proof.
  intros S x y m st r H. unfold div_r in H. cbv zeta in H. rewrite negate_cat in H.
  destruct (category x) eqn:CX; destruct (category y) eqn:CY; inv;
    try match goal with E : binop_result_from_either_nan _ _ _ = Ret _ |- _ => apply either_status in E end;
    try match goal with E : normalize _ _ _ _ = Ret (_, _) |- _ => apply normalize_status in E; 
      pose proof (rounding_not_zero _ E); pose proof (rounding_not_zero _ (rs_inexact _ E)) end;
    try destruct (negb _); unfold OK, INVALID_OP, DIV_BY_ZERO in *; intuition (congruence || lia).
Qed.
Lemma mul_add_nan : forall S x y z m st r, NONFINITE_BEHAVIOR S = IEEE754 -> category x <> NaN -> category y <> NaN -> category z <> NaN ->
  mul_add_r S x y z m = Ret (st, r) -> category r = NaN -> st = INVALID_OP.
Proof.
  intros S x y z m st r N X Y Z0 H. unfold mul_add_r in H.
  destruct (negb (is_finite_non_zero x) || negb (is_finite_non_zero y) || negb (is_finite z)) eqn:F.
  - destruct (is_finite_non_zero x && is_finite_non_zero y) eqn:F2.
    + destruct (negb (is_finite z)); cbn [assertb bind] in H; [|discriminate]. revert H. apply add_nan; assumption.
    + destruct (mul_r S x y m) as [[s1 r1]| |] eqn:E; cbn [bind] in H; try discriminate.
      destruct (s1 =? OK) eqn:O.
      * apply Z.eqb_eq in O. subst s1. revert H. apply add_nan; auto. intro C. discriminate (mul_nan S x y m OK r1 N X Y E C).
      * inversion H; subst. exact (mul_nan S x y m _ _ N X Y E).
  - apply orb_false_iff in F. destruct F as [F Fz]. apply orb_false_iff in F. destruct F as [Fx Fy].
    cbv zeta in H.
    assert (CX : category (negate_if x (is_negative y)) <> NaN) by (rewrite negate_cat; exact X).
    repeat match goal with
    | H : bind ?e _ = Ret _ |- _ => destruct e eqn:?; [cbn [bind] in H|discriminate H|discriminate H]
    | H : (let '(_, _) := ?p in _) = Ret _ |- _ => destruct p
    | H : assertb ?b _ = Ret _ |- _ => unfold assertb in H; destruct b; [|discriminate H]
    | H : (if ?b then _ else _) = Ret _ |- _ => destruct b
    | H : Ret _ = Ret _ |- _ => inversion H; subst; clear H
    end; try discriminate; nn.
Qed.

(** ** As numbers: 1 invalid operation, 2 division by zero, 4 overflow, 8 underflow, 16 inexact *)
Lemma rounding_list : forall st, rounding_status st -> In st [0; 16; 4 + 16; 8 + 16].
Proof. intros st [->|[->|[->| ->]]]; cbn; auto. Qed.
Lemma documented_list : forall st, documented_status st -> In st [0; 1; 16; 4 + 16; 8 + 16].
Proof. intros st [H| ->]; [apply rounding_list in H|]; cbn in *; tauto. Qed.
Lemma small_list : forall st, st = OK \/ st = INVALID_OP -> In st [0; 1].
Proof. intros st [->| ->]; cbn; auto. Qed.
Lemma int_list : forall st, st = OK \/ st = INEXACT \/ st = INVALID_OP -> In st [0; 16; 1].
Proof. intros st [->|[->| ->]]; cbn; auto. Qed.
Lemma div_list : forall st, documented_status st \/ st = DIV_BY_ZERO -> In st [0; 1; 16; 4 + 16; 8 + 16; 2].
Proof. intros st [H| ->]; [apply documented_list in H|]; cbn in *; tauto. Qed.
Lemma arithmetic_list : forall S x y z m st r,
  add_r S x y m = Ret (st, r) \/ sub_r S x y m = Ret (st, r) \/ mul_r S x y m = Ret (st, r) \/ mul_add_r S x y z m = Ret (st, r) \/
  round_to_integral S x m = Ret (st, r) \/ (exists T l, convert_r S T x m = Ret (st, r, l)) ->
  In st [0; 1; 16; 4 + 16; 8 + 16].
Proof.
  intros S x y z m st r H. apply documented_list. destruct H as [H|[H|[H|[H|[H|(T & l & H)]]]]].
  - eapply add_status; eassumption.
  - eapply sub_status; eassumption.
  - eapply mul_status; eassumption.
  - eapply mul_add_status; eassumption.
  - eapply round_to_integral_status; eassumption.
  - eapply convert_status; eassumption.
Qed.
Lemma division_list : forall S x y m st r, div_r S x y m = Ret (st, r) ->
  In st [0; 1; 16; 4 + 16; 8 + 16; 2] /\ (st = 2 <-> category x = Normal /\ category y = Zero).
Proof. intros S x y m st r H. split; [apply div_list; eapply div_status; eassumption|exact (div_by_zero S x y m st r H)]. Qed.
Lemma exact_list : forall S x y st r,
  ieee_rem S x y = Ret (st, r) \/ c_fmod S x y = Ret (st, r) \/ next_up S x = Ret (st, r) \/ next_down S x = Ret (st, r) -> In st [0; 1].
Proof.
  intros S x y st r H. apply small_list. destruct H as [H|[H|[H|H]]].
  - eapply ieee_rem_status; eassumption.
  - eapply c_fmod_status; eassumption.
  - eapply next_up_status; eassumption.
  - eapply next_down_status; eassumption.
Qed.
Lemma input_list : forall S n s m st r,
  from_u128_r S n m = Ret (st, r) \/ from_i128_r S n m = Ret (st, r) \/ from_str_r S s m = Ret (Ok (st, r)) -> In st [0; 16; 4 + 16; 8 + 16].
Proof.
  intros S n s m st r H. apply rounding_list. destruct H as [H|[H|H]].
  - eapply from_u128_status; eassumption.
  - eapply from_i128_status; eassumption.
  - eapply from_str_status; eassumption.
Qed.
Lemma output_list : forall S x w m st v e, to_u128_r S x w m = Ret (st, v, e) \/ to_i128_r S x w m = Ret (st, v, e) -> In st [0; 16; 1].
Proof. intros S x w m st v e [H|H]; apply int_list; [eapply to_u128_status|eapply to_i128_status]; eassumption. Qed.
Lemma pair_coherent : forall F x y m st r,
  dd_add_r F x y m = Ret (st, r) \/ dd_sub_r F x y m = Ret (st, r) \/ dd_mul_r F x y m = Ret (st, r) -> flags_coherent st.
Proof. intros F x y m st r [H|[H|H]]; [eapply dd_add_status|eapply dd_sub_status|eapply dd_mul_status]; eassumption. Qed.
Lemma pair_list : forall F x y z n s m st r,
  (dd_mul_add_r F x y z m = Ret (st, r) \/ dd_round_to_integral F x m = Ret (st, r) -> In st [0; 1; 16; 4 + 16; 8 + 16]) /\
  (dd_div_r F x y m = Ret (st, r) -> In st [0; 1; 16; 4 + 16; 8 + 16; 2]) /\
  (dd_ieee_rem F x y = Ret (st, r) \/ dd_c_fmod F x y = Ret (st, r) \/ dd_next_up F x = Ret (st, r) \/ dd_next_down F x = Ret (st, r) -> In st [0; 1]) /\
  (dd_from_u128_r F n m = Ret (st, r) \/ dd_from_i128_r F n m = Ret (st, r) \/ dd_from_str_r F s m = Ret (Ok (st, r)) -> In st [0; 16; 4 + 16; 8 + 16]) /\
  (forall w v e, dd_to_u128_r F x w m = Ret (st, v, e) \/ dd_to_i128_r F x w m = Ret (st, v, e) -> In st [0; 16; 1]).
Proof.
  intros F x y z n s m st r. repeat split.
  - intros [H|H]; apply documented_list; [eapply dd_mul_add_status|eapply dd_round_status]; eassumption.
  - intro H. apply div_list. eapply dd_div_status; eassumption.
  - intros [H|[H|[H|H]]]; apply small_list; [eapply dd_ieee_rem_status|eapply dd_c_fmod_status|eapply dd_next_up_status|eapply dd_next_down_status]; eassumption.
  - intros [H|[H|H]]; apply rounding_list; [eapply dd_from_u128_status|eapply dd_from_i128_status|eapply dd_from_str_status]; eassumption.
  - intros w v e [H|H]; apply int_list; [eapply dd_to_u128_status|eapply dd_to_i128_status]; eassumption.
Qed.
Lemma invalid_nan : forall S x y z m r,
  add_r S x y m = Ret (1, r) \/ sub_r S x y m = Ret (1, r) \/ mul_r S x y m = Ret (1, r) \/ div_r S x y m = Ret (1, r) \/
  mul_add_r S x y z m = Ret (1, r) \/ ieee_rem S x y = Ret (1, r) \/ c_fmod S x y = Ret (1, r) -> category r = NaN.
Proof.
  intros S x y z m r [H|[H|[H|[H|[H|[H|H]]]]]];
    [eapply add_invalid|eapply sub_invalid|eapply mul_invalid|eapply div_invalid|eapply mul_add_invalid|eapply ieee_rem_invalid|eapply c_fmod_invalid];
    try eassumption; reflexivity.
Qed.
Lemma nan_invalid : forall S x y z m st r, NONFINITE_BEHAVIOR S = IEEE754 ->
  category x <> NaN -> category y <> NaN ->
  add_r S x y m = Ret (st, r) \/ sub_r S x y m = Ret (st, r) \/ mul_r S x y m = Ret (st, r) \/ div_r S x y m = Ret (st, r) \/
  (category z <> NaN /\ mul_add_r S x y z m = Ret (st, r)) -> category r = NaN -> st = 1.
Proof.
  intros S x y z m st r N X Y [H|[H|[H|[H|[Z0 H]]]]] C;
    [eapply (add_nan S x y)|eapply (sub_nan S x y)|eapply (mul_nan S x y)|eapply (div_nan S x y)|eapply (mul_add_nan S x y z)]; eassumption.
Qed.
