(** * Reach.v -- values obtained from the interface, and what holds of them *)
From Coq Require Import ZArith Reals List Bool Lia Lra ZifyBool.
From Flocq Require Import Core.
From Verif Require Import Machine Sig SpecSig Limbs SigProofs SigProofs2 SigProofs3 SigProofs4 SigProofs5 Ieee Spec Norm Arith Special Order Bits Formats Int Scale Next Convert Integral Rem Fma Algebra Laws Orderx Total Nans Parse SpecStr StrTop.
Import ListNotations.
Ltac Zify.zify_post_hook ::= idtac.
Local Open Scope Z_scope.

(** ** Values obtained from the interface

    [reachable S x]: [x] is the result of some finite sequence of operations of
    the interface in the formats of the crate; every constructor is one
    value-producing operation.  The bit conversions exist for the public formats
    only (those of src/ppc.rs have BITS = 0).  A parsed text is shorter
    than 32 MiB. *)
Definition public_formats : list Semantics := interchange_semantics ++ [X87DoubleExtendedS].

Inductive reachable : Semantics -> Float -> Prop :=
| r_zero S : In S crate_formats -> reachable S (ZERO S)
| r_infinity S : In S crate_formats -> reachable S (INFINITY S)
| r_nan S : In S crate_formats -> reachable S (NAN S)
| r_qnan S pl : In S crate_formats -> payload_ok pl -> reachable S (qnan S pl)
| r_snan S pl : In S crate_formats -> payload_ok pl -> reachable S (snan S pl)
| r_largest S : In S crate_formats -> reachable S (largest S)
| r_smallest S : In S crate_formats -> reachable S (SMALLEST S)
| r_smallest_normalized S : In S crate_formats -> reachable S (smallest_normalized S)
| r_from_bits S b x : In S public_formats -> 0 <= b < 2 ^ 128 -> from_bits S b = Ret x -> reachable S x
| r_from_u128 S n m st x : In S crate_formats -> 0 <= n < 2 ^ 128 -> from_u128_r S n m = Ret (st, x) -> reachable S x
| r_from_i128 S n m st x : In S crate_formats -> - 2 ^ 127 <= n < 2 ^ 127 -> from_i128_r S n m = Ret (st, x) -> reachable S x
| r_from_str S s m st x : In S crate_formats -> len s < 2 ^ 25 -> from_str_r S s m = Ret (Ok (st, x)) -> reachable S x
| r_neg S x : reachable S x -> reachable S (neg x)
| r_abs S x : reachable S x -> reachable S (abs x)
| r_copy_sign S x y : reachable S x -> reachable S y -> reachable S (copy_sign x y)
| r_add S x y m st r : reachable S x -> reachable S y -> add_r S x y m = Ret (st, r) -> reachable S r
| r_sub S x y m st r : reachable S x -> reachable S y -> sub_r S x y m = Ret (st, r) -> reachable S r
| r_mul S x y m st r : reachable S x -> reachable S y -> mul_r S x y m = Ret (st, r) -> reachable S r
| r_div S x y m st r : reachable S x -> reachable S y -> div_r S x y m = Ret (st, r) -> reachable S r
| r_mul_add S x y z m st r : reachable S x -> reachable S y -> reachable S z ->
    mul_add_r S x y z m = Ret (st, r) -> reachable S r
| r_ieee_rem S x y st r : reachable S x -> reachable S y -> ieee_rem S x y = Ret (st, r) -> reachable S r
| r_c_fmod S x y st r : reachable S x -> reachable S y -> c_fmod S x y = Ret (st, r) -> reachable S r
| r_round_to_integral S x m st r : reachable S x -> round_to_integral S x m = Ret (st, r) -> reachable S r
| r_next_up S x st r : reachable S x -> next_up S x = Ret (st, r) -> reachable S r
| r_next_down S x st r : reachable S x -> next_down S x = Ret (st, r) -> reachable S r
| r_scalbn S x n m r : reachable S x -> i32 n -> scalbn_r S x n m = Ret r -> reachable S r
| r_frexp S x m r e : reachable S x -> frexp_r S x m = Ret (r, e) -> reachable S r
| r_inverse S x r : reachable S x -> get_exact_inverse S x = Ret (Some r) -> reachable S r
| r_min S x y r : reachable S x -> reachable S y -> min x y = Ret r -> reachable S r
| r_max S x y r : reachable S x -> reachable S y -> max x y = Ret r -> reachable S r
| r_minimum S x y r : reachable S x -> reachable S y -> minimum x y = Ret r -> reachable S r
| r_maximum S x y r : reachable S x -> reachable S y -> maximum x y = Ret r -> reachable S r
| r_convert S T x m st r lost : reachable S x -> In T crate_formats -> convert_r S T x m = Ret (st, r, lost) -> reachable T r.

Lemma reachable_format : forall S x, reachable S x -> In S crate_formats.
Proof.
  intros S x H. induction H; try assumption. unfold public_formats in H. unfold crate_formats.
  apply in_app_or in H. apply in_or_app. destruct H as [H|[<-|[]]]; [left; exact H|right; left; reflexivity].
Qed.

Lemma public_from_bits : forall S b x, In S public_formats -> 0 <= b < 2 ^ 128 -> from_bits S b = Ret x -> wf S x.
Proof.
  intros S b x H Hb E. unfold public_formats in H. apply in_app_or in H. destruct H as [H|[<-|[]]].
  - rewrite interchange_semantics_eq in H. apply in_map_iff in H. destruct H as [[[bits eb] nf] [<- H]].
    rewrite high_bits_crate in E by assumption.
    destruct (interchange_ok _ _ _ H) as [HS Hb2]. 
    assert (Hpos : 0 < 2 ^ bits) by (apply Z.pow_pos_nonneg; [lia|]; destruct HS as [Hp _ _ _]; cbn [ieee_semantics PRECISION] in Hp; repeat (destruct H as [H|H]; [injection H as <- <- <-; lia|]); destruct H).
    destruct (bits_round_trip_crate bits eb nf H (b mod 2 ^ bits) (Z.mod_pos_bound _ _ Hpos)) as [x' [E' [W _]]].
    rewrite E' in E. injection E as <-. exact W.
  - rewrite from_bits_x87_fields in E by exact Hb. injection E as <-. apply decode_wf_x87.
    + unfold field_exp. apply Z.mod_pos_bound. reflexivity.
    + unfold field_frac. apply Z.mod_pos_bound. reflexivity.
Qed.

Lemma returns_wf : forall S o st r, returns S o -> o = Ret (st, r) -> wf S r.
Proof. intros S o st r [st' [r' [E W]]] E'. rewrite E' in E. injection E as <- <-. exact W. Qed.

Theorem reachable_wf : forall S x, reachable S x -> wf S x.
Proof.
  intros S x H. pose proof (crate_formats_ok _ (reachable_format _ _ H)) as HS.
  induction H; try specialize (IHreachable HS); try specialize (IHreachable1 HS); try specialize (IHreachable2 HS); try specialize (IHreachable3 HS).
  1-8: destruct (constants_spec S HS) as [K1 [_ [K2 [_ [K3 [_ [K4 [_ [_ [K5 K6]]]]]]]]]]; try assumption.
  - apply K5.
  - apply K6.
  - apply (qnan_spec S pl HS H0).
  - apply (snan_spec S pl HS H0).
  - exact (public_from_bits S b x H H0 H1).
  - destruct (from_u128_r_spec S n m HS H0) as [[st' x'] [E [W _]]]. rewrite H1 in E. injection E as <- <-. exact W.
  - destruct (from_i128_r_spec S n m HS H0) as [[st' x'] [E [W _]]]. rewrite H1 in E. injection E as <- <-. exact W.
  - destruct (from_str_total S s m HS (crate_dec_ok S H) H0) as [[st' [x' [E [W _]]]]|[e E]]; rewrite H1 in E; [|discriminate E]. injection E as <- <-. exact W.
  - apply wf_neg. assumption.
  - rewrite abs_spec. exact IHreachable.
  - rewrite copy_sign_spec. exact IHreachable1.
  - eapply returns_wf; [|exact H1]. apply add_r_total; assumption.
  - eapply returns_wf; [|exact H1]. apply sub_r_total; assumption.
  - eapply returns_wf; [|exact H1]. apply mul_r_total; assumption.
  - eapply returns_wf; [|exact H1]. apply div_r_total; assumption.
  - exact (mul_add_r_wf S x y z m st r HS IHreachable1 IHreachable2 IHreachable3 H2).
  - eapply returns_wf; [|exact H1]. apply ieee_rem_total; assumption.
  - eapply returns_wf; [|exact H1]. apply c_fmod_total; assumption.
  - eapply returns_wf; [|exact H0]. apply round_to_integral_total; assumption.
  - eapply returns_wf; [|exact H0]. apply next_up_total; assumption.
  - eapply returns_wf; [|exact H0]. apply next_down_total; assumption.
  - destruct (scalbn_r_total S x HS IHreachable n m) as [r' [E W]]. rewrite H1 in E. injection E as <-. exact W.
  - destruct (frexp_r_total S x HS IHreachable m) as [r' [e' [E W]]]. rewrite H0 in E. injection E as <- _. exact W.
  - destruct (get_exact_inverse_total S x HS IHreachable) as [o [E W]]. apply W. rewrite H0 in E. injection E as <-. reflexivity.
  - destruct (min_max_total S x y HS IHreachable1 IHreachable2) as [[r' [E W]] _]. rewrite H1 in E. injection E as <-. exact W.
  - destruct (min_max_total S x y HS IHreachable1 IHreachable2) as [_ [[r' [E W]] _]]. rewrite H1 in E. injection E as <-. exact W.
  - destruct (min_max_total S x y HS IHreachable1 IHreachable2) as [_ [_ [[r' [E W]] _]]]. rewrite H1 in E. injection E as <-. exact W.
  - destruct (min_max_total S x y HS IHreachable1 IHreachable2) as [_ [_ [_ [r' [E W]]]]]. rewrite H1 in E. injection E as <-. exact W.
  - pose proof (crate_formats_ok _ (reachable_format _ _ H)) as HS'.
    destruct (convert_r_total S T x m HS' HS (IHreachable HS')) as [st' [r' [l' [E W]]]]. rewrite H1 in E. injection E as <- <- <-. exact W.
Qed.

(** ** No operation panics on them *)
Definition defined {A} (o : outcome A) : Prop := exists a, o = Ret a.
Lemma returns_defined : forall S o, returns S o -> defined o.
Proof. intros S o [st [r [E _]]]. exists (st, r). exact E. Qed.

Section NoPanic.
Variables (S : Semantics) (x y : Float).
Hypotheses (Rx : reachable S x) (Ry : reachable S y).
Let HS : sem_ok S := crate_formats_ok _ (reachable_format _ _ Rx).
Let Wx : wf S x := reachable_wf _ _ Rx.
Let Wy : wf S y := reachable_wf _ _ Ry.

Theorem arithmetic_defined : forall m,
  defined (add_r S x y m) /\ defined (sub_r S x y m) /\ defined (mul_r S x y m) /\ defined (div_r S x y m) /\
  defined (c_fmod S x y) /\ defined (ieee_rem S x y) /\ defined (next_up S x) /\ defined (next_down S x) /\
  defined (round_to_integral S x m) /\ (forall n, defined (scalbn_r S x n m)) /\ defined (frexp_r S x m) /\
  defined (ilogb S x) /\ defined (get_exact_inverse S x) /\
  (forall T, In T crate_formats -> defined (convert_r S T x m)).
Proof.
  intro m.
  split; [eapply returns_defined, add_r_total; assumption|].
  split; [eapply returns_defined, sub_r_total; assumption|].
  split; [eapply returns_defined, mul_r_total; assumption|].
  split; [eapply returns_defined, div_r_total; assumption|].
  split; [eapply returns_defined, c_fmod_total; assumption|].
  split; [eapply returns_defined, ieee_rem_total; assumption|].
  split; [eapply returns_defined, next_up_total; assumption|].
  split; [eapply returns_defined, next_down_total; assumption|].
  split; [eapply returns_defined, round_to_integral_total; assumption|].
  split; [intro n; destruct (scalbn_r_total S x HS Wx n m) as [r [E _]]; exists r; exact E|].
  split; [destruct (frexp_r_total S x HS Wx m) as [r [e [E _]]]; exists (r, e); exact E|].
  split; [exact (ilogb_total S x HS Wx)|].
  split; [destruct (get_exact_inverse_total S x HS Wx) as [o [E _]]; exists o; exact E|].
  intros T HT. destruct (convert_r_total S T x m HS (crate_formats_ok _ HT) Wx) as [st [r [l [E _]]]]. eexists. exact E.
Qed.

Theorem mul_add_defined : forall z m, reachable S z -> (finite x -> finite y -> finite z -> fma_safe S x y z) ->
  defined (mul_add_r S x y z m).
Proof. intros z m Rz H. eapply returns_defined, mul_add_r_total; try assumption. exact (reachable_wf _ _ Rz). Qed.

Theorem order_defined :
  defined (partial_cmp x y) /\ defined (lt_f x y) /\ defined (gt_f x y) /\ defined (ge_f x y) /\ defined (eq_f x y) /\
  defined (min x y) /\ defined (max x y) /\ defined (minimum x y) /\ defined (maximum x y) /\
  defined (is_denormal S x) /\ defined (is_normal S x) /\ defined (is_integer S x).
Proof.
  destruct (partial_cmp_spec S x y HS Wx Wy) as [c [E _]].
  destruct (min_max_total S x y HS Wx Wy) as [[r1 [M1 _]] [[r2 [M2 _]] [[r3 [M3 _]] [r4 [M4 _]]]]].
  unfold lt_f, gt_f, ge_f, eq_f. rewrite E. cbn [bind].
  destruct (classification S x HS Wx) as [d [n [D1 [D2 _]]]]. destruct (is_integer_spec S x HS Wx) as [b [I _]].
  unfold defined. rewrite D1, D2, I, M1, M2, M3, M4. repeat split; eexists; reflexivity.
Qed.

Theorem to_int_defined : forall w m, (1 <= w <= 128 -> defined (to_u128_r S x w m)) /\
  ((if sign x then 1 else 2) <= w <= 128 -> defined (to_i128_r S x w m)).
Proof.
  intros w m. split; intro Hw.
  - destruct (to_u128_r_spec S x w m HS Wx Hw) as [st [n [ex [E _]]]]. eexists. exact E.
  - destruct (to_i128_r_spec S x w m HS Wx Hw) as [st [n [ex [E _]]]]. eexists. exact E.
Qed.

Theorem to_bits_defined : In S public_formats -> defined (to_bits S x).
Proof.
  intro H. unfold public_formats in H. apply in_app_or in H. destruct H as [H|[E|[]]].
  - rewrite interchange_semantics_eq in H. apply in_map_iff in H. destruct H as [[[bits eb] nf] [E H]].
    pose proof (reachable_wf _ _ Rx) as W. rewrite <- E in W |- *. destruct (value_round_trip_crate bits eb nf H x W) as [b [z [E' _]]]. exists b. exact E'.
  - pose proof (reachable_wf _ _ Rx) as W. rewrite <- E in W |- *. eexists. apply to_bits_x87_fields. exact W.
Qed.
End NoPanic.

Theorem from_bits_defined : forall S b, In S public_formats -> 0 <= b < 2 ^ 128 -> defined (from_bits S b).
Proof.
  intros S b H Hb. unfold public_formats in H. apply in_app_or in H. destruct H as [H|[<-|[]]].
  - rewrite interchange_semantics_eq in H. apply in_map_iff in H. destruct H as [[[bits eb] nf] [<- H]].
    destruct (interchange_ok _ _ _ H) as [HS Hb2]. eexists. apply from_bits_fields; assumption.
  - eexists. apply from_bits_x87_fields. exact Hb.
Qed.
Theorem from_int_defined : forall S m, In S crate_formats ->
  (forall n, 0 <= n < 2 ^ 128 -> defined (from_u128_r S n m)) /\
  (forall n, - 2 ^ 127 <= n < 2 ^ 127 -> defined (from_i128_r S n m)).
Proof.
  intros S m H. pose proof (crate_formats_ok _ H) as HS. split; intros n Hn.
  - destruct (from_u128_r_spec S n m HS Hn) as [res [E _]]. exists res. exact E.
  - destruct (from_i128_r_spec S n m HS Hn) as [res [E _]]. exists res. exact E.
Qed.

Theorem reachable_ok : forall S x, reachable S x -> sem_ok S /\ wf S x.
Proof. intros S x H. split; [exact (crate_formats_ok _ (reachable_format _ _ H))|exact (reachable_wf _ _ H)]. Qed.
Theorem arithmetic_returns : forall S x y m, sem_ok S -> wf S x -> wf S y ->
  returns S (add_r S x y m) /\ returns S (sub_r S x y m) /\ returns S (mul_r S x y m) /\ returns S (div_r S x y m) /\
  returns S (c_fmod S x y) /\ returns S (ieee_rem S x y).
Proof.
  intros S x y m HS Wx Wy. split; [apply add_r_total; assumption|]. split; [apply sub_r_total; assumption|]. split; [apply mul_r_total; assumption|].
  split; [apply div_r_total; assumption|]. split; [apply c_fmod_total; assumption|apply ieee_rem_total; assumption].
Qed.

Ltac in_list := repeat (first [left; reflexivity | right]).
Ltac from_pattern b := apply (r_from_bits _ b); [in_list|split; [vm_compute; discriminate|reflexivity]|vm_compute; reflexivity].
(** (1.0f16 as f32 / 3 as e4m3).next_up() *)
Theorem reachable_sample : exists x, reachable Float8E4M3FNS x /\ x = mkFloat 12 (-2) Normal false.
Proof.
  assert (R1 : reachable HalfS (mkFloat 1024 0 Normal false)) by from_pattern 0x3c00.
  assert (R2 : reachable SingleS (mkFloat (2 ^ 23) 0 Normal false)).
  { apply (r_convert HalfS SingleS _ NearestTiesToEven OK _ false R1); [in_list|vm_compute; reflexivity]. }
  assert (R3 : reachable SingleS (mkFloat (3 * 2 ^ 22) 1 Normal false)).
  { apply (r_from_i128 SingleS 3 NearestTiesToEven OK); [in_list|split; [vm_compute; discriminate|reflexivity]|vm_compute; reflexivity]. }
  assert (R4 : reachable SingleS (mkFloat 11184811 (-2) Normal false)).
  { apply (r_div SingleS _ _ NearestTiesToEven INEXACT _ R2 R3). vm_compute. reflexivity. }
  assert (R5 : reachable Float8E4M3FNS (mkFloat 11 (-2) Normal false)).
  { apply (r_convert SingleS Float8E4M3FNS _ NearestTiesToEven INEXACT _ true R4); [in_list|vm_compute; reflexivity]. }
  exists (mkFloat 12 (-2) Normal false). split; [|reflexivity].
  apply (r_next_up Float8E4M3FNS _ OK _ R5). vm_compute. reflexivity.
Qed.
