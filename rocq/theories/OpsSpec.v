(** * OpsSpec.v -- the operators, the methods that fix the rounding mode, and [Debug] *)
From Coq Require Import ZArith Reals List Bool Lia Lra String.
From Flocq Require Import Core.
From Verif Require Import Machine Sig Ieee Parse Fmt Ppc Ops SpecSig Spec SpecStr SpecFmt SpecPair Norm Arith Fma Rem Int Scale Convert Special Nans Laws
  StrHex StrDec StrSyntax StrTop FmtTop FmtBack PairBase Pair PairOps PairMore PairAdd PairMul PairConst.
Import ListNotations.
Local Open Scope Z_scope.
Ltac Zify.zify_post_hook ::= idtac.

Notation nearest := NearestTiesToEven.

(** ** Operators *)
Theorem op_add_spec : forall S x y, sem_ok S -> wf S x -> wf S y -> finite x -> finite y ->
  exists res, op_add S x y = Ret res /\ correctly_rounded S nearest (value S x + value S y) (sum_zero_sign x y (sign y) nearest) res.
Proof. intros S x y HS Wx Wy Fx Fy. apply add_r_correct; try assumption. apply side_nearest. Qed.
Theorem op_sub_spec : forall S x y, sem_ok S -> wf S x -> wf S y -> finite x -> finite y ->
  exists res, op_sub S x y = Ret res /\ correctly_rounded S nearest (value S x - value S y) (sum_zero_sign x y (negb (sign y)) nearest) res.
Proof. intros S x y HS Wx Wy Fx Fy. apply sub_r_correct; try assumption. apply side_nearest. Qed.
Theorem op_mul_spec : forall S x y, sem_ok S -> wf S x -> wf S y -> finite x -> finite y ->
  exists res, op_mul S x y = Ret res /\ correctly_rounded S nearest (value S x * value S y) (xorb (sign x) (sign y)) res.
Proof. intros S x y HS Wx Wy Fx Fy. apply mul_r_finite; try assumption. apply side_nearest. Qed.
Theorem op_div_spec : forall S x y, sem_ok S -> wf S x -> wf S y -> finite x -> category y = Normal ->
  exists res, op_div S x y = Ret res /\ correctly_rounded S nearest (value S x / value S y) (xorb (sign x) (sign y)) res.
Proof. intros S x y HS Wx Wy Fx Fy. apply div_r_finite; try assumption. apply side_nearest. Qed.
Theorem op_rem_spec : forall S x y, sem_ok S -> wf S x -> wf S y -> finite x -> category y = Normal ->
  exists r, op_rem S x y = Ret (OK, r) /\ wf S r /\ finite r /\
    value S r = (value S x - IZR (Ztrunc (value S x / value S y)) * value S y)%R /\
    sign r = sign x /\ (Rabs (value S r) < Rabs (value S y))%R.
Proof. exact c_fmod_finite. Qed.

Theorem add_assign_spec : forall S x y, sem_ok S -> wf S x -> wf S y -> finite x -> finite y ->
  exists st f, add_assign S x y = Ret f /\ correctly_rounded S nearest (value S x + value S y) (sum_zero_sign x y (sign y) nearest) (st, f).
Proof.
  intros S x y HS Wx Wy Fx Fy. destruct (op_add_spec S x y HS Wx Wy Fx Fy) as [[st f] [E C]]. exists st, f. unfold add_assign. rewrite E. split; [reflexivity|exact C].
Qed.
Theorem sub_assign_spec : forall S x y, sem_ok S -> wf S x -> wf S y -> finite x -> finite y ->
  exists st f, sub_assign S x y = Ret f /\ correctly_rounded S nearest (value S x - value S y) (sum_zero_sign x y (negb (sign y)) nearest) (st, f).
Proof.
  intros S x y HS Wx Wy Fx Fy. destruct (op_sub_spec S x y HS Wx Wy Fx Fy) as [[st f] [E C]]. exists st, f. unfold sub_assign. rewrite E. split; [reflexivity|exact C].
Qed.
Theorem mul_assign_spec : forall S x y, sem_ok S -> wf S x -> wf S y -> finite x -> finite y ->
  exists st f, mul_assign S x y = Ret f /\ correctly_rounded S nearest (value S x * value S y) (xorb (sign x) (sign y)) (st, f).
Proof.
  intros S x y HS Wx Wy Fx Fy. destruct (op_mul_spec S x y HS Wx Wy Fx Fy) as [[st f] [E C]]. exists st, f. unfold mul_assign. rewrite E. split; [reflexivity|exact C].
Qed.
Theorem div_assign_spec : forall S x y, sem_ok S -> wf S x -> wf S y -> finite x -> category y = Normal ->
  exists st f, div_assign S x y = Ret f /\ correctly_rounded S nearest (value S x / value S y) (xorb (sign x) (sign y)) (st, f).
Proof.
  intros S x y HS Wx Wy Fx Fy. destruct (op_div_spec S x y HS Wx Wy Fx Fy) as [[st f] [E C]]. exists st, f. unfold div_assign. rewrite E. split; [reflexivity|exact C].
Qed.
Theorem rem_assign_spec : forall S x y, sem_ok S -> wf S x -> wf S y -> finite x -> category y = Normal ->
  exists r, rem_assign S x y = Ret r /\ wf S r /\ finite r /\
    value S r = (value S x - IZR (Ztrunc (value S x / value S y)) * value S y)%R /\
    sign r = sign x /\ (Rabs (value S r) < Rabs (value S y))%R.
Proof.
  intros S x y HS Wx Wy Fx Cy. destruct (op_rem_spec S x y HS Wx Wy Fx Cy) as [r [E H]]. exists r. unfold rem_assign. rewrite E. split; [reflexivity|exact H].
Qed.

(** ** Methods *)
Theorem mul_add_spec : forall S x y z, sem_ok S -> wf S x -> wf S y -> wf S z ->
  finite x -> finite y -> finite z -> fma_safe S x y z ->
  exists res, mul_add S x y z = Ret res /\
    correctly_rounded S nearest (value S x * value S y + value S z) (fma_zero_sign (xorb (sign x) (sign y)) z nearest) res.
Proof. intros S x y z HS Wx Wy Wz Fx Fy Fz Hs. apply mul_add_r_finite; try assumption. apply side_nearest. Qed.
Theorem from_i128_spec : forall S n, sem_ok S -> - 2 ^ 127 <= n < 2 ^ 127 ->
  exists res, from_i128 S n = Ret res /\ correctly_rounded S nearest (IZR n) false res.
Proof. intros S n HS Hn. apply from_i128_r_spec; assumption. Qed.
Theorem from_u128_spec : forall S n, sem_ok S -> 0 <= n < 2 ^ 128 ->
  exists res, from_u128 S n = Ret res /\ correctly_rounded S nearest (IZR n) false res.
Proof. intros S n HS Hn. apply from_u128_r_spec; assumption. Qed.
Theorem to_u128_spec : forall S x w, sem_ok S -> wf S x -> 1 <= w <= 128 ->
  exists st n, to_u128 S x w = Ret (st, n) /\ converted_to_int S x TowardZero 0 (2 ^ w - 1) st n.
Proof.
  intros S x w HS Wx Hw. destruct (to_u128_r_spec S x w TowardZero HS Wx Hw) as [st [n [ex [E [C _]]]]]. exists st, n. unfold to_u128. rewrite E. split; [reflexivity|exact C].
Qed.
Theorem to_i128_spec : forall S x w, sem_ok S -> wf S x -> (if sign x then 1 else 2) <= w <= 128 ->
  exists st n, to_i128 S x w = Ret (st, n) /\ converted_to_int S x TowardZero (- 2 ^ (w - 1)) (2 ^ (w - 1) - 1) st n.
Proof.
  intros S x w HS Wx Hw. destruct (to_i128_r_spec S x w TowardZero HS Wx Hw) as [st [n [ex [E [C _]]]]]. exists st, n. unfold to_i128. rewrite E. split; [reflexivity|exact C].
Qed.
Theorem scalbn_spec : forall S x n, sem_ok S -> wf S x -> category x = Normal ->
  exists st f, scalbn S x n = Ret f /\ correctly_rounded S nearest (value S x * bpow r2 n) (sign x) (st, f).
Proof. intros S x n HS Wx Cx. apply scalbn_r_normal; try assumption. apply side_nearest. Qed.
Theorem frexp_spec : forall S x, sem_ok S -> wf S x -> category x = Normal ->
  exists f e, frexp S x = Ret (f, e) /\ wf S f /\ finite f /\
    value S x = (value S f * bpow r2 e)%R /\ (/ 2 <= Rabs (value S f) < 1)%R.
Proof. intros S x HS Wx Cx. apply frexp_r_normal; assumption. Qed.
Theorem convert_spec : forall S T x, sem_ok S -> sem_ok T -> wf S x -> finite x ->
  exists st r lost, convert S T x = Ret (st, r, lost) /\
    correctly_rounded T nearest (value S x) (sign x) (st, r) /\
    (lost = false <-> finite r /\ value T r = value S x).
Proof. intros S T x HS HT Wx Fx. apply convert_r_finite; try assumption. apply side_nearest. Qed.
Theorem default_spec : forall S, sem_ok S -> is_special S Zero false (default S).
Proof. intros S HS. exact (ZERO_special S false HS). Qed.

Theorem from_str_spec_hex : forall S s g x, sem_ok S -> PRECISION S <= 125 -> hex_text s g x -> len s + 2 ^ 20 <= 2 ^ 29 ->
  exists st f, from_str S s = Ret (Ok f) /\ correctly_rounded S nearest x g (st, f).
Proof.
  intros S s g x HS HP Ht Hl. destruct (from_str_hex S s g x nearest HS HP Ht Hl) as [[st f] [E C]]. exists st, f. unfold from_str. rewrite E. split; [reflexivity|exact C].
Qed.
Theorem from_str_spec_dec : forall S s g x, sem_ok S -> dec_ok S -> dec_text s g x -> len s < 2 ^ 25 ->
  exists st f, from_str S s = Ret (Ok f) /\ correctly_rounded S nearest x g (st, f).
Proof.
  intros S s g x HS HD Ht Hl. destruct (from_str_dec_nearest S s g x nearest HS HD Ht Hl (or_introl eq_refl)) as [st [f [E [st' [C _]]]]].
  exists st', f. unfold from_str. rewrite E. split; [reflexivity|exact C].
Qed.
Theorem from_str_spec_err : forall S s, ~ accepted s -> exists e, from_str S s = Ret (Err e).
Proof. intros S s H. destruct (from_str_not_accepted S s nearest H) as [e E]. exists e. unfold from_str. rewrite E. reflexivity. Qed.

(** ** [unwrap] *)
Definition unwrapped {A : Type} (r : outcome (Z * A)) : outcome A := let! x := r in status_unwrap x.
Lemma unwrapped_rounded : forall S x zs r, sem_ok S -> (exists res, r = Ret res /\ correctly_rounded S nearest x zs res) ->
  (representable S x -> exists f, unwrapped r = Ret f /\ wf S f /\ finite f /\ value S f = x) /\
  (~ representable S x -> unwrapped r = Panic).
Proof.
  intros S x zs r HS [[st f] [-> C]]. unfold unwrapped, status_unwrap. cbn [bind fst snd]. split.
  - intro Rx. destruct (delivers_representable _ _ _ _ _ _ _ HS C Rx) as [-> [F V]]. exists f. destruct C as [W _]. cbn. split; [reflexivity|]. split; [exact W|]. split; assumption.
  - intro N. destruct (Z.eqb_spec st OK) as [->|Nst]; [|reflexivity]. exfalso. apply N. destruct C as [W [_ [Fi Ov]]].
    destruct (Rle_or_lt (Rabs (rounded S nearest x)) (max_finite S)) as [L|L].
    + destruct (Fi L) as [_ [V [_ [Q1 Q2]]]]. assert (Q : rounded S nearest x = x).
      { destruct (Req_dec (rounded S nearest x) x) as [Q|Q]; [exact Q|]. exfalso. destruct (Rle_or_lt (min_normal S) (Rabs (rounded S nearest x))) as [B|B].
        - specialize (Q1 Q B). discriminate.
        - specialize (Q2 Q B). discriminate. }
      rewrite Q in L. split; [|exact L]. rewrite <- Q. unfold rounded. apply generic_format_round; [apply fexp_valid; exact HS|apply valid_rnd_of].
    + specialize (Ov L). cbn [to_infinity] in Ov. destruct Ov as [Ov _]. discriminate.
Qed.
(** ** [map]: unwrapping commutes with it, and the rounding it passes on is the one of the operation *)
Definition mapped {A B : Type} (f : A -> B) (r : outcome (Z * A)) : outcome (Z * B) := let! x := r in Ret (status_map f x).
Theorem map_unwrapped : forall (A B : Type) (f : A -> B) (r : outcome (Z * A)), unwrapped (mapped f r) = (let! v := unwrapped r in Ret (f v)).
Proof. intros A B f [[st v]| |]; cbn; [|reflexivity|reflexivity]. unfold status_unwrap, status_map, assertb. cbn. destruct (st =? OK); reflexivity. Qed.
Theorem map_twice : forall (A B C : Type) (f : A -> B) (g : B -> C) (r : outcome (Z * A)),
  mapped g (mapped f r) = mapped (fun v => g (f v)) r /\ mapped (fun v => v) r = r.
Proof. intros A B C f g [[st v]| |]; split; reflexivity. Qed.
Theorem map_from_u128 : forall S n m, sem_ok S -> 0 < n <= 2 ^ 127 -> mapped neg (from_u128_r S n (round_neg m)) = from_i128_r S (- n) m.
Proof.
  intros S n m HS Hn. unfold from_i128_r. destruct (- n <? 0) eqn:E; [|apply Z.ltb_ge in E; lia]. rewrite Z.opp_involutive.
  assert (wrap128 n = n) as -> by (unfold wrap128; apply Z.mod_small; change LIMB_MOD with (2 ^ 128); lia).
  destruct (from_u128_r S n (round_neg m)) as [[st r]| |]; reflexivity.
Qed.
Theorem map_next_up : forall S x, mapped neg (next_up S (neg x)) = next_down S x.
Proof. intros S x. unfold next_down. destruct (next_up S (neg x)) as [[st r]| |]; reflexivity. Qed.

Theorem unwrap_add : forall S x y, sem_ok S -> wf S x -> wf S y -> finite x -> finite y ->
  (representable S (value S x + value S y) -> exists f, unwrapped (op_add S x y) = Ret f /\ wf S f /\ finite f /\ value S f = (value S x + value S y)%R) /\
  (~ representable S (value S x + value S y) -> unwrapped (op_add S x y) = Panic).
Proof. intros S x y HS Wx Wy Fx Fy. apply (unwrapped_rounded S _ _ _ HS (op_add_spec S x y HS Wx Wy Fx Fy)). Qed.
Theorem unwrap_mul : forall S x y, sem_ok S -> wf S x -> wf S y -> finite x -> finite y ->
  (representable S (value S x * value S y) -> exists f, unwrapped (op_mul S x y) = Ret f /\ wf S f /\ finite f /\ value S f = (value S x * value S y)%R) /\
  (~ representable S (value S x * value S y) -> unwrapped (op_mul S x y) = Panic).
Proof. intros S x y HS Wx Wy Fx Fy. apply (unwrapped_rounded S _ _ _ HS (op_mul_spec S x y HS Wx Wy Fx Fy)). Qed.
Theorem unwrap_from_i128 : forall S n, sem_ok S -> - 2 ^ 127 <= n < 2 ^ 127 ->
  (representable S (IZR n) -> exists f, unwrapped (from_i128 S n) = Ret f /\ wf S f /\ finite f /\ value S f = IZR n) /\
  (~ representable S (IZR n) -> unwrapped (from_i128 S n) = Panic).
Proof. intros S n HS Hn. apply (unwrapped_rounded S _ _ _ HS (from_i128_spec S n HS Hn)). Qed.

(** ** [Debug] *)
Lemma last_split : forall (c : Z) A B A' B', A ++ c :: B = A' ++ c :: B' -> ~ In c B -> ~ In c B' -> A = A' /\ B = B'.
Proof.
  intros c A. induction A as [|a A IH]; intros B A' B' E N N'; destruct A' as [|a' A']; cbn in E.
  - injection E as E. split; [reflexivity|exact E].
  - injection E as E1 E2. exfalso. apply N. rewrite E2. apply in_or_app. right. left. reflexivity.
  - injection E as E1 E2. exfalso. apply N'. rewrite <- E2. apply in_or_app. right. left. reflexivity.
  - injection E as -> E. destruct (IH _ _ _ E N N') as [-> ->]. split; reflexivity.
Qed.
Lemma digits_in : forall ds n c, digits 10 ds n -> In c ds -> 48 <= c <= 57.
Proof.
  intros ds n c D. induction D as [|ds n d k D IH Hd Hk]; intro I; [destruct I|].
  apply in_app_or in I. destruct I as [I|[<-|[]]]; [exact (IH I)|]. inversion Hd; lia.
Qed.
Lemma dec_digits_facts : forall fuel n, 0 <= n < 10 ^ Z.of_nat fuel -> (1 <= fuel)%nat -> digits 10 (dec_digits fuel n []) n.
Proof. intros fuel n Hn Hf. destruct (dec_digits_spec fuel n [] Hn Hf) as [ds [-> [D _]]]. rewrite app_nil_r. exact D. Qed.
Lemma fmt_int_digits : forall e, i32 e -> digits 10 (dec_digits 20 (Z.abs e) []) (Z.abs e).
Proof.
  intros e He. unfold i32 in He. apply dec_digits_facts; [|lia]. change (10 ^ Z.of_nat 20) with 100000000000000000000.
  change (2 ^ 31) with 2147483648 in He. lia.
Qed.
Lemma fmt_int_in : forall e c, i32 e -> In c (fmt_int e) -> c <> 94.
Proof.
  intros e c He I. unfold fmt_int in I. apply in_app_or in I. destruct I as [I|I].
  - destruct (e <? 0); [destruct I as [<-|[]]; discriminate|destruct I].
  - pose proof (digits_in _ _ _ (fmt_int_digits e He) I). lia.
Qed.
Lemma fmt_int_inj : forall e e', i32 e -> i32 e' -> fmt_int e = fmt_int e' -> e = e'.
Proof.
  intros e e' He He' E. unfold fmt_int in E. pose proof (fmt_int_digits e He) as D. pose proof (fmt_int_digits e' He') as D'.
  set (a := dec_digits 20 (Z.abs e) []) in *. set (b := dec_digits 20 (Z.abs e') []) in *. clearbody a b.
  destruct (Z.ltb_spec e 0) as [L|L], (Z.ltb_spec e' 0) as [L'|L']; cbn [app] in E.
  - injection E as E. rewrite E in D. pose proof (digits_unique 10 _ _ _ ltac:(lia) D D'). lia.
  - exfalso. pose proof (digits_in _ _ (ch "-") D'). rewrite <- E in H. specialize (H (or_introl eq_refl)). change (ch "-") with 45 in H. lia.
  - exfalso. pose proof (digits_in _ _ (ch "-") D). rewrite E in H. specialize (H (or_introl eq_refl)). change (ch "-") with 45 in H. lia.
  - rewrite E in D. pose proof (digits_unique 10 _ _ _ ltac:(lia) D D'). lia.
Qed.
Lemma limb_digits : forall s, limb s -> digits 10 (dec_digits 40 s []) s.
Proof.
  intros s Hs. unfold limb in Hs. apply dec_digits_facts; [|lia]. split; [lia|].
  apply Z.lt_le_trans with (2 ^ 128); [apply Hs|]. vm_compute. discriminate.
Qed.
Lemma Ret_inj : forall (A : Type) (a b : A), Ret a = Ret b -> a = b.
Proof. intros A a b E. injection E as E. exact E. Qed.
Lemma debug_shape : forall S x s, debug S x = Ret s -> exists t, fmt S x None None false = Ret t /\
  s = (((((t ++ 40 :: category_name (category x) ++ bytes " | " ++ (if sign x then bytes "-" else bytes "+")) ++ 91 :: dec_digits 40 (sig x) []) ++ bytes "] * 2") ++ 94 :: fmt_int (exp x)) ++ [41]).
Proof.
  intros S x s E. unfold debug in E. destruct (fmt S x None None false) as [t| |] eqn:Et; try discriminate. cbn [bind] in E. apply Ret_inj in E. subst s.
  exists t. split; [reflexivity|]. unfold fmt_limbs1, is_negative.
  change (bytes "(") with [40]. change (bytes "[") with [91]. change (bytes " * 2^") with (32 :: 42 :: 32 :: 50 :: 94 :: []).
  change (bytes "] * 2") with (93 :: 32 :: 42 :: 32 :: 50 :: []). change (bytes "]") with [93]. change (bytes ")") with [41].
  repeat rewrite <- app_assoc. cbn [app]. repeat rewrite <- app_assoc. cbn [app]. repeat rewrite <- app_assoc. reflexivity.
Qed.
Lemma category_tail_in : forall c (b : bool), ~ In 40 (category_name c ++ bytes " | " ++ (if b then bytes "-" else bytes "+")).
Proof. intros c b I. destruct c, b; vm_compute in I; repeat (destruct I as [I|I]; [discriminate|]); exact I. Qed.
Lemma category_tail_inj : forall c c' (b b' : bool),
  category_name c ++ bytes " | " ++ (if b then bytes "-" else bytes "+") = category_name c' ++ bytes " | " ++ (if b' then bytes "-" else bytes "+") -> c = c' /\ b = b'.
Proof. intros c c' b b' E. destruct c, c', b, b'; try discriminate E; split; reflexivity. Qed.
Theorem debug_spec : forall S x, sem_ok S -> wf S x ->
  exists s, debug S x = Ret s /\
    (exists t u, s = t ++ u /\ fmt S x None None false = Ret t /\ accepted t) /\
    forall y, wf S y -> debug S y = Ret s -> x = y.
Proof.
  intros S x HS Wx. pose proof (ok_prec S HS) as Hp.
  destruct (fmt_accepted S x None None false HS Wx ltac:(cbn; lia)) as [t [Et At]].
  { cbn [chosen_precision]. pose proof (Z.div_le_mono 0 (PRECISION S * 59) 196 ltac:(lia) ltac:(lia)) as L0. rewrite Z.div_0_l in L0 by lia.
    pose proof (Z.div_le_mono (PRECISION S * 59) (126 * 59) 196 ltac:(lia) ltac:(lia)) as L1. change (126 * 59 / 196) with 37 in L1.
    unfold largest_precision. lia. }
  assert (E : exists s, debug S x = Ret s /\ exists u, s = t ++ u).
  { unfold debug. rewrite Et. cbn [bind]. eexists. split; [reflexivity|]. eexists. reflexivity. }
  destruct E as [s [E [u Eu]]]. exists s. split; [exact E|]. split; [exists t, u; split; [exact Eu|split; assumption]|].
  intros y Wy Ey. destruct (debug_shape S x s E) as [tx [_ Sx]]. destruct (debug_shape S y s Ey) as [ty [_ Sy]].
  destruct Wx as [Lx [Ix _]]. destruct Wy as [Ly [Iy _]]. rewrite Sx in Sy. clear E Eu Ey Sx At Et.
  apply app_inj_tail in Sy. destruct Sy as [Sy _].
  apply last_split in Sy; [|intro I; exact (fmt_int_in _ _ Ix I eq_refl)|intro I; exact (fmt_int_in _ _ Iy I eq_refl)].
  destruct Sy as [Sy Ee]. apply fmt_int_inj in Ee; try assumption. apply app_inv_tail in Sy.
  pose proof (limb_digits _ Lx) as Dx. pose proof (limb_digits _ Ly) as Dy.
  apply last_split in Sy; [|intro I; pose proof (digits_in _ _ _ Dx I); lia|intro I; pose proof (digits_in _ _ _ Dy I); lia].
  destruct Sy as [Sy Es]. rewrite Es in Dx. pose proof (digits_unique 10 _ _ _ ltac:(lia) Dx Dy) as Ess. clear Es Dx Dy.
  apply last_split in Sy; [|apply category_tail_in|apply category_tail_in]. destruct Sy as [_ Sc]. apply category_tail_inj in Sc. destruct Sc as [Ec Eg].
  destruct x, y. cbn in *. congruence.
Qed.

(** ** Pairs *)
Theorem dd_op_add_spec : forall F, pair_ok F -> 4 <= PRECISION F -> forall x y, canonical_pair F x -> canonical_pair F y ->
  (Rabs (value F (d0 x)) + Rabs (value F (d0 y)) <= bpow r2 (MAX_EXP F - 4))%R ->
  exists st r, dd_op_add F x y = Ret (st, r) /\ canonical_pair F r /\
    (Rabs (pair_value F r - (pair_value F x + pair_value F y)) <=
       bpow r2 (2 - 2 * PRECISION F) * (Rabs (value F (d0 x)) + Rabs (value F (d0 y))))%R.
Proof.
  intros F HF HP x y Cx Cy L. destruct (dd_add_accurate F HF HP nearest (or_introl eq_refl) x y Cx Cy L) as [st [r [E [_ [_ [C [_ B]]]]]]].
  exists st, r. split; [exact E|]. split; [exact (C eq_refl)|exact B].
Qed.
Theorem dd_op_sub_spec : forall F, pair_ok F -> 4 <= PRECISION F -> forall x y, canonical_pair F x -> canonical_pair F y ->
  (Rabs (value F (d0 x)) + Rabs (value F (d0 y)) <= bpow r2 (MAX_EXP F - 4))%R ->
  exists st r, dd_op_sub F x y = Ret (st, r) /\ canonical_pair F r /\
    (Rabs (pair_value F r - (pair_value F x - pair_value F y)) <=
       bpow r2 (2 - 2 * PRECISION F) * (Rabs (value F (d0 x)) + Rabs (value F (d0 y))))%R.
Proof.
  intros F HF HP x y Cx Cy L. destruct (dd_sub_accurate F HF HP nearest (or_introl eq_refl) x y Cx Cy L) as [st [r [E [_ [_ [C [_ B]]]]]]].
  exists st, r. split; [exact E|]. split; [exact (C eq_refl)|exact B].
Qed.
Theorem dd_op_mul_spec : forall F, pair_ok F -> 4 <= PRECISION F -> forall x y, canonical_pair F x -> canonical_pair F y ->
  (bpow r2 (MIN_EXP F + 2 * PRECISION F + 1) <= Rabs (value F (d0 x) * value F (d0 y)) <= bpow r2 (MAX_EXP F - 4))%R ->
  exists st r, dd_op_mul F x y = Ret (st, r) /\ canonical_pair F r /\
    (Rabs (pair_value F r - pair_value F x * pair_value F y) <= bpow r2 (4 - 2 * PRECISION F) * Rabs (pair_value F x * pair_value F y))%R.
Proof.
  intros F HF HP x y Cx Cy L. destruct (dd_mul_accurate F HF HP nearest (or_introl eq_refl) x y Cx Cy L) as [st [r [E [_ [_ [C _]]]]]].
  destruct (dd_mul_relative F HF HP nearest (or_introl eq_refl) x y Cx Cy L) as [st' [r' [E' B]]].
  rewrite E in E'. injection E' as <- <-. exists st, r. split; [exact E|]. split; [exact (C eq_refl)|exact B].
Qed.
Theorem dd_op_div_spec : forall F, pair_ok F -> forall x y, canonical_pair F x -> canonical_pair F y -> operand F y <> 0%R ->
  via_wide F (fun st f => correctly_rounded (FallbackS F) nearest (operand F x / operand F y) (xorb (sign (d0 x)) (sign (d0 y))) (st, f))
    (dd_op_div F x y).
Proof. intros F HF x y Cx Cy N. apply dd_div_r_finite; assumption. Qed.
Theorem dd_op_rem_spec : forall F, pair_ok F -> forall x y, canonical_pair F x -> canonical_pair F y -> operand F y <> 0%R ->
  via_wide F (fun st f => st = OK /\ finite f /\ sign f = sign (d0 x) /\
      value (FallbackS F) f = (operand F x - IZR (Ztrunc (operand F x / operand F y)) * operand F y)%R /\
      (Rabs (value (FallbackS F) f) < Rabs (operand F y))%R)
    (dd_op_rem F x y).
Proof. intros F HF x y Cx Cy N. apply dd_c_fmod_finite; assumption. Qed.
Theorem dd_default_spec : forall F, pair_ok F ->
  proper_pair F (dd_default F) /\ category (d0 (dd_default F)) = Zero /\ sign (d0 (dd_default F)) = false /\ pair_value F (dd_default F) = 0%R.
Proof. exact dd_zero_spec. Qed.
Theorem dd_from_str_spec_dec : forall F, pair_ok F -> forall s g x, dec_ok (FallbackS F) -> dec_text s g x -> len s < 2 ^ 25 ->
  exists st f, correctly_rounded (FallbackS F) nearest x g (st, f) /\
    (splittable F f -> exists r, dd_from_str F s = Ret (Ok r) /\ split_of F f r) /\
    (~ splittable F f -> dd_from_str F s = Panic).
Proof.
  intros F HF s g x HD Ht Hl. destruct (dd_from_str_dec F HF s g x nearest HD Ht Hl) as [o [E [st [f [W [[_ N] [Y1 Y2]]]]]]].
  destruct (N (or_introl eq_refl)) as [st' [C _]]. exists st', f. split; [exact C|]. unfold dd_from_str. rewrite E. split; intro Sp.
  - destruct (Y1 Sp) as [r [-> Hr]]. exists r. split; [reflexivity|exact Hr].
  - rewrite (Y2 Sp). reflexivity.
Qed.
Theorem dd_from_str_spec_err : forall F s, ~ accepted s -> exists e, dd_from_str F s = Ret (Err e).
Proof. intros F s H. destruct (dd_from_str_rejects F s nearest H) as [e E]. exists e. unfold dd_from_str. rewrite E. reflexivity. Qed.
