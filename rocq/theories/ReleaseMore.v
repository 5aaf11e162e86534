(** * ReleaseMore.v -- pairs of well-formed numbers, text, and where the two builds
    differ (proofs of C82). *)
From Coq Require Import ZArith Reals List Bool Lia Lra String Ascii.
From Coq Require Import List.
From Flocq Require Import Core.
From Verif Require Import Machine Sig SpecSig Limbs SigProofs Ieee Parse Fmt Ppc Ops OpsPair Spec Norm Arith Special Order Formats Int Scale Next Convert Integral Rem Fma Algebra More Total SpecStr StrTop SpecFmt FmtNum FmtTop FmtEdge FmtBack Reach SpecFma FmaFull FmaExact SpecPair Pair PairBase PairOps PairTotal Samples Refute Release ReleaseTop ReleaseProofs ReleaseEq.
Import ListNotations.
Local Open Scope Z_scope.
Ltac Zify.zify_post_hook ::= idtac.

Lemma eq_defined : forall {A : Type} (a b : outcome A), refines a b -> defined a -> b = a.
Proof. intros A a b H [v E]. exact (eq_of_ref a b v H E). Qed.

(** ** Numbers *)
Section Numbers.
Variables (S : Semantics) (x y : Float).
Hypothesis (RX : reachable S x) (RY : reachable S y).
Theorem arithmetic_same : forall m,
  add_r_rel S x y m = add_r S x y m /\ sub_r_rel S x y m = sub_r S x y m /\ mul_r_rel S x y m = mul_r S x y m /\
  div_r_rel S x y m = div_r S x y m /\ c_fmod_rel S x y = c_fmod S x y /\ ieee_rem_rel S x y = ieee_rem S x y /\
  next_up_rel S x = next_up S x /\ next_down_rel S x = next_down S x /\
  round_to_integral_rel S x m = round_to_integral S x m /\ (forall n, scalbn_r_rel S x n m = scalbn_r S x n m) /\
  frexp_r_rel S x m = frexp_r S x m /\ ilogb_rel S x = ilogb S x /\ get_exact_inverse_rel S x = get_exact_inverse S x /\
  (forall T, In T crate_formats -> convert_r_rel S T x m = convert_r S T x m).
Proof.
  intro m. destruct (arithmetic_defined S x y RX RY m) as (D1 & D2 & D3 & D4 & D5 & D6 & D7 & D8 & D9 & D10 & D11 & D12 & D13 & D14).
  split; [exact (eq_defined _ _ (add_r_ref S x y m) D1)|].
  split; [exact (eq_defined _ _ (sub_r_ref S x y m) D2)|].
  split; [exact (eq_defined _ _ (mul_r_ref S x y m) D3)|].
  split; [exact (eq_defined _ _ (div_r_ref S x y m) D4)|].
  split; [exact (eq_defined _ _ (c_fmod_ref S x y) D5)|].
  split; [exact (eq_defined _ _ (ieee_rem_ref S x y) D6)|].
  split; [exact (eq_defined _ _ (next_up_ref S x) D7)|].
  split; [exact (eq_defined _ _ (next_down_ref S x) D8)|].
  split; [exact (eq_defined _ _ (round_to_integral_ref S x m) D9)|].
  split; [exact (fun n => eq_defined _ _ (scalbn_r_ref S x n m) (D10 n))|].
  split; [exact (eq_defined _ _ (frexp_r_ref S x m) D11)|].
  split; [exact (eq_defined _ _ (ilogb_ref S x) D12)|].
  split; [exact (eq_defined _ _ (get_exact_inverse_ref S x) D13)|].
  exact (fun T HT => eq_defined _ _ (convert_r_ref S T x m) (D14 T HT)).
Qed.
Theorem queries_same : is_denormal_rel S x = is_denormal S x /\ is_normal_rel S x = is_normal S x /\ is_integer_rel S x = is_integer S x.
Proof.
  destruct (order_defined S x y RX RY) as (_ & _ & _ & _ & _ & _ & _ & _ & _ & D1 & D2 & D3).
  split; [exact (eq_defined _ _ (is_denormal_ref S x) D1)|]. split; [exact (eq_defined _ _ (is_normal_ref S x) D2)|exact (eq_defined _ _ (is_integer_ref S x) D3)].
Qed.
Theorem to_int_same : forall w m, (1 <= w <= 128 -> to_u128_r_rel S x w m = to_u128_r S x w m) /\
  ((if sign x then 1 else 2) <= w <= 128 -> to_i128_r_rel S x w m = to_i128_r S x w m).
Proof.
  intros w m. destruct (to_int_defined S x RX w m) as [U I].
  split; intro H; [exact (eq_defined _ _ (to_u128_r_ref S x w m) (U H))|exact (eq_defined _ _ (to_i128_r_ref S x w m) (I H))].
Qed.
Theorem to_bits_same : In S public_formats -> to_bits_rel S x = to_bits S x.
Proof. intro H. exact (eq_defined _ _ (to_bits_ref S x) (to_bits_defined S x RX H)). Qed.
End Numbers.

Theorem from_bits_same : forall S b, In S public_formats -> 0 <= b < 2 ^ 128 -> from_bits_rel S b = from_bits S b.
Proof. intros S b H B. exact (eq_defined _ _ (from_bits_ref S b) (from_bits_defined S b H B)). Qed.
Theorem from_int_same : forall S m, In S crate_formats ->
  (forall n, 0 <= n < 2 ^ 128 -> from_u128_r_rel S n m = from_u128_r S n m) /\
  (forall n, - 2 ^ 127 <= n < 2 ^ 127 -> from_i128_r_rel S n m = from_i128_r S n m).
Proof.
  intros S m H. destruct (from_int_defined S m H) as [U I].
  split; intros n Hn; [exact (eq_defined _ _ (from_u128_r_ref S n m) (U n Hn))|exact (eq_defined _ _ (from_i128_r_ref S n m) (I n Hn))].
Qed.
Theorem from_str_same : forall S s m, sem_ok S -> dec_ok S -> len s < 2 ^ 25 -> from_str_r_rel S s m = from_str_r S s m.
Proof.
  intros S s m HS HD HL. apply (eq_defined _ _ (from_str_r_ref S s m)).
  destruct (from_str_total S s m HS HD HL) as [[st [f [E _]]]|[e E]]; eexists; exact E.
Qed.
(** the scaling of a number before its digits are written (as [scaled_sig] of FmtTop.v) *)
Definition scaled_sig_rel (S : Semantics) (x : Float) : outcome (list Z * Z) :=
  let! e := wrap_i32 (exp x - (PRECISION S - 1)) in
  let! '(sg, e, _) := shift_right_rel [sig x] e (trailing_zeros128 (sig x)) in
  (if e =? 0 then Ret (sg, e)
   else if 0 <? e then shift_left_rel (resize sg (limbs_for_bits (PRECISION S + e))) e e
   else
     let! texp := wrap_i32 (- e) in
     let! sg := fmt_pow5_loop_rel 64 texp sg [] [] [] in
     Ret (sg, e)).
Lemma scaled_sig_ref : forall S x, refines (scaled_sig S x) (scaled_sig_rel S x).
Proof. intros S x. unfold scaled_sig, scaled_sig_rel. ref_all. Qed.
Lemma fmt_rel_panics : forall S x w p alternate sg e e', category x = Normal -> 0 <= chosen_precision S p <= largest_precision ->
  scaled_sig S x = Ret (sg, e) ->
  digits_loop (Datatypes.S (Z.to_nat (128 * len sg))) sg e (saturating_usub (Sig.omsb sg) ((chosen_precision S p * 196 + 58) / 59) * 59 / 196) true [] = Ret ([], e') ->
  fmt_rel S x w p alternate = Panic.
Proof.
  intros S x w p alternate sg e e' C HP E1 E2. apply scaled_sig_ref in E1. apply digits_loop_ref in E2.
  unfold fmt_rel. rewrite C. cbv zeta. fold (chosen_precision S p). unfold scaled_sig_rel in E1.
  destruct (wrap_i32 (exp x - (PRECISION S - 1))) as [e1| |]; cbn [bind] in *; try discriminate E1.
  destruct (shift_right_rel [sig x] e1 (trailing_zeros128 (sig x))) as [[[sg1 e2] l]| |]; cbn [bind] in *; try discriminate E1.
  rewrite E1. cbn [bind]. unfold wrap_usize_up. destruct (Z.ltb_spec (chosen_precision S p * 196 + 58) (2 ^ 64)) as [_|Q]; [|unfold largest_precision in HP; lia].
  rewrite E2. reflexivity.
Qed.
Theorem fmt_same : forall S x w p alternate, sem_ok S -> wf S x -> 0 <= chosen_width w -> 0 <= chosen_precision S p <= largest_precision ->
  fmt_rel S x w p alternate = fmt S x w p alternate.
Proof.
  intros S x w p alternate HS HX HW HP.
  assert (D : defined (fmt S x w p alternate) -> fmt_rel S x w p alternate = fmt S x w p alternate) by exact (eq_defined _ _ (fmt_ref S x w p alternate)).
  destruct (category x) eqn:C.
  - apply D. destruct (fmt_infinity S x w p alternate C) as [s [E _]]. eexists. exact E.
  - apply D. unfold fmt. rewrite C. eexists. reflexivity.
  - destruct (Z_lt_le_dec 0 (chosen_precision S p)) as [L|L].
    { apply D. destruct (fmt_normal S x w p alternate HS HX C HW ltac:(lia)) as [s [E _]]. eexists. exact E. }
    assert (P0 : p = Some 0).
    { destruct p as [p|]; cbn [chosen_precision] in *; [f_equal; lia|exfalso]. destruct HS as [Hp _ _ _].
      pose proof (Z.div_pos (PRECISION S * 59) 196 ltac:(lia) ltac:(lia)). lia. }
    rewrite P0 in *. clear P0. destruct (fmt_precision_0 S x w alternate HS HX C HW) as [N [k [HN K]]].
    destruct (Z.ltb_spec N (10 ^ ((Z.log2 N + 1) * 59 / 196))) as [B|B]; [|apply D; destruct K as [k' [t [_ [_ K]]]]; eexists; exact K].
    rewrite K. destruct (scaled_expansion S x HS HX C) as [sg [e [E [Hs [He [HL X]]]]]].
    destruct (expansion_unique _ _ _ _ _ HN X) as [-> ->]. destruct X as [_ [Hp _]].
    pose proof (Z.log2_nonneg (lval sg)) as L0. pose proof (lval_bound sg Hs) as Bs.
    set (D0 := (Z.log2 (lval sg) + 1) * 59 / 196) in *.
    assert (Bb : Z.log2 (lval sg) + 1 <= 2 ^ 23).
    { assert (Z.log2 (lval sg) < nbits sg) by (apply Z.log2_lt_pow2; lia). unfold nbits, nlimbs in *. lia. }
    assert (HD : 0 <= D0 <= 2 ^ 23).
    { unfold D0. split; [apply Z.div_pos; lia|]. apply Z.div_le_upper_bound; lia. }
    destruct (loop_exhaust (Z.to_nat D0) (Datatypes.S (Z.to_nat (128 * len sg))) sg e Hs) as [e' E'].
    + intro Z0. lia.
    + rewrite Z2Nat.id by lia. apply Z.div_small. lia.
    + replace (Z.of_nat (Datatypes.S (Z.to_nat (128 * len sg))) - 1) with (nbits sg) by (unfold nbits, nlimbs, len; lia). lia.
    + lia.
    + lia.
    + rewrite Z2Nat.id in E' by lia. apply (fmt_rel_panics S x w (Some 0) alternate sg e e' C HP E). rewrite <- E'. f_equal.
      rewrite omsb_spec by assumption. change ((chosen_precision S (Some 0) * 196 + 58) / 59) with 0.
      rewrite bitlen_pos by exact Hp. unfold D0, saturating_usub. f_equal. lia.
  - apply D. destruct (fmt_zero S x w p alternate C) as [s [E _]]. eexists. exact E.
Qed.

(** ** Pairs *)
Section Pairs.
Variable F : Semantics.
Hypothesis HF : pair_ok F.
Let W := FallbackS F.
Let X := FallbackExtendedS F.
Let FO : sem_ok F := F_ok F HF.
Let WO : sem_ok W := W_ok F HF.
Let XO : sem_ok X := X_ok F HF.

Lemma to_fallback_same : forall x, pair_wf F x -> to_fallback_rel F x = to_fallback F x.
Proof.
  intros [a b] [Ha Hb]. cbn [d0 d1] in *. unfold to_fallback_rel, to_fallback. cbn [d0 d1]. change (FallbackS F) with W.
  destruct (convert_r_total F W a NearestTiesToEven FO WO Ha) as [st [r [lost [E Hr]]]].
  rewrite (convert_r_ref _ _ _ _ _ E), E. cbn [bind]. apply eq_assertb; intros _.
  destruct (is_finite_non_zero r); [|reflexivity].
  destruct (convert_r_total F W b NearestTiesToEven FO WO Hb) as [st1 [r1 [lost1 [E1 Hr1]]]].
  rewrite (convert_r_ref _ _ _ _ _ E1), E1. cbn [bind]. apply eq_assertb; intros _.
  destruct (add_r_total W r r1 WO Hr Hr1 NearestTiesToEven) as [st2 [r2 [E2 _]]].
  rewrite (add_r_ref _ _ _ _ _ E2), E2. reflexivity.
Qed.
Lemma from_fallback_same : forall f, wf W f -> from_fallback_rel F f = from_fallback F f.
Proof.
  intros f Hf. unfold from_fallback_rel, from_fallback. change (FallbackS F) with W. change (FallbackExtendedS F) with X.
  destruct (convert_r_total W X f NearestTiesToEven WO XO Hf) as [st [e [lost [E He]]]].
  rewrite (convert_r_ref _ _ _ _ _ E), E. cbn [bind]. apply eq_assertb; intros _.
  destruct (convert_r_total X F e NearestTiesToEven XO FO He) as [st1 [a [lost1 [E1 Ha]]]].
  rewrite (convert_r_ref _ _ _ _ _ E1), E1. cbn [bind]. apply eq_assertb; intros _.
  destruct (is_finite_non_zero a && lost1); [|reflexivity].
  destruct (convert_r_total F X a NearestTiesToEven FO XO Ha) as [st2 [u [lost2 [E2 Hu]]]].
  rewrite (convert_r_ref _ _ _ _ _ E2), E2. cbn [bind]. apply eq_assertb; intros _.
  destruct (sub_r_total X e u XO He Hu NearestTiesToEven) as [st3 [v [E3 Hv]]].
  rewrite (sub_r_ref _ _ _ _ _ E3), E3. cbn [bind]. apply eq_assertb; intros _.
  destruct (convert_r_total X F v NearestTiesToEven XO FO Hv) as [st4 [v' [lost4 [E4 Hv']]]].
  rewrite (convert_r_ref _ _ _ _ _ E4), E4. reflexivity.
Qed.
Lemma map_same : forall o o', refines o o' -> returns W o -> map_from_fallback_rel F o' = map_from_fallback F o.
Proof.
  intros o o' R [st [f [E Hf]]]. unfold map_from_fallback_rel, map_from_fallback. rewrite (R _ E), E. cbn [bind].
  rewrite (from_fallback_same f Hf). reflexivity.
Qed.
Lemma wide1_same : forall op op' x, (forall w, wf W w -> returns W (op w)) -> (forall w, refines (op w) (op' w)) -> pair_wf F x ->
  (let! x := to_fallback_rel F x in map_from_fallback_rel F (op' x)) = (let! x := to_fallback F x in map_from_fallback F (op x)).
Proof.
  intros op op' x Hop R Hx. rewrite (to_fallback_same x Hx).
  destruct (to_fallback_outcome F HF x Hx) as [[_ [w [-> Hw]]]|[_ ->]]; cbn [bind]; [|reflexivity].
  exact (map_same _ _ (R w) (Hop w Hw)).
Qed.
Lemma wide2_same : forall op op' x y, (forall w v, wf W w -> wf W v -> returns W (op w v)) -> (forall w v, refines (op w v) (op' w v)) ->
  pair_wf F x -> pair_wf F y ->
  (let! x := to_fallback_rel F x in let! y := to_fallback_rel F y in map_from_fallback_rel F (op' x y)) =
  (let! x := to_fallback F x in let! y := to_fallback F y in map_from_fallback F (op x y)).
Proof.
  intros op op' x y Hop R Hx Hy. rewrite (to_fallback_same x Hx).
  destruct (to_fallback_outcome F HF x Hx) as [[_ [w [-> Hw]]]|[_ ->]]; cbn [bind]; [|reflexivity].
  exact (wide1_same (op w) (op' w) y (fun v => Hop w v Hw) (R w) Hy).
Qed.

Theorem dd_mul_same : forall x y m, pair_wf F x -> pair_wf F y -> dd_mul_r_rel F x y m = dd_mul_r F x y m.
Proof.
  intros x y m Hx Hy. unfold dd_mul_r_rel, dd_mul_r. destruct (dd_category x), (dd_category y);
    lazymatch goal with |- dd_mul_normal_rel _ _ _ _ = _ => idtac | _ => reflexivity end.
  destruct x as [a b], y as [c d], Hx as [Ha Hb], Hy as [Hc Hd]. cbn [d0 d1] in *. unfold dd_mul_normal_rel, dd_mul_normal. cbn [d0 d1].
  destruct (mul_r_total F a c FO Ha Hc m) as [st [t [E Ht]]]. rewrite (mul_r_ref _ _ _ _ _ E), E. cbn [bind].
  destruct (is_finite_non_zero t); cbn [negb]; [|reflexivity]. pose proof (PairBase.wf_neg F t Ht) as Hnt.
  rewrite (mul_add_r_rel_eq F FO a c (neg t) m Ha Hc Hnt).
  destruct (mul_add_r_outcome F a c (neg t) m FO Ha Hc Hnt) as [[st2 [tau [E2 Htau]]]|[E2 _]]; rewrite E2; cbn [bind]; [|reflexivity].
  destruct (mul_r_total F a d FO Ha Hd m) as [st3 [v [E3 Hv]]]. rewrite (mul_r_ref _ _ _ _ _ E3), E3. cbn [bind].
  destruct (mul_r_total F b c FO Hb Hc m) as [st4 [w [E4 Hw]]]. rewrite (mul_r_ref _ _ _ _ _ E4), E4. cbn [bind].
  destruct (add_r_total F v w FO Hv Hw m) as [st5 [v' [E5 Hv']]]. rewrite (add_r_ref _ _ _ _ _ E5), E5. cbn [bind].
  destruct (add_r_total F tau v' FO Htau Hv' m) as [st6 [tau' [E6 Htau']]]. rewrite (add_r_ref _ _ _ _ _ E6), E6. cbn [bind].
  destruct (add_r_total F t tau' FO Ht Htau' m) as [st7 [u [E7 Hu]]]. rewrite (add_r_ref _ _ _ _ _ E7), E7. cbn [bind].
  destruct (is_finite u); cbn [negb]; [|reflexivity].
  destruct (sub_r_total F t u FO Ht Hu m) as [st8 [t8 [E8 Ht8]]]. rewrite (sub_r_ref _ _ _ _ _ E8), E8. cbn [bind].
  destruct (add_r_total F t8 tau' FO Ht8 Htau' m) as [st9 [t9 [E9 Ht9]]]. rewrite (add_r_ref _ _ _ _ _ E9), E9. reflexivity.
Qed.
Theorem dd_arithmetic_same : forall x y z m, pair_wf F x -> pair_wf F y -> pair_wf F z ->
  dd_add_r_rel F x y m = dd_add_r F x y m /\ dd_sub_r_rel F x y m = dd_sub_r F x y m /\ dd_mul_r_rel F x y m = dd_mul_r F x y m /\
  dd_div_r_rel F x y m = dd_div_r F x y m /\ dd_mul_add_r_rel F x y z m = dd_mul_add_r F x y z m /\
  dd_ieee_rem_rel F x y = dd_ieee_rem F x y /\ dd_c_fmod_rel F x y = dd_c_fmod F x y /\
  dd_round_to_integral_rel F x m = dd_round_to_integral F x m /\ dd_next_up_rel F x = dd_next_up F x /\ dd_next_down_rel F x = dd_next_down F x /\
  dd_get_exact_inverse_rel F x = dd_get_exact_inverse F x /\
  (forall n, dd_scalbn_r_rel F x n m = dd_scalbn_r F x n m) /\ dd_frexp_r_rel F x m = dd_frexp_r F x m /\ dd_ilogb_rel F x = dd_ilogb F x /\
  dd_is_denormal_rel F x = dd_is_denormal F x /\ dd_is_integer_rel F x = dd_is_integer F x.
Proof.
  intros x y z m Hx Hy Hz.
  destruct (dd_halves_total F HF x m Hx) as [H1 [[r [e [H2 _]]] [e' H3]]].
  destruct (dd_order_defined F HF x y Hx Hy) as (_ & _ & _ & _ & _ & _ & _ & D1 & D2).
  split. { destruct (dd_add_r_total F HF x y m Hx Hy) as [st [r' [E _]]]. exact (eq_of_ref _ _ _ (dd_add_r_ref F x y m) E). }
  split. { destruct (dd_sub_r_total F HF x y m Hx Hy) as [st [r' [E _]]]. exact (eq_of_ref _ _ _ (dd_sub_r_ref F x y m) E). }
  split; [exact (dd_mul_same x y m Hx Hy)|].
  split; [apply (wide2_same (fun a b => div_r W a b m) (fun a b => div_r_rel W a b m)); [intros; apply div_r_total|intros; apply div_r_ref|..]; assumption|].
  split.
  { unfold dd_mul_add_r_rel, dd_mul_add_r. rewrite (to_fallback_same x Hx), (to_fallback_same y Hy), (to_fallback_same z Hz).
    destruct (to_fallback_outcome F HF x Hx) as [[_ [a [-> Ha]]]|[_ ->]]; cbn [bind]; [|reflexivity].
    destruct (to_fallback_outcome F HF y Hy) as [[_ [b [-> Hb]]]|[_ ->]]; cbn [bind]; [|reflexivity].
    destruct (to_fallback_outcome F HF z Hz) as [[_ [c [-> Hc]]]|[_ ->]]; cbn [bind]; [|reflexivity].
    change (FallbackS F) with W. rewrite (mul_add_r_rel_eq W WO a b c m Ha Hb Hc).
    destruct (mul_add_r_outcome W a b c m WO Ha Hb Hc) as [[st [f [E Hf]]]|[E _]]; rewrite E; [|reflexivity].
    apply map_same; [intros v Q; exact Q|]. exists st, f. split; [reflexivity|exact Hf]. }
  split; [apply (wide2_same (ieee_rem W) (ieee_rem_rel W)); [intros; apply ieee_rem_total|intros; apply ieee_rem_ref|..]; assumption|].
  split; [apply (wide2_same (c_fmod W) (c_fmod_rel W)); [intros; apply c_fmod_total|intros; apply c_fmod_ref|..]; assumption|].
  split; [apply (wide1_same (fun a => round_to_integral W a m) (fun a => round_to_integral_rel W a m)); [intros; apply round_to_integral_total|intros; apply round_to_integral_ref|]; assumption|].
  assert (U : forall x, pair_wf F x -> dd_next_up_rel F x = dd_next_up F x).
  { intros x' Hx'. apply (wide1_same (next_up W) (next_up_rel W)); [intros; apply next_up_total|intros; apply next_up_ref|]; assumption. }
  split; [exact (U x Hx)|]. split; [unfold dd_next_down_rel, dd_next_down; rewrite (U _ (neg_wf F x Hx)); reflexivity|].
  split.
  { unfold dd_get_exact_inverse_rel, dd_get_exact_inverse. rewrite (to_fallback_same x Hx).
    destruct (to_fallback_outcome F HF x Hx) as [[_ [a [-> Ha]]]|[_ ->]]; cbn [bind]; [|reflexivity].
    change (FallbackS F) with W. destruct (get_exact_inverse_total W a WO Ha) as [o [E Ho]].
    rewrite (get_exact_inverse_ref _ _ _ E), E. cbn [bind]. destruct o as [f|]; [|reflexivity]. rewrite (from_fallback_same f (Ho f eq_refl)). reflexivity. }
  split. { intro n. destruct (H1 n) as [r' [E _]]. exact (eq_of_ref _ _ _ (dd_scalbn_r_ref F x n m) E). }
  split; [exact (eq_of_ref _ _ _ (dd_frexp_r_ref F x m) H2)|]. split; [exact (eq_of_ref _ _ _ (dd_ilogb_ref F x) H3)|].
  split; [exact (eq_defined _ _ (dd_is_denormal_ref F x) D1)|exact (eq_defined _ _ (dd_is_integer_ref F x) D2)].
Qed.
Theorem dd_from_int_same : forall m,
  (forall n, 0 <= n < 2 ^ 128 -> dd_from_u128_r_rel F n m = dd_from_u128_r F n m) /\
  (forall n, - 2 ^ 127 <= n < 2 ^ 127 -> dd_from_i128_r_rel F n m = dd_from_i128_r F n m).
Proof.
  assert (U : forall m n, 0 <= n < 2 ^ 128 -> dd_from_u128_r_rel F n m = dd_from_u128_r F n m).
  { intros m n Hn. apply map_same; [apply from_u128_r_ref|]. destruct (from_u128_r_spec W n m WO Hn) as [[st f] [E [Wf _]]].
    exists st, f. split; [exact E|exact Wf]. }
  intro m. split; [exact (U m)|]. intros n Hn. unfold dd_from_i128_r_rel, dd_from_i128_r. destruct (n <? 0) eqn:N.
  - rewrite U; [reflexivity|]. unfold wrap128, LIMB_MOD. apply Z.mod_pos_bound. reflexivity.
  - apply Z.ltb_ge in N. apply U. split; [exact N|]. eapply Z.lt_trans; [exact (proj2 Hn)|reflexivity].
Qed.
Theorem dd_to_int_same : forall x w m, pair_wf F x ->
  (1 <= w <= 128 -> dd_to_u128_r_rel F x w m = dd_to_u128_r F x w m) /\
  ((if sign (d0 x) then 1 else 2) <= w <= 128 -> dd_to_i128_r_rel F x w m = dd_to_i128_r F x w m).
Proof.
  assert (U : forall x w m, pair_wf F x -> 1 <= w <= 128 -> dd_to_u128_r_rel F x w m = dd_to_u128_r F x w m).
  { intros x w m Hx Hw. unfold dd_to_u128_r_rel, dd_to_u128_r. rewrite (to_fallback_same x Hx).
    destruct (to_fallback_outcome F HF x Hx) as [[_ [f [-> Hf]]]|[_ ->]]; cbn [bind]; [|reflexivity].
    destruct (to_u128_r_spec W f w m WO Hf Hw) as [st [n [ex [E _]]]]. exact (eq_of_ref _ _ _ (to_u128_r_ref W f w m) E). }
  intros x w m Hx. split; [exact (U x w m Hx)|]. intro Hw.
  unfold dd_to_i128_r_rel, dd_to_i128_r, dd_is_negative, is_negative.
  assert (Ew : usub w 1 = Ret (w - 1)). { unfold usub. destruct (sign (d0 x)), (Z.leb_spec 1 w); try reflexivity; lia. }
  destruct (sign (d0 x)) eqn:Sx.
  - rewrite (U _ w _ (neg_wf F x Hx) Hw). apply eq_bind; [reflexivity|]. intros [[st r] ex] E.
    rewrite (wrap_usize_ref _ _ _ Ew), Ew. cbn [bind].
    assert (El : shl128 1 (w - 1) = Ret (2 ^ (w - 1))).
    { unfold shl128. destruct (Z.leb_spec 0 (w - 1)) as [_|Q]; [|lia]. destruct (Z.ltb_spec (w - 1) 128) as [_|Q]; [|lia]. cbn [andb]. f_equal.
      unfold wrap128, LIMB_MOD. rewrite Z.shiftl_1_l. apply Z.mod_small. split; [apply Z.pow_nonneg; lia|apply Z.pow_lt_mono_r; lia]. }
    rewrite (mask_shl_ref _ _ _ El), El. cbn [bind]. rewrite (Z.mod_small (w - 1) 128) by lia. reflexivity.
  - rewrite (wrap_usize_ref _ _ _ Ew), Ew. cbn [bind]. rewrite (U x (w - 1) m Hx) by lia. reflexivity.
Qed.
End Pairs.

(** bits and text of pairs *)
Theorem dd_bits_same : forall b x, (0 <= b < 2 ^ 128 -> dd_from_bits_rel DoubleS b = dd_from_bits DoubleS b) /\
  (pair_wf DoubleS x -> dd_to_bits_rel DoubleS x = dd_to_bits DoubleS x).
Proof.
  intros b x. split; intro H.
  - destruct (dd_bits_round_trip b H) as [r [E _]]. exact (eq_of_ref _ _ _ (dd_from_bits_ref DoubleS b) E).
  - destruct (dd_value_round_trip x H) as [r [y [E _]]]. exact (eq_of_ref _ _ _ (dd_to_bits_ref DoubleS x) E).
Qed.
Theorem dd_from_str_same : forall F, pair_ok F -> dec_ok (FallbackS F) -> forall s m, len s < 2 ^ 25 -> dd_from_str_r_rel F s m = dd_from_str_r F s m.
Proof.
  intros F HF HD s m HL. unfold dd_from_str_r_rel, dd_from_str_r. rewrite (from_str_same _ s m (W_ok F HF) HD HL).
  destruct (from_str_total _ s m (W_ok F HF) HD HL) as [[st [f [E [Hf _]]]]|[e E]]; rewrite E; cbn [rbind bind]; [|reflexivity].
  rewrite (from_fallback_same F HF f Hf). reflexivity.
Qed.
Theorem dd_fmt_same : forall F, pair_ok F -> forall x w p alternate, pair_wf F x -> 0 <= chosen_width w ->
  0 <= chosen_precision (FallbackS F) p <= largest_precision -> dd_fmt_rel F x w p alternate = dd_fmt F x w p alternate.
Proof.
  intros F HF x w p alternate Hx HW HP. unfold dd_fmt_rel, dd_fmt. rewrite (to_fallback_same F HF x Hx).
  destruct (to_fallback_outcome F HF x Hx) as [[_ [f [-> Hf]]]|[_ ->]]; cbn [bind]; [|reflexivity].
  exact (fmt_same _ f w p alternate (W_ok F HF) Hf HW HP).
Qed.

(** ** Where the builds differ *)
Lemma value_1_exp : forall S x, sem_ok S -> wf S x -> category x = Normal -> (1 <= Rabs (value S x))%R -> 0 <= exp x.
Proof.
  intros S x HS HX C H. destruct (Z_lt_le_dec (exp x) 0) as [L|L]; [exfalso|exact L].
  apply (Rlt_not_le _ _) in H; [exact H|]. rewrite (value_normal S x C).
  pose proof (wf_normal_canonical S x HX C) as [[K0 K1] _].
  rewrite sgnr_abs by (apply Rmult_le_pos; [apply IZR_le; lia|apply bpow_ge_0]).
  apply Rlt_le_trans with (IZR (2 ^ PRECISION S) * bpow radix2 (exp x - (PRECISION S - 1)))%R.
  - apply Rmult_lt_compat_r; [apply bpow_gt_0|apply IZR_lt; lia].
  - destruct HS as [Hp _ _ _]. rewrite IZR_pow2 by lia. rewrite <- bpow_plus. change 1%R with (bpow radix2 0). apply bpow_le. lia.
Qed.
Theorem to_i128_release : forall S x m, sem_ok S -> wf S x -> sign x = false ->
  category x = Infinity \/ (category x = Normal /\ (1 <= value S x)%R) ->
  to_i128_r S x 1 m = Panic /\ to_i128_r_rel S x 1 m = Ret (INVALID_OP, -1, false) /\ ~ converted_to_int S x m (-1) 0 INVALID_OP (-1).
Proof.
  intros S x m HS HX Sx H. split; [exact (More.to_i128_width_1 S x m Sx)|].
  assert (E : to_i128_r_rel S x 1 m = Ret (INVALID_OP, -1, false)).
  { unfold to_i128_r_rel, is_negative. rewrite Sx. unfold wrap_usize at 1. change (1 <=? 1) with true. cbv iota. cbn [bind]. change (1 - 1) with 0.
    unfold to_u128_r_rel, is_negative. rewrite Sx. unfold wrap_usize at 1. change (0 <=? 128) with true. cbv iota. cbn [bind]. unfold mask_shr at 1.
    change (Z.shiftr (not128 0) ((128 - 0) mod 128)) with (2 ^ 128 - 1). cbn [bind].
    destruct H as [C|[C V]]; rewrite C; [reflexivity|].
    pose proof (value_1_exp S x HS HX C) as X. rewrite Rabs_pos_eq in X by lra. specialize (X V).
    destruct (Z.ltb_spec (exp x) 0) as [Q|_]; [lia|]. destruct (Z.ltb_spec 0 (exp x + 1)) as [_|Q]; [|lia]. reflexivity. }
  split; [exact E|]. unfold converted_to_int. destruct H as [C|[C V]]; rewrite C.
  - rewrite Sx. intros [_ Q]. discriminate Q.
  - intros [_ [Q _]].
    assert (1 <= rnd_of m (value S x)).
    { rewrite <- (@Zrnd_IZR (rnd_of m) (valid_rnd_of m) 1). apply (@Zrnd_le (rnd_of m) (valid_rnd_of m)). exact V. }
    destruct (Q ltac:(lia)) as [_ Q1]. discriminate Q1.
Qed.
Theorem fmt_release : exists S x p s t, sem_ok S /\ wf S x /\ category x = Normal /\ p = largest_precision + 1 /\
  fmt S x None (Some p) false = Panic /\ fmt_rel S x None (Some p) false = Ret s /\ s = bytes "2.0E+9" /\
  fmt S x None (Some largest_precision) false = Ret t /\ t = bytes "2147483647.9999997615814208984375".
Proof.
  exists DoubleS, (mkFloat (2 ^ 53 - 1) 30 Normal false), (largest_precision + 1). do 2 eexists.
  split; [exact double_ok|]. split; [sample_wf|]. split; [reflexivity|]. split; [reflexivity|].
  split; [vm_compute; reflexivity|]. split; [vm_compute; reflexivity|]. split; [vm_compute; reflexivity|]. split; vm_compute; reflexivity.
Qed.

(** ** Everything at once *)
Theorem floats_release : forall (S T : Semantics) (x y z : Float) (m : Round) (b w n : Z) (s : list Z) (fw fp : option Z) (alternate : bool),
  refines (add_r S x y m) (add_r_rel S x y m) /\
  refines (sub_r S x y m) (sub_r_rel S x y m) /\
  refines (mul_r S x y m) (mul_r_rel S x y m) /\
  refines (div_r S x y m) (div_r_rel S x y m) /\
  refines (mul_add_r S x y z m) (mul_add_r_rel S x y z m) /\
  refines (ieee_rem S x y) (ieee_rem_rel S x y) /\
  refines (c_fmod S x y) (c_fmod_rel S x y) /\
  refines (round_to_integral S x m) (round_to_integral_rel S x m) /\
  refines (next_up S x) (next_up_rel S x) /\
  refines (next_down S x) (next_down_rel S x) /\
  refines (from_bits S b) (from_bits_rel S b) /\
  refines (to_bits S x) (to_bits_rel S x) /\
  refines (from_u128_r S b m) (from_u128_r_rel S b m) /\
  refines (from_i128_r S b m) (from_i128_r_rel S b m) /\
  refines (to_u128_r S x w m) (to_u128_r_rel S x w m) /\
  refines (to_i128_r S x w m) (to_i128_r_rel S x w m) /\
  refines (from_str_r S s m) (from_str_r_rel S s m) /\
  refines (fmt S x fw fp alternate) (fmt_rel S x fw fp alternate) /\
  refines (get_exact_inverse S x) (get_exact_inverse_rel S x) /\
  refines (ilogb S x) (ilogb_rel S x) /\
  refines (scalbn_r S x n m) (scalbn_r_rel S x n m) /\
  refines (frexp_r S x m) (frexp_r_rel S x m) /\
  refines (convert_r S T x m) (convert_r_rel S T x m) /\
  refines (is_denormal S x) (is_denormal_rel S x) /\
  refines (is_normal S x) (is_normal_rel S x) /\
  refines (is_integer S x) (is_integer_rel S x).
Proof.
  intros.
  split; [exact (add_r_ref S x y m)|].
  split; [exact (sub_r_ref S x y m)|].
  split; [exact (mul_r_ref S x y m)|].
  split; [exact (div_r_ref S x y m)|].
  split; [exact (mul_add_r_ref S x y z m)|].
  split; [exact (ieee_rem_ref S x y)|].
  split; [exact (c_fmod_ref S x y)|].
  split; [exact (round_to_integral_ref S x m)|].
  split; [exact (next_up_ref S x)|].
  split; [exact (next_down_ref S x)|].
  split; [exact (from_bits_ref S b)|].
  split; [exact (to_bits_ref S x)|].
  split; [exact (from_u128_r_ref S b m)|].
  split; [exact (from_i128_r_ref S b m)|].
  split; [exact (to_u128_r_ref S x w m)|].
  split; [exact (to_i128_r_ref S x w m)|].
  split; [exact (from_str_r_ref S s m)|].
  split; [exact (fmt_ref S x fw fp alternate)|].
  split; [exact (get_exact_inverse_ref S x)|].
  split; [exact (ilogb_ref S x)|].
  split; [exact (scalbn_r_ref S x n m)|].
  split; [exact (frexp_r_ref S x m)|].
  split; [exact (convert_r_ref S T x m)|].
  split; [exact (is_denormal_ref S x)|].
  split; [exact (is_normal_ref S x)|].
  exact (is_integer_ref S x).
Qed.
Theorem pairs_release : forall (F : Semantics) (x y z : DFloat) (m : Round) (b w n : Z) (s : list Z) (fw fp : option Z) (alternate : bool),
  refines (dd_add_r F x y m) (dd_add_r_rel F x y m) /\
  refines (dd_sub_r F x y m) (dd_sub_r_rel F x y m) /\
  refines (dd_mul_r F x y m) (dd_mul_r_rel F x y m) /\
  refines (dd_div_r F x y m) (dd_div_r_rel F x y m) /\
  refines (dd_mul_add_r F x y z m) (dd_mul_add_r_rel F x y z m) /\
  refines (dd_ieee_rem F x y) (dd_ieee_rem_rel F x y) /\
  refines (dd_c_fmod F x y) (dd_c_fmod_rel F x y) /\
  refines (dd_round_to_integral F x m) (dd_round_to_integral_rel F x m) /\
  refines (dd_next_up F x) (dd_next_up_rel F x) /\
  refines (dd_next_down F x) (dd_next_down_rel F x) /\
  refines (dd_from_bits F b) (dd_from_bits_rel F b) /\
  refines (dd_to_bits F x) (dd_to_bits_rel F x) /\
  refines (dd_from_u128_r F b m) (dd_from_u128_r_rel F b m) /\
  refines (dd_from_i128_r F b m) (dd_from_i128_r_rel F b m) /\
  refines (dd_to_u128_r F x w m) (dd_to_u128_r_rel F x w m) /\
  refines (dd_to_i128_r F x w m) (dd_to_i128_r_rel F x w m) /\
  refines (dd_from_str_r F s m) (dd_from_str_r_rel F s m) /\
  refines (dd_fmt F x fw fp alternate) (dd_fmt_rel F x fw fp alternate) /\
  refines (dd_get_exact_inverse F x) (dd_get_exact_inverse_rel F x) /\
  refines (dd_ilogb F x) (dd_ilogb_rel F x) /\
  refines (dd_scalbn_r F x n m) (dd_scalbn_r_rel F x n m) /\
  refines (dd_frexp_r F x m) (dd_frexp_r_rel F x m) /\
  refines (dd_is_denormal F x) (dd_is_denormal_rel F x) /\
  refines (dd_is_normal F x) (dd_is_normal_rel F x) /\
  refines (dd_is_integer F x) (dd_is_integer_rel F x) /\
  refines (dd_is_largest F x) (dd_is_largest_rel F x) /\
  refines (dd_is_smallest_normalized F x) (dd_is_smallest_normalized_rel F x) /\
  refines (dd_largest F) (dd_largest_rel F) /\
  refines (dd_smallest_normalized F) (dd_smallest_normalized_rel F).
Proof.
  intros.
  split; [exact (dd_add_r_ref F x y m)|].
  split; [exact (dd_sub_r_ref F x y m)|].
  split; [exact (dd_mul_r_ref F x y m)|].
  split; [exact (dd_div_r_ref F x y m)|].
  split; [exact (dd_mul_add_r_ref F x y z m)|].
  split; [exact (dd_ieee_rem_ref F x y)|].
  split; [exact (dd_c_fmod_ref F x y)|].
  split; [exact (dd_round_to_integral_ref F x m)|].
  split; [exact (dd_next_up_ref F x)|].
  split; [exact (dd_next_down_ref F x)|].
  split; [exact (dd_from_bits_ref F b)|].
  split; [exact (dd_to_bits_ref F x)|].
  split; [exact (dd_from_u128_r_ref F b m)|].
  split; [exact (dd_from_i128_r_ref F b m)|].
  split; [exact (dd_to_u128_r_ref F x w m)|].
  split; [exact (dd_to_i128_r_ref F x w m)|].
  split; [exact (dd_from_str_r_ref F s m)|].
  split; [exact (dd_fmt_ref F x fw fp alternate)|].
  split; [exact (dd_get_exact_inverse_ref F x)|].
  split; [exact (dd_ilogb_ref F x)|].
  split; [exact (dd_scalbn_r_ref F x n m)|].
  split; [exact (dd_frexp_r_ref F x m)|].
  split; [exact (dd_is_denormal_ref F x)|].
  split; [exact (dd_is_normal_ref F x)|].
  split; [exact (dd_is_integer_ref F x)|].
  split; [exact (dd_is_largest_ref F x)|].
  split; [exact (dd_is_smallest_normalized_ref F x)|].
  split; [exact (dd_largest_ref F)|].
  exact (dd_smallest_normalized_ref F).
Qed.
Theorem operators_release : forall (S T : Semantics) (x y z : Float) (b w : Z) (s : list Z),
  refines (from_str S s) (from_str_rel S s) /\
  refines (op_add S x y) (op_add_rel S x y) /\
  refines (op_sub S x y) (op_sub_rel S x y) /\
  refines (op_mul S x y) (op_mul_rel S x y) /\
  refines (op_div S x y) (op_div_rel S x y) /\
  refines (op_rem S x y) (op_rem_rel S x y) /\
  refines (add_assign S x y) (add_assign_rel S x y) /\
  refines (sub_assign S x y) (sub_assign_rel S x y) /\
  refines (mul_assign S x y) (mul_assign_rel S x y) /\
  refines (div_assign S x y) (div_assign_rel S x y) /\
  refines (rem_assign S x y) (rem_assign_rel S x y) /\
  refines (mul_add S x y z) (mul_add_rel S x y z) /\
  refines (from_i128 S b) (from_i128_rel S b) /\
  refines (to_i128 S x w) (to_i128_rel S x w) /\
  refines (to_u128 S x w) (to_u128_rel S x w) /\
  refines (frexp S x) (frexp_rel S x) /\
  refines (convert S T x) (convert_rel S T x) /\
  refines (debug S x) (debug_rel S x).
Proof.
  intros.
  split; [exact (from_str_ref S s)|].
  split; [exact (op_add_ref S x y)|].
  split; [exact (op_sub_ref S x y)|].
  split; [exact (op_mul_ref S x y)|].
  split; [exact (op_div_ref S x y)|].
  split; [exact (op_rem_ref S x y)|].
  split; [exact (add_assign_ref S x y)|].
  split; [exact (sub_assign_ref S x y)|].
  split; [exact (mul_assign_ref S x y)|].
  split; [exact (div_assign_ref S x y)|].
  split; [exact (rem_assign_ref S x y)|].
  split; [exact (mul_add_ref S x y z)|].
  split; [exact (from_i128_ref S b)|].
  split; [exact (to_i128_ref S x w)|].
  split; [exact (to_u128_ref S x w)|].
  split; [exact (frexp_ref S x)|].
  split; [exact (convert_ref S T x)|].
  exact (debug_ref S x).
Qed.
Theorem pair_operators_release : forall (F : Semantics) (x y z : DFloat) (b w n : Z) (s : list Z),
  refines (dd_from_str F s) (dd_from_str_rel F s) /\
  refines (dd_op_add F x y) (dd_op_add_rel F x y) /\
  refines (dd_op_sub F x y) (dd_op_sub_rel F x y) /\
  refines (dd_op_mul F x y) (dd_op_mul_rel F x y) /\
  refines (dd_op_div F x y) (dd_op_div_rel F x y) /\
  refines (dd_op_rem F x y) (dd_op_rem_rel F x y) /\
  refines (dd_mul_add F x y z) (dd_mul_add_rel F x y z) /\
  refines (dd_from_i128 F b) (dd_from_i128_rel F b) /\
  refines (dd_from_u128 F b) (dd_from_u128_rel F b) /\
  refines (dd_to_i128 F x w) (dd_to_i128_rel F x w) /\
  refines (dd_to_u128 F x w) (dd_to_u128_rel F x w) /\
  refines (dd_scalbn F x n) (dd_scalbn_rel F x n) /\
  refines (dd_frexp F x) (dd_frexp_rel F x) /\
  refines (dd_add_assign F x y) (dd_add_assign_rel F x y) /\
  refines (dd_sub_assign F x y) (dd_sub_assign_rel F x y) /\
  refines (dd_mul_assign F x y) (dd_mul_assign_rel F x y) /\
  refines (dd_div_assign F x y) (dd_div_assign_rel F x y) /\
  refines (dd_rem_assign F x y) (dd_rem_assign_rel F x y) /\
  refines (dd_debug F x) (dd_debug_rel F x).
Proof.
  intros.
  split; [exact (dd_from_str_ref F s)|].
  split; [exact (dd_op_add_ref F x y)|].
  split; [exact (dd_op_sub_ref F x y)|].
  split; [exact (dd_op_mul_ref F x y)|].
  split; [exact (dd_op_div_ref F x y)|].
  split; [exact (dd_op_rem_ref F x y)|].
  split; [exact (dd_mul_add_ref F x y z)|].
  split; [exact (dd_from_i128_ref F b)|].
  split; [exact (dd_from_u128_ref F b)|].
  split; [exact (dd_to_i128_ref F x w)|].
  split; [exact (dd_to_u128_ref F x w)|].
  split; [exact (dd_scalbn_ref F x n)|].
  split; [exact (dd_frexp_ref F x)|].
  split; [exact (dd_add_assign_ref F x y)|].
  split; [exact (dd_sub_assign_ref F x y)|].
  split; [exact (dd_mul_assign_ref F x y)|].
  split; [exact (dd_div_assign_ref F x y)|].
  split; [exact (dd_rem_assign_ref F x y)|].
  exact (dd_debug_ref F x).
Qed.

(** ** Widths above 128 *)
Theorem to_u128_too_wide : forall S x w m, sign x = false -> category x = Infinity -> 128 < w < 2 ^ 64 ->
  to_u128_r S x w m = Panic /\ to_u128_r_rel S x w m = Ret (INVALID_OP, 2 ^ (128 - (- w) mod 128) - 1, false).
Proof.
  intros S x w m Sx C Hw. split.
  - unfold to_u128_r, is_negative, usub. rewrite Sx. destruct (Z.leb_spec w 128) as [Q|_]; [lia|]. reflexivity.
  - unfold to_u128_r_rel, is_negative, wrap_usize. rewrite Sx, C. destruct (Z.leb_spec w 128) as [Q|_]; [lia|]. cbn [bind]. unfold mask_shr. cbn [bind].
    replace ((128 - w + 2 ^ 64) mod 128) with ((- w) mod 128).
    2:{ replace (128 - w + 2 ^ 64) with (- w + (2 ^ 57 + 1) * 128) by lia. rewrite Z.mod_add by lia. reflexivity. }
    pose proof (Z.mod_pos_bound (- w) 128 ltac:(lia)) as B. set (k := (- w) mod 128) in *. f_equal. f_equal. f_equal.
    change (not128 0) with (2 ^ 128 - 1). rewrite Z.shiftr_div_pow2 by lia.
    assert (E : 2 ^ 128 = 2 ^ (128 - k) * 2 ^ k) by (rewrite <- Z.pow_add_r by lia; f_equal; lia).
    assert (P : 0 < 2 ^ k) by (apply Z.pow_pos_nonneg; lia).
    replace (2 ^ 128 - 1) with ((2 ^ (128 - k) - 1) * 2 ^ k + (2 ^ k - 1)) by lia.
    rewrite Z.div_add_l, (Z.div_small (2 ^ k - 1)) by lia. lia.
Qed.
