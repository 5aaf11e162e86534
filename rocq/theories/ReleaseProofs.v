(** * ReleaseProofs.v -- wherever the build with overflow checks returns, the
    build without them returns the same value (proofs of C82). *)
From Coq Require Import ZArith List Bool Lia String.
From Verif Require Import Machine Sig Ieee Parse Fmt Ppc Ops OpsPair Release ReleaseTop.
Import ListNotations.
Local Open Scope Z_scope.
Ltac Zify.zify_post_hook ::= idtac.

(** whatever [a] returns, [b] returns *)
Definition refines {A : Type} (a b : outcome A) : Prop := forall v, a = Ret v -> b = Ret v.

Lemma refines_refl : forall {A : Type} (a : outcome A), refines a a.
Proof. intros A a v H; exact H. Qed.
Lemma refines_panic : forall {A : Type} (b : outcome A), refines Panic b.
Proof. intros A b v H; discriminate H. Qed.
Lemma refines_bind : forall {A B : Type} (a b : outcome A) (f g : A -> outcome B),
  refines a b -> (forall x, refines (f x) (g x)) -> refines (bind a f) (bind b g).
Proof.
  intros A B a b f g Hab Hfg v. destruct a as [x | | ]; cbn [bind]; intro H; try discriminate H.
  rewrite (Hab x eq_refl). cbn [bind]. exact (Hfg x v H).
Qed.
Lemma refines_rbind : forall {A B : Type} (a b : outcome (result A)) (f g : A -> outcome (result B)),
  refines a b -> (forall x, refines (f x) (g x)) -> refines (rbind a f) (rbind b g).
Proof.
  intros A B a b f g Hab Hfg. unfold rbind. apply refines_bind; [exact Hab | ].
  intros [x | e]; [apply Hfg | apply refines_refl].
Qed.
Lemma refines_assertb : forall {A : Type} (c : bool) (a b : outcome A),
  refines a b -> refines (assertb c a) (assertb c b).
Proof. intros A c a b H. destruct c; [exact H | apply refines_refl]. Qed.
Lemma refines_for_each : forall {A B : Type} (f g : A -> B -> outcome B),
  (forall i s, refines (f i s) (g i s)) -> forall l s, refines (for_each l f s) (for_each l g s).
Proof.
  intros A B f g Hfg l. induction l as [ | i l IH]; intro s; cbn [for_each].
  - apply refines_refl.
  - apply refines_bind; [apply Hfg | exact IH].
Qed.

Lemma as_i32_id : forall x, I32_MIN <= x <= I32_MAX -> as_i32 x = x.
Proof.
  intros x [H1 H2]. unfold as_i32, I32_MIN, I32_MAX in *. rewrite Z.mod_small; [lia | ].
  change (2 ^ 32) with (2 ^ 31 + 2 ^ 31). lia.
Qed.
Lemma wrap_i32_ref : forall x, refines (chk32 x) (wrap_i32 x).
Proof.
  intros x v. unfold chk32, wrap_i32. destruct ((I32_MIN <=? x) && (x <=? I32_MAX)) eqn:E; [ | discriminate].
  apply andb_true_iff in E; destruct E as [E1 E2]. rewrite as_i32_id by lia. intro H; exact H.
Qed.
Lemma wrap_u128_ref : forall x, refines (chk128 x) (wrap_u128 x).
Proof.
  intros x v. unfold chk128, wrap_u128, wrap128. destruct ((0 <=? x) && (x <? LIMB_MOD)) eqn:E; [ | discriminate].
  apply andb_true_iff in E; destruct E as [E1 E2]. rewrite Z.mod_small by lia. intro H; exact H.
Qed.
Lemma wrap_usize_ref : forall a b, refines (usub a b) (wrap_usize a b).
Proof. intros a b v. unfold usub, wrap_usize. destruct (b <=? a); [intro H; exact H | discriminate]. Qed.
Lemma mask_shl_ref : forall x n, refines (shl128 x n) (mask_shl x n).
Proof.
  intros x n v. unfold shl128, mask_shl. destruct ((0 <=? n) && (n <? 128)) eqn:E; [ | discriminate].
  apply andb_true_iff in E; destruct E as [E1 E2]. rewrite (Z.mod_small n) by lia. intro H; exact H.
Qed.
Lemma mask_shr_ref : forall x n, refines (shr128 x n) (mask_shr x n).
Proof.
  intros x n v. unfold shr128, mask_shr. destruct ((0 <=? n) && (n <? 128)) eqn:E; [ | discriminate].
  apply andb_true_iff in E; destruct E as [E1 E2]. rewrite (Z.mod_small n) by lia. intro H; exact H.
Qed.

Create HintDb refdb discriminated.
#[export] Hint Resolve wrap_i32_ref wrap_u128_ref wrap_usize_ref mask_shl_ref mask_shr_ref : refdb.

Ltac ref_step :=
  lazymatch goal with
  | |- refines ?a ?a => apply refines_refl
  | |- refines Panic _ => apply refines_panic
  | |- refines (bind _ _) (bind _ _) => apply refines_bind; [ref_step | intro; ref_step]
  | |- refines (rbind _ _) (rbind _ _) => apply refines_rbind; [ref_step | intro; ref_step]
  | |- refines (assertb _ _) (assertb _ _) => apply refines_assertb; ref_step
  | |- refines (for_each _ _ _) (for_each _ _ _) => apply refines_for_each; intros; ref_step
  | |- refines (match ?x with _ => _ end) (match ?x with _ => _ end) => destruct x; ref_step
  | |- refines (match ?x with _ => _ end) _ => destruct x; ref_step
  | |- _ => first [solve [auto with refdb nocore] | idtac]
  end.
Ltac ref_all := cbv beta zeta; ref_step.


Lemma through_truncation_ref : forall (limbs : list Z) (bits : Z), refines (through_truncation limbs bits) (through_truncation_rel limbs bits).
Proof. intros. unfold through_truncation, through_truncation_rel. ref_all. Qed.
#[export] Hint Resolve through_truncation_ref : refdb.
Lemma get_bit_ref : forall (limbs : list Z) (bit : Z), refines (get_bit limbs bit) (get_bit_rel limbs bit).
Proof. intros. unfold get_bit, get_bit_rel. ref_all. Qed.
#[export] Hint Resolve get_bit_ref : refdb.
Lemma set_bit_ref : forall (limbs : list Z) (bit : Z), refines (set_bit limbs bit) (set_bit_rel limbs bit).
Proof. intros. unfold set_bit, set_bit_rel. ref_all. Qed.
#[export] Hint Resolve set_bit_ref : refdb.
Lemma shift_left_ref : forall (dst : list Z) (exp : Z) (bits : Z), refines (shift_left dst exp bits) (shift_left_rel dst exp bits).
Proof. intros. unfold shift_left, shift_left_rel. ref_all. Qed.
#[export] Hint Resolve shift_left_ref : refdb.
Lemma shift_right_ref : forall (dst : list Z) (exp : Z) (bits : Z), refines (shift_right dst exp bits) (shift_right_rel dst exp bits).
Proof. intros. unfold shift_right, shift_right_rel. ref_all. Qed.
#[export] Hint Resolve shift_right_ref : refdb.
Lemma extract_ref : forall (dst src : list Z) (src_bits src_lsb : Z), refines (extract dst src src_bits src_lsb) (extract_rel dst src src_bits src_lsb).
Proof. intros. unfold extract, extract_rel. ref_all. Qed.
#[export] Hint Resolve extract_ref : refdb.
Lemma from_limbs_ref : forall (dst src : list Z) (precision : Z), refines (from_limbs dst src precision) (from_limbs_rel dst src precision).
Proof. intros. unfold from_limbs, from_limbs_rel. ref_all. Qed.
#[export] Hint Resolve from_limbs_ref : refdb.
Lemma each_chunk_limb_ref : forall (S : Type) bits (f g : Z -> S -> outcome (Z * S)),
  (forall c s, refines (f c s) (g c s)) ->
  forall limb s, refines (each_chunk_limb bits f limb s) (each_chunk_limb_rel bits g limb s).
Proof.
  intros S bits f g Hfg limb s. unfold each_chunk_limb, each_chunk_limb_rel. apply refines_for_each. intros i [r s'].
  cbv beta iota. apply refines_bind; [apply mask_shr_ref | intro x]. apply refines_bind; [apply mask_shl_ref | intro m].
  apply refines_bind; [apply wrap_u128_ref | intro mask]. apply refines_bind; [apply Hfg | intros [y s'']].
  apply refines_bind; [apply mask_shl_ref | intro]. apply refines_refl.
Qed.
Lemma each_chunk_rev_ref : forall (S : Type) bits (f g : Z -> S -> outcome (Z * S)),
  (forall c s, refines (f c s) (g c s)) ->
  forall l s, refines (each_chunk_rev bits f l s) (each_chunk_rev_rel bits g l s).
Proof.
  intros S bits f g Hfg l. induction l as [ | x l IH]; intro s; cbn [each_chunk_rev each_chunk_rev_rel].
  - apply refines_refl.
  - apply refines_bind; [exact (each_chunk_limb_ref S bits f g Hfg x s) | intros [y s']].
    apply refines_bind; [apply IH | intros [r s'']]. apply refines_refl.
Qed.
Lemma each_chunk_ref : forall (S : Type) l bits (f g : Z -> S -> outcome (Z * S)) s,
  (forall c s, refines (f c s) (g c s)) -> refines (each_chunk l bits f s) (each_chunk_rel l bits g s).
Proof.
  intros S l bits f g s Hfg. unfold each_chunk, each_chunk_rel. apply refines_assertb.
  apply refines_bind; [exact (each_chunk_rev_ref S bits f g Hfg (rev l) s) | intros [r s']]. apply refines_refl.
Qed.
#[export] Hint Extern 1 (refines (each_chunk _ _ _ _) _) => apply each_chunk_ref; intros; ref_all : refdb.

Lemma add_or_sub_ref : forall (a_sig : list Z) (a_exp : Z) (a_sign : bool) (b_sig : list Z) (b_exp : Z) (b_sign : bool), refines (add_or_sub a_sig a_exp a_sign b_sig b_exp b_sign) (add_or_sub_rel a_sig a_exp a_sign b_sig b_exp b_sign).
Proof. intros. unfold add_or_sub, add_or_sub_rel. ref_all. Qed.
#[export] Hint Resolve add_or_sub_ref : refdb.
Lemma select_ref : forall (limb i : Z), refines (select limb i) (select_rel limb i).
Proof. intros. unfold select, select_rel. ref_all. Qed.
#[export] Hint Resolve select_ref : refdb.
Lemma widening_mul_ref : forall (a b : Z), refines (widening_mul a b) (widening_mul_rel a b).
Proof. intros. unfold widening_mul, widening_mul_rel. ref_all. Qed.
#[export] Hint Resolve widening_mul_ref : refdb.
Lemma mul_ref : forall (dst : list Z) (exp : Z) (a b : list Z) (precision : Z), refines (mul dst exp a b precision) (mul_rel dst exp a b precision).
Proof. intros. unfold mul, mul_rel. ref_all. Qed.
#[export] Hint Resolve mul_ref : refdb.
Lemma short_div_ref : forall (quotient dividend divisor : list Z) (olsb_divisor divisor_bits half : Z), refines (short_div quotient dividend divisor olsb_divisor divisor_bits half) (short_div_rel quotient dividend divisor olsb_divisor divisor_bits half).
Proof. intros. unfold short_div, short_div_rel. ref_all. Qed.
#[export] Hint Resolve short_div_ref : refdb.
Lemma div_ref : forall (quotient : list Z) (exp : Z) (dividend divisor : list Z) (precision : Z), refines (div quotient exp dividend divisor precision) (div_rel quotient exp dividend divisor precision).
Proof. intros. unfold div, div_rel. ref_all. Qed.
#[export] Hint Resolve div_ref : refdb.
Lemma is_denormal_ref : forall (S : Semantics) (x : Float), refines (is_denormal S x) (is_denormal_rel S x).
Proof. intros. unfold is_denormal, is_denormal_rel. ref_all. Qed.
#[export] Hint Resolve is_denormal_ref : refdb.
Lemma is_normal_ref : forall (S : Semantics) (x : Float), refines (is_normal S x) (is_normal_rel S x).
Proof. intros. unfold is_normal, is_normal_rel. ref_all. Qed.
#[export] Hint Resolve is_normal_ref : refdb.
Lemma from_bits_default_ref : forall (S : Semantics) (bits : Z), refines (from_bits_default S bits) (from_bits_default_rel S bits).
Proof. intros. unfold from_bits_default, from_bits_default_rel. ref_all. Qed.
#[export] Hint Resolve from_bits_default_ref : refdb.
Lemma to_bits_default_ref : forall (S : Semantics) (x : Float), refines (to_bits_default S x) (to_bits_default_rel S x).
Proof. intros. unfold to_bits_default, to_bits_default_rel. ref_all. Qed.
#[export] Hint Resolve to_bits_default_ref : refdb.
Lemma from_bits_x87_ref : forall (S : Semantics) (bits : Z), refines (from_bits_x87 S bits) (from_bits_x87_rel S bits).
Proof. intros. unfold from_bits_x87, from_bits_x87_rel. ref_all. Qed.
#[export] Hint Resolve from_bits_x87_ref : refdb.
Lemma to_bits_x87_ref : forall (S : Semantics) (x : Float), refines (to_bits_x87 S x) (to_bits_x87_rel S x).
Proof. intros. unfold to_bits_x87, to_bits_x87_rel. ref_all. Qed.
#[export] Hint Resolve to_bits_x87_ref : refdb.
Lemma from_bits_ref : forall (S : Semantics) (bits : Z), refines (from_bits S bits) (from_bits_rel S bits).
Proof. intros. unfold from_bits, from_bits_rel. ref_all. Qed.
#[export] Hint Resolve from_bits_ref : refdb.
Lemma to_bits_ref : forall (S : Semantics) (x : Float), refines (to_bits S x) (to_bits_rel S x).
Proof. intros. unfold to_bits, to_bits_rel. ref_all. Qed.
#[export] Hint Resolve to_bits_ref : refdb.
Lemma round_away_from_zero_ref : forall (x : Float) (round : Round) (loss : Loss) (bit : Z), refines (round_away_from_zero x round loss bit) (round_away_from_zero_rel x round loss bit).
Proof. intros. unfold round_away_from_zero, round_away_from_zero_rel. ref_all. Qed.
#[export] Hint Resolve round_away_from_zero_ref : refdb.
Lemma normalize_tail_ref : forall (S : Semantics) (x : Float) (omsb : Z) (round : Round) (loss : Loss), refines (normalize_tail S x omsb round loss) (normalize_tail_rel S x omsb round loss).
Proof. intros. unfold normalize_tail, normalize_tail_rel. ref_all. Qed.
#[export] Hint Resolve normalize_tail_ref : refdb.
Lemma normalize_ref : forall (S : Semantics) (x : Float) (round : Round) (loss : Loss), refines (normalize S x round loss) (normalize_rel S x round loss).
Proof. intros. unfold normalize, normalize_rel. ref_all. Qed.
#[export] Hint Resolve normalize_ref : refdb.
Lemma add_r_ref : forall (S : Semantics) (x y : Float) (round : Round), refines (add_r S x y round) (add_r_rel S x y round).
Proof. intros. unfold add_r, add_r_rel. ref_all. Qed.
#[export] Hint Resolve add_r_ref : refdb.
Lemma sub_r_ref : forall (S : Semantics) (x y : Float) (round : Round), refines (sub_r S x y round) (sub_r_rel S x y round).
Proof. intros. unfold sub_r, sub_r_rel. ref_all. Qed.
#[export] Hint Resolve sub_r_ref : refdb.
Lemma mul_r_ref : forall (S : Semantics) (x y : Float) (round : Round), refines (mul_r S x y round) (mul_r_rel S x y round).
Proof. intros. unfold mul_r, mul_r_rel. ref_all. Qed.
#[export] Hint Resolve mul_r_ref : refdb.
Lemma mul_add_r_ref : forall (S : Semantics) (x multiplicand addend : Float) (round : Round), refines (mul_add_r S x multiplicand addend round) (mul_add_r_rel S x multiplicand addend round).
Proof. intros. unfold mul_add_r, mul_add_r_rel. ref_all. Qed.
#[export] Hint Resolve mul_add_r_ref : refdb.
Lemma div_r_ref : forall (S : Semantics) (x y : Float) (round : Round), refines (div_r S x y round) (div_r_rel S x y round).
Proof. intros. unfold div_r, div_r_rel. ref_all. Qed.
#[export] Hint Resolve div_r_ref : refdb.
Lemma ilogb_ref : forall (S : Semantics) (x : Float), refines (ilogb S x) (ilogb_rel S x).
Proof. intros. unfold ilogb, ilogb_rel. ref_all. Qed.
#[export] Hint Resolve ilogb_ref : refdb.
Lemma scalbn_r_ref : forall (S : Semantics) (x : Float) (n : Z) (round : Round), refines (scalbn_r S x n round) (scalbn_r_rel S x n round).
Proof. intros. unfold scalbn_r, scalbn_r_rel. ref_all. Qed.
#[export] Hint Resolve scalbn_r_ref : refdb.
Lemma scalbn_ref : forall (S : Semantics) (x : Float) (n : Z), refines (scalbn S x n) (scalbn_rel S x n).
Proof. intros. unfold scalbn, scalbn_rel. ref_all. Qed.
#[export] Hint Resolve scalbn_ref : refdb.
Lemma frexp_r_ref : forall (S : Semantics) (x : Float) (round : Round), refines (frexp_r S x round) (frexp_r_rel S x round).
Proof. intros. unfold frexp_r, frexp_r_rel. ref_all. Qed.
#[export] Hint Resolve frexp_r_ref : refdb.
Lemma c_fmod_loop_ref : forall (fuel : nat) (S : Semantics) (x y : Float), refines (c_fmod_loop fuel S x y) (c_fmod_loop_rel fuel S x y).
Proof.
  intros fuel S x y. revert S x y. induction fuel as [ | fuel IH]; intros; cbn [c_fmod_loop c_fmod_loop_rel]; ref_all.
Qed.
#[export] Hint Resolve c_fmod_loop_ref : refdb.
Lemma c_fmod_ref : forall (S : Semantics) (x y : Float), refines (c_fmod S x y) (c_fmod_rel S x y).
Proof. intros. unfold c_fmod, c_fmod_rel. ref_all. Qed.
#[export] Hint Resolve c_fmod_ref : refdb.
Lemma lossless_2x_ref : forall (S : Semantics) (x : Float), refines (lossless_2x S x) (lossless_2x_rel S x).
Proof. intros. unfold lossless_2x, lossless_2x_rel. ref_all. Qed.
#[export] Hint Resolve lossless_2x_ref : refdb.
Lemma ieee_rem_ref : forall (S : Semantics) (x y : Float), refines (ieee_rem S x y) (ieee_rem_rel S x y).
Proof. intros. unfold ieee_rem, ieee_rem_rel. ref_all. Qed.
#[export] Hint Resolve ieee_rem_ref : refdb.
Lemma from_u128_r_ref : forall (S : Semantics) (input : Z) (round : Round), refines (from_u128_r S input round) (from_u128_r_rel S input round).
Proof. intros. unfold from_u128_r, from_u128_r_rel. ref_all. Qed.
#[export] Hint Resolve from_u128_r_ref : refdb.
Lemma from_u128_ref : forall (S : Semantics) (input : Z), refines (from_u128 S input) (from_u128_rel S input).
Proof. intros. unfold from_u128, from_u128_rel. ref_all. Qed.
#[export] Hint Resolve from_u128_ref : refdb.
Lemma from_i128_r_ref : forall (S : Semantics) (input : Z) (round : Round), refines (from_i128_r S input round) (from_i128_r_rel S input round).
Proof. intros. unfold from_i128_r, from_i128_r_rel. ref_all. Qed.
#[export] Hint Resolve from_i128_r_ref : refdb.
Lemma to_u128_r_ref : forall (S : Semantics) (x : Float) (width : Z) (round : Round), refines (to_u128_r S x width round) (to_u128_r_rel S x width round).
Proof. intros. unfold to_u128_r, to_u128_r_rel. ref_all. Qed.
#[export] Hint Resolve to_u128_r_ref : refdb.
Lemma to_i128_r_ref : forall (S : Semantics) (x : Float) (width : Z) (round : Round), refines (to_i128_r S x width round) (to_i128_r_rel S x width round).
Proof.
  intros. unfold to_i128_r, to_i128_r_rel. destruct (is_negative x); [ | ref_step].
  apply refines_bind; [apply to_u128_r_ref | intros [[st r] ex]]. apply refines_bind; [apply wrap_usize_ref | intro w1].
  intro v. unfold mask_shl, shl128. destruct ((0 <=? w1) && (w1 <? 128)) eqn:E; cbn [bind]; [ | discriminate].
  apply andb_true_iff in E; destruct E as [E1 E2]. rewrite (Z.mod_small w1 128) by lia. intro H; exact H.
Qed.
#[export] Hint Resolve to_i128_r_ref : refdb.
Lemma round_to_integral_ref : forall (S : Semantics) (x : Float) (round : Round), refines (round_to_integral S x round) (round_to_integral_rel S x round).
Proof. intros. unfold round_to_integral, round_to_integral_rel. ref_all. Qed.
#[export] Hint Resolve round_to_integral_ref : refdb.
Lemma is_integer_ref : forall (S : Semantics) (x : Float), refines (is_integer S x) (is_integer_rel S x).
Proof. intros. unfold is_integer, is_integer_rel. ref_all. Qed.
#[export] Hint Resolve is_integer_ref : refdb.
Lemma next_up_ref : forall (S : Semantics) (x : Float), refines (next_up S x) (next_up_rel S x).
Proof. intros. unfold next_up, next_up_rel. ref_all. Qed.
#[export] Hint Resolve next_up_ref : refdb.
Lemma next_down_ref : forall (S : Semantics) (x : Float), refines (next_down S x) (next_down_rel S x).
Proof. intros. unfold next_down, next_down_rel. ref_all. Qed.
#[export] Hint Resolve next_down_ref : refdb.
Lemma get_exact_inverse_ref : forall (S : Semantics) (x : Float), refines (get_exact_inverse S x) (get_exact_inverse_rel S x).
Proof. intros. unfold get_exact_inverse, get_exact_inverse_rel. ref_all. Qed.
#[export] Hint Resolve get_exact_inverse_ref : refdb.
Lemma convert_adjust_ref : forall (S T : Semantics) (x : Float), refines (convert_adjust S T x) (convert_adjust_rel S T x).
Proof. intros. unfold convert_adjust, convert_adjust_rel. ref_all. Qed.
#[export] Hint Resolve convert_adjust_ref : refdb.
Lemma convert_r_ref : forall (S T : Semantics) (x : Float) (round : Round), refines (convert_r S T x round) (convert_r_rel S T x round).
Proof. intros. unfold convert_r, convert_r_rel. ref_all. Qed.
#[export] Hint Resolve convert_r_ref : refdb.
Lemma hex_digit_ref : forall (p v : Z) (st : hex_state), refines (hex_digit p v st) (hex_digit_rel p v st).
Proof. intros. unfold hex_digit, hex_digit_rel. ref_all. Qed.
#[export] Hint Resolve hex_digit_ref : refdb.
Lemma hex_loop_ref : forall (n p : Z) (s : list Z) (st : hex_state), refines (hex_loop n p s st) (hex_loop_rel n p s st).
Proof.
  intros n p s st. revert n p st. induction s as [ | c r IH]; intros; cbn [hex_loop hex_loop_rel]; ref_all.
Qed.
#[export] Hint Resolve hex_loop_ref : refdb.
Lemma from_hexadecimal_string_ref : forall (S : Semantics) (s : list Z) (round : Round), refines (from_hexadecimal_string S s round) (from_hexadecimal_string_rel S s round).
Proof. intros. unfold from_hexadecimal_string, from_hexadecimal_string_rel. ref_all. Qed.
#[export] Hint Resolve from_hexadecimal_string_ref : refdb.
Lemma dec_loop_ref : forall (n p : Z) (s : list Z) (st : dec_state), refines (dec_loop n p s st) (dec_loop_rel n p s st).
Proof.
  intros n p s st. revert n p st. induction s as [ | c r IH]; intros; cbn [dec_loop dec_loop_rel]; ref_all.
Qed.
#[export] Hint Resolve dec_loop_ref : refdb.
Lemma dec_chunk_ref : forall (chars : list Z) (val multiplier : Z), refines (dec_chunk chars val multiplier) (dec_chunk_rel chars val multiplier).
Proof.
  intros chars val multiplier. revert val multiplier. induction chars as [ | c r IH]; intros; cbn [dec_chunk dec_chunk_rel]; ref_all.
Qed.
#[export] Hint Resolve dec_chunk_ref : refdb.
Lemma mul_add_limbs_ref : forall (limbs : list Z) (multiplier carry : Z), refines (mul_add_limbs limbs multiplier carry) (mul_add_limbs_rel limbs multiplier carry).
Proof.
  intros limbs multiplier carry. revert multiplier carry. induction limbs as [ | c r IH]; intros; cbn [mul_add_limbs mul_add_limbs_rel]; ref_all.
Qed.
#[export] Hint Resolve mul_add_limbs_ref : refdb.
Lemma dec_sig_loop_ref : forall (fuel : nat) (chars dec_sig : list Z), refines (dec_sig_loop fuel chars dec_sig) (dec_sig_loop_rel fuel chars dec_sig).
Proof.
  intros fuel chars dec_sig. revert chars dec_sig. induction fuel as [ | fuel IH]; intros; cbn [dec_sig_loop dec_sig_loop_rel]; ref_all.
Qed.
#[export] Hint Resolve dec_sig_loop_ref : refdb.
Lemma mul_into_ref : forall (scratch a b : list Z), refines (mul_into scratch a b) (mul_into_rel scratch a b).
Proof. intros. unfold mul_into, mul_into_rel. ref_all. Qed.
#[export] Hint Resolve mul_into_ref : refdb.
Lemma pow5_loop_ref : forall (fuel : nat) (power : Z) (r r_scratch p5 p5_scratch : list Z), refines (pow5_loop fuel power r r_scratch p5 p5_scratch) (pow5_loop_rel fuel power r r_scratch p5 p5_scratch).
Proof.
  intros fuel power r r_scratch p5 p5_scratch. revert power r r_scratch p5 p5_scratch. induction fuel as [ | fuel IH]; intros; cbn [pow5_loop pow5_loop_rel]; ref_all.
Qed.
#[export] Hint Resolve pow5_loop_ref : refdb.
Lemma pow5_full_ref : forall (dec_exp : Z), refines (pow5_full dec_exp) (pow5_full_rel dec_exp).
Proof. intros. unfold pow5_full, pow5_full_rel. ref_all. Qed.
#[export] Hint Resolve pow5_full_ref : refdb.
Lemma calc_normal_from_limbs_ref : forall (calc_precision : Z) (buf limbs : list Z), refines (calc_normal_from_limbs calc_precision buf limbs) (calc_normal_from_limbs_rel calc_precision buf limbs).
Proof. intros. unfold calc_normal_from_limbs, calc_normal_from_limbs_rel. ref_all. Qed.
#[export] Hint Resolve calc_normal_from_limbs_ref : refdb.
Lemma ulps_from_boundary_ref : forall (sig_calc : list Z) (calc_precision used_bits : Z) (round : Round), refines (ulps_from_boundary sig_calc calc_precision used_bits round) (ulps_from_boundary_rel sig_calc calc_precision used_bits round).
Proof. intros. unfold ulps_from_boundary, ulps_from_boundary_rel. ref_all. Qed.
#[export] Hint Resolve ulps_from_boundary_ref : refdb.
Lemma dec_attempts_ref : forall (fuel : nat) (S : Semantics) (attempt : Z) (dec_sig pow5 : list Z) (dec_exp : Z) (round : Round) (sig_calc pow5_calc sig_scratch : list Z), refines (dec_attempts fuel S attempt dec_sig pow5 dec_exp round sig_calc pow5_calc sig_scratch) (dec_attempts_rel fuel S attempt dec_sig pow5 dec_exp round sig_calc pow5_calc sig_scratch).
Proof.
  intros fuel S attempt dec_sig pow5 dec_exp round sig_calc pow5_calc sig_scratch. revert S attempt dec_sig pow5 dec_exp round sig_calc pow5_calc sig_scratch. induction fuel as [ | fuel IH]; intros; cbn [dec_attempts dec_attempts_rel]; ref_all.
Qed.
#[export] Hint Resolve dec_attempts_ref : refdb.
Lemma from_decimal_string_ref : forall (S : Semantics) (s : list Z) (round : Round), refines (from_decimal_string S s round) (from_decimal_string_rel S s round).
Proof. intros. unfold from_decimal_string, from_decimal_string_rel. ref_all. Qed.
#[export] Hint Resolve from_decimal_string_ref : refdb.
Lemma from_str_r_ref : forall (S : Semantics) (s : list Z) (round : Round), refines (from_str_r S s round) (from_str_r_rel S s round).
Proof. intros. unfold from_str_r, from_str_r_rel. ref_all. Qed.
#[export] Hint Resolve from_str_r_ref : refdb.
Lemma fmt_pow5_loop_ref : forall (fuel : nat) (texp : Z) (sg sig_scratch p5 p5_scratch : list Z), refines (fmt_pow5_loop fuel texp sg sig_scratch p5 p5_scratch) (fmt_pow5_loop_rel fuel texp sg sig_scratch p5 p5_scratch).
Proof.
  intros fuel texp sg sig_scratch p5 p5_scratch. revert texp sg sig_scratch p5 p5_scratch. induction fuel as [ | fuel IH]; intros; cbn [fmt_pow5_loop fmt_pow5_loop_rel]; ref_all.
Qed.
#[export] Hint Resolve fmt_pow5_loop_ref : refdb.
Lemma div10_ref : forall (sg : list Z), refines (div10 sg) (div10_rel sg).
Proof. intros. unfold div10, div10_rel. ref_all. Qed.
#[export] Hint Resolve div10_ref : refdb.
Lemma digits_loop_ref : forall (fuel : nat) (sg : list Z) (e : Z) (discard : Z) (in_trail : bool) (buffer : list Z), refines (digits_loop fuel sg e discard in_trail buffer) (digits_loop_rel fuel sg e discard in_trail buffer).
Proof.
  intros fuel sg e discard in_trail buffer. revert sg e discard in_trail buffer. induction fuel as [ | fuel IH]; intros; cbn [digits_loop digits_loop_rel]; ref_all.
Qed.
#[export] Hint Resolve digits_loop_ref : refdb.
Lemma round_buffer_ref : forall (buffer : list Z) (e precision : Z), refines (round_buffer buffer e precision) (round_buffer_rel buffer e precision).
Proof. intros. unfold round_buffer, round_buffer_rel. ref_all. Qed.
#[export] Hint Resolve round_buffer_ref : refdb.
Lemma use_scientific_ref : forall (width precision e digits : Z), refines (use_scientific width precision e digits) (use_scientific_rel width precision e digits).
Proof. intros. unfold use_scientific, use_scientific_rel. ref_all. Qed.
#[export] Hint Resolve use_scientific_ref : refdb.
Lemma write_scientific_ref : forall (buffer : list Z) (e precision : Z) (alternate : bool), refines (write_scientific buffer e precision alternate) (write_scientific_rel buffer e precision alternate).
Proof. intros. unfold write_scientific, write_scientific_rel. ref_all. Qed.
#[export] Hint Resolve write_scientific_ref : refdb.
Lemma write_positional_ref : forall (buffer : list Z) (e : Z), refines (write_positional buffer e) (write_positional_rel buffer e).
Proof. intros. unfold write_positional, write_positional_rel. ref_all. Qed.
#[export] Hint Resolve write_positional_ref : refdb.
Lemma fmt_ref : forall (S : Semantics) (x : Float) (f_width f_precision : option Z) (alternate : bool), refines (fmt S x f_width f_precision alternate) (fmt_rel S x f_width f_precision alternate).
Proof.
  intros. unfold fmt, fmt_rel. cbv zeta. destruct (category x); try apply refines_refl.
  apply refines_bind; [apply wrap_i32_ref | intro e]. apply refines_bind; [apply shift_right_ref | intros [[sg e1] l]].
  apply refines_bind; [ref_step | intros [sg1 e2]].
  unfold wrap_usize_up. set (p := match f_precision with Some p => p | None => _ end).
  destruct (p * 196 + 58 <? 2 ^ 64); [cbn [assertb] | apply refines_panic]. ref_step.
Qed.
#[export] Hint Resolve fmt_ref : refdb.
Lemma from_fallback_ref : forall (F : Semantics) (x : Float), refines (from_fallback F x) (from_fallback_rel F x).
Proof. intros. unfold from_fallback, from_fallback_rel. ref_all. Qed.
#[export] Hint Resolve from_fallback_ref : refdb.
Lemma to_fallback_ref : forall (F : Semantics) (x : DFloat), refines (to_fallback F x) (to_fallback_rel F x).
Proof. intros. unfold to_fallback, to_fallback_rel. ref_all. Qed.
#[export] Hint Resolve to_fallback_ref : refdb.
Lemma dd_largest_ref : forall (F : Semantics), refines (dd_largest F) (dd_largest_rel F).
Proof. intros. unfold dd_largest, dd_largest_rel. ref_all. Qed.
#[export] Hint Resolve dd_largest_ref : refdb.
Lemma dd_smallest_normalized_ref : forall (F : Semantics), refines (dd_smallest_normalized F) (dd_smallest_normalized_rel F).
Proof. intros. unfold dd_smallest_normalized, dd_smallest_normalized_rel. ref_all. Qed.
#[export] Hint Resolve dd_smallest_normalized_ref : refdb.
Lemma dd_add_normal_ref : forall (F : Semantics) (x y : DFloat) (round : Round), refines (dd_add_normal F x y round) (dd_add_normal_rel F x y round).
Proof. intros. unfold dd_add_normal, dd_add_normal_rel. ref_all. Qed.
#[export] Hint Resolve dd_add_normal_ref : refdb.
Lemma dd_add_r_ref : forall (F : Semantics) (x y : DFloat) (round : Round), refines (dd_add_r F x y round) (dd_add_r_rel F x y round).
Proof. intros. unfold dd_add_r, dd_add_r_rel. ref_all. Qed.
#[export] Hint Resolve dd_add_r_ref : refdb.
Lemma dd_sub_r_ref : forall (F : Semantics) (x y : DFloat) (round : Round), refines (dd_sub_r F x y round) (dd_sub_r_rel F x y round).
Proof. intros. unfold dd_sub_r, dd_sub_r_rel. ref_all. Qed.
#[export] Hint Resolve dd_sub_r_ref : refdb.
Lemma dd_mul_normal_ref : forall (F : Semantics) (x y : DFloat) (round : Round), refines (dd_mul_normal F x y round) (dd_mul_normal_rel F x y round).
Proof. intros. unfold dd_mul_normal, dd_mul_normal_rel. ref_all. Qed.
#[export] Hint Resolve dd_mul_normal_ref : refdb.
Lemma dd_mul_r_ref : forall (F : Semantics) (x y : DFloat) (round : Round), refines (dd_mul_r F x y round) (dd_mul_r_rel F x y round).
Proof. intros. unfold dd_mul_r, dd_mul_r_rel. ref_all. Qed.
#[export] Hint Resolve dd_mul_r_ref : refdb.
Lemma map_from_fallback_ref : forall F a b, refines a b ->
  refines (map_from_fallback F a) (map_from_fallback_rel F b).
Proof.
  intros F a b H. unfold map_from_fallback, map_from_fallback_rel. apply refines_bind; [exact H | intros [st r]].
  apply refines_bind; [apply from_fallback_ref | intro]. apply refines_refl.
Qed.
#[export] Hint Extern 1 (refines (map_from_fallback _ _) _) => apply map_from_fallback_ref; ref_all : refdb.

Lemma dd_mul_add_r_ref : forall (F : Semantics) (x m a : DFloat) (round : Round), refines (dd_mul_add_r F x m a round) (dd_mul_add_r_rel F x m a round).
Proof. intros. unfold dd_mul_add_r, dd_mul_add_r_rel. ref_all. Qed.
#[export] Hint Resolve dd_mul_add_r_ref : refdb.
Lemma dd_div_r_ref : forall (F : Semantics) (x y : DFloat) (round : Round), refines (dd_div_r F x y round) (dd_div_r_rel F x y round).
Proof. intros. unfold dd_div_r, dd_div_r_rel. ref_all. Qed.
#[export] Hint Resolve dd_div_r_ref : refdb.
Lemma dd_ieee_rem_ref : forall (F : Semantics) (x y : DFloat), refines (dd_ieee_rem F x y) (dd_ieee_rem_rel F x y).
Proof. intros. unfold dd_ieee_rem, dd_ieee_rem_rel. ref_all. Qed.
#[export] Hint Resolve dd_ieee_rem_ref : refdb.
Lemma dd_c_fmod_ref : forall (F : Semantics) (x y : DFloat), refines (dd_c_fmod F x y) (dd_c_fmod_rel F x y).
Proof. intros. unfold dd_c_fmod, dd_c_fmod_rel. ref_all. Qed.
#[export] Hint Resolve dd_c_fmod_ref : refdb.
Lemma dd_round_to_integral_ref : forall (F : Semantics) (x : DFloat) (round : Round), refines (dd_round_to_integral F x round) (dd_round_to_integral_rel F x round).
Proof. intros. unfold dd_round_to_integral, dd_round_to_integral_rel. ref_all. Qed.
#[export] Hint Resolve dd_round_to_integral_ref : refdb.
Lemma dd_next_up_ref : forall (F : Semantics) (x : DFloat), refines (dd_next_up F x) (dd_next_up_rel F x).
Proof. intros. unfold dd_next_up, dd_next_up_rel. ref_all. Qed.
#[export] Hint Resolve dd_next_up_ref : refdb.
Lemma dd_next_down_ref : forall (F : Semantics) (x : DFloat), refines (dd_next_down F x) (dd_next_down_rel F x).
Proof. intros. unfold dd_next_down, dd_next_down_rel. ref_all. Qed.
#[export] Hint Resolve dd_next_down_ref : refdb.
Lemma dd_from_bits_ref : forall (F : Semantics) (input : Z), refines (dd_from_bits F input) (dd_from_bits_rel F input).
Proof. intros. unfold dd_from_bits, dd_from_bits_rel. ref_all. Qed.
#[export] Hint Resolve dd_from_bits_ref : refdb.
Lemma dd_to_bits_ref : forall (F : Semantics) (x : DFloat), refines (dd_to_bits F x) (dd_to_bits_rel F x).
Proof. intros. unfold dd_to_bits, dd_to_bits_rel. ref_all. Qed.
#[export] Hint Resolve dd_to_bits_ref : refdb.
Lemma dd_from_u128_r_ref : forall (F : Semantics) (input : Z) (round : Round), refines (dd_from_u128_r F input round) (dd_from_u128_r_rel F input round).
Proof. intros. unfold dd_from_u128_r, dd_from_u128_r_rel. ref_all. Qed.
#[export] Hint Resolve dd_from_u128_r_ref : refdb.
Lemma dd_from_str_r_ref : forall (F : Semantics) (s : list Z) (round : Round), refines (dd_from_str_r F s round) (dd_from_str_r_rel F s round).
Proof. intros. unfold dd_from_str_r, dd_from_str_r_rel. ref_all. Qed.
#[export] Hint Resolve dd_from_str_r_ref : refdb.
Lemma dd_to_u128_r_ref : forall (F : Semantics) (x : DFloat) (width : Z) (round : Round), refines (dd_to_u128_r F x width round) (dd_to_u128_r_rel F x width round).
Proof. intros. unfold dd_to_u128_r, dd_to_u128_r_rel. ref_all. Qed.
#[export] Hint Resolve dd_to_u128_r_ref : refdb.
Lemma dd_is_smallest_normalized_ref : forall (F : Semantics) (x : DFloat), refines (dd_is_smallest_normalized F x) (dd_is_smallest_normalized_rel F x).
Proof. intros. unfold dd_is_smallest_normalized, dd_is_smallest_normalized_rel. ref_all. Qed.
#[export] Hint Resolve dd_is_smallest_normalized_ref : refdb.
Lemma dd_is_largest_ref : forall (F : Semantics) (x : DFloat), refines (dd_is_largest F x) (dd_is_largest_rel F x).
Proof. intros. unfold dd_is_largest, dd_is_largest_rel. ref_all. Qed.
#[export] Hint Resolve dd_is_largest_ref : refdb.
Lemma dd_from_i128_r_ref : forall (F : Semantics) (input : Z) (round : Round), refines (dd_from_i128_r F input round) (dd_from_i128_r_rel F input round).
Proof. intros. unfold dd_from_i128_r, dd_from_i128_r_rel. ref_all. Qed.
#[export] Hint Resolve dd_from_i128_r_ref : refdb.
Lemma dd_to_i128_r_ref : forall (F : Semantics) (x : DFloat) (width : Z) (round : Round), refines (dd_to_i128_r F x width round) (dd_to_i128_r_rel F x width round).
Proof.
  intros. unfold dd_to_i128_r, dd_to_i128_r_rel. destruct (dd_is_negative x); [ | ref_step].
  apply refines_bind; [apply dd_to_u128_r_ref | intros [[st r] ex]]. apply refines_bind; [apply wrap_usize_ref | intro w1].
  intro v. unfold mask_shl, shl128. destruct ((0 <=? w1) && (w1 <? 128)) eqn:E; cbn [bind]; [ | discriminate].
  apply andb_true_iff in E; destruct E as [E1 E2]. rewrite (Z.mod_small w1 128) by lia. intro H; exact H.
Qed.
#[export] Hint Resolve dd_to_i128_r_ref : refdb.
Lemma dd_is_denormal_ref : forall (F : Semantics) (x : DFloat), refines (dd_is_denormal F x) (dd_is_denormal_rel F x).
Proof. intros. unfold dd_is_denormal, dd_is_denormal_rel. ref_all. Qed.
#[export] Hint Resolve dd_is_denormal_ref : refdb.
Lemma dd_is_integer_ref : forall (F : Semantics) (x : DFloat), refines (dd_is_integer F x) (dd_is_integer_rel F x).
Proof. intros. unfold dd_is_integer, dd_is_integer_rel. ref_all. Qed.
#[export] Hint Resolve dd_is_integer_ref : refdb.
Lemma dd_get_exact_inverse_ref : forall (F : Semantics) (x : DFloat), refines (dd_get_exact_inverse F x) (dd_get_exact_inverse_rel F x).
Proof. intros. unfold dd_get_exact_inverse, dd_get_exact_inverse_rel. ref_all. Qed.
#[export] Hint Resolve dd_get_exact_inverse_ref : refdb.
Lemma dd_ilogb_ref : forall (F : Semantics) (x : DFloat), refines (dd_ilogb F x) (dd_ilogb_rel F x).
Proof. intros. unfold dd_ilogb, dd_ilogb_rel. ref_all. Qed.
#[export] Hint Resolve dd_ilogb_ref : refdb.
Lemma dd_scalbn_r_ref : forall (F : Semantics) (x : DFloat) (n : Z) (round : Round), refines (dd_scalbn_r F x n round) (dd_scalbn_r_rel F x n round).
Proof. intros. unfold dd_scalbn_r, dd_scalbn_r_rel. ref_all. Qed.
#[export] Hint Resolve dd_scalbn_r_ref : refdb.
Lemma dd_frexp_r_ref : forall (F : Semantics) (x : DFloat) (round : Round), refines (dd_frexp_r F x round) (dd_frexp_r_rel F x round).
Proof. intros. unfold dd_frexp_r, dd_frexp_r_rel. ref_all. Qed.
#[export] Hint Resolve dd_frexp_r_ref : refdb.
Lemma dd_fmt_ref : forall (F : Semantics) (x : DFloat) (w p : option Z) (alternate : bool), refines (dd_fmt F x w p alternate) (dd_fmt_rel F x w p alternate).
Proof. intros. unfold dd_fmt, dd_fmt_rel. ref_all. Qed.
#[export] Hint Resolve dd_fmt_ref : refdb.
Lemma from_str_ref : forall (S : Semantics) (s : list Z), refines (from_str S s) (from_str_rel S s).
Proof. intros. unfold from_str, from_str_rel. ref_all. Qed.
#[export] Hint Resolve from_str_ref : refdb.
Lemma op_add_ref : forall (S : Semantics) (x y : Float), refines (op_add S x y) (op_add_rel S x y).
Proof. intros. unfold op_add, op_add_rel. ref_all. Qed.
#[export] Hint Resolve op_add_ref : refdb.
Lemma op_sub_ref : forall (S : Semantics) (x y : Float), refines (op_sub S x y) (op_sub_rel S x y).
Proof. intros. unfold op_sub, op_sub_rel. ref_all. Qed.
#[export] Hint Resolve op_sub_ref : refdb.
Lemma op_mul_ref : forall (S : Semantics) (x y : Float), refines (op_mul S x y) (op_mul_rel S x y).
Proof. intros. unfold op_mul, op_mul_rel. ref_all. Qed.
#[export] Hint Resolve op_mul_ref : refdb.
Lemma op_div_ref : forall (S : Semantics) (x y : Float), refines (op_div S x y) (op_div_rel S x y).
Proof. intros. unfold op_div, op_div_rel. ref_all. Qed.
#[export] Hint Resolve op_div_ref : refdb.
Lemma op_rem_ref : forall (S : Semantics) (x y : Float), refines (op_rem S x y) (op_rem_rel S x y).
Proof. intros. unfold op_rem, op_rem_rel. ref_all. Qed.
#[export] Hint Resolve op_rem_ref : refdb.
Lemma add_assign_ref : forall (S : Semantics) (x y : Float), refines (add_assign S x y) (add_assign_rel S x y).
Proof. intros. unfold add_assign, add_assign_rel. ref_all. Qed.
#[export] Hint Resolve add_assign_ref : refdb.
Lemma sub_assign_ref : forall (S : Semantics) (x y : Float), refines (sub_assign S x y) (sub_assign_rel S x y).
Proof. intros. unfold sub_assign, sub_assign_rel. ref_all. Qed.
#[export] Hint Resolve sub_assign_ref : refdb.
Lemma mul_assign_ref : forall (S : Semantics) (x y : Float), refines (mul_assign S x y) (mul_assign_rel S x y).
Proof. intros. unfold mul_assign, mul_assign_rel. ref_all. Qed.
#[export] Hint Resolve mul_assign_ref : refdb.
Lemma div_assign_ref : forall (S : Semantics) (x y : Float), refines (div_assign S x y) (div_assign_rel S x y).
Proof. intros. unfold div_assign, div_assign_rel. ref_all. Qed.
#[export] Hint Resolve div_assign_ref : refdb.
Lemma rem_assign_ref : forall (S : Semantics) (x y : Float), refines (rem_assign S x y) (rem_assign_rel S x y).
Proof. intros. unfold rem_assign, rem_assign_rel. ref_all. Qed.
#[export] Hint Resolve rem_assign_ref : refdb.
Lemma mul_add_ref : forall (S : Semantics) (x multiplicand addend : Float), refines (mul_add S x multiplicand addend) (mul_add_rel S x multiplicand addend).
Proof. intros. unfold mul_add, mul_add_rel. ref_all. Qed.
#[export] Hint Resolve mul_add_ref : refdb.
Lemma from_i128_ref : forall (S : Semantics) (input : Z), refines (from_i128 S input) (from_i128_rel S input).
Proof. intros. unfold from_i128, from_i128_rel. ref_all. Qed.
#[export] Hint Resolve from_i128_ref : refdb.
Lemma to_i128_ref : forall (S : Semantics) (x : Float) (width : Z), refines (to_i128 S x width) (to_i128_rel S x width).
Proof. intros. unfold to_i128, to_i128_rel. ref_all. Qed.
#[export] Hint Resolve to_i128_ref : refdb.
Lemma to_u128_ref : forall (S : Semantics) (x : Float) (width : Z), refines (to_u128 S x width) (to_u128_rel S x width).
Proof. intros. unfold to_u128, to_u128_rel. ref_all. Qed.
#[export] Hint Resolve to_u128_ref : refdb.
Lemma frexp_ref : forall (S : Semantics) (x : Float), refines (frexp S x) (frexp_rel S x).
Proof. intros. unfold frexp, frexp_rel. ref_all. Qed.
#[export] Hint Resolve frexp_ref : refdb.
Lemma convert_ref : forall (S T : Semantics) (x : Float), refines (convert S T x) (convert_rel S T x).
Proof. intros. unfold convert, convert_rel. ref_all. Qed.
#[export] Hint Resolve convert_ref : refdb.
Lemma debug_ref : forall (S : Semantics) (x : Float), refines (debug S x) (debug_rel S x).
Proof. intros. unfold debug, debug_rel. ref_all. Qed.
#[export] Hint Resolve debug_ref : refdb.
Lemma dd_from_str_ref : forall (F : Semantics) (s : list Z), refines (dd_from_str F s) (dd_from_str_rel F s).
Proof. intros. unfold dd_from_str, dd_from_str_rel. ref_all. Qed.
#[export] Hint Resolve dd_from_str_ref : refdb.
Lemma dd_op_add_ref : forall (F : Semantics) (x y : DFloat), refines (dd_op_add F x y) (dd_op_add_rel F x y).
Proof. intros. unfold dd_op_add, dd_op_add_rel. ref_all. Qed.
#[export] Hint Resolve dd_op_add_ref : refdb.
Lemma dd_op_sub_ref : forall (F : Semantics) (x y : DFloat), refines (dd_op_sub F x y) (dd_op_sub_rel F x y).
Proof. intros. unfold dd_op_sub, dd_op_sub_rel. ref_all. Qed.
#[export] Hint Resolve dd_op_sub_ref : refdb.
Lemma dd_op_mul_ref : forall (F : Semantics) (x y : DFloat), refines (dd_op_mul F x y) (dd_op_mul_rel F x y).
Proof. intros. unfold dd_op_mul, dd_op_mul_rel. ref_all. Qed.
#[export] Hint Resolve dd_op_mul_ref : refdb.
Lemma dd_op_div_ref : forall (F : Semantics) (x y : DFloat), refines (dd_op_div F x y) (dd_op_div_rel F x y).
Proof. intros. unfold dd_op_div, dd_op_div_rel. ref_all. Qed.
#[export] Hint Resolve dd_op_div_ref : refdb.
Lemma dd_op_rem_ref : forall (F : Semantics) (x y : DFloat), refines (dd_op_rem F x y) (dd_op_rem_rel F x y).
Proof. intros. unfold dd_op_rem, dd_op_rem_rel. ref_all. Qed.
#[export] Hint Resolve dd_op_rem_ref : refdb.
Lemma dd_is_normal_ref : forall (F : Semantics) (x : DFloat), refines (dd_is_normal F x) (dd_is_normal_rel F x).
Proof. intros. unfold dd_is_normal, dd_is_normal_rel. ref_all. Qed.
#[export] Hint Resolve dd_is_normal_ref : refdb.
Lemma dd_mul_add_ref : forall (F : Semantics) (x multiplicand addend : DFloat), refines (dd_mul_add F x multiplicand addend) (dd_mul_add_rel F x multiplicand addend).
Proof. intros. unfold dd_mul_add, dd_mul_add_rel. ref_all. Qed.
#[export] Hint Resolve dd_mul_add_ref : refdb.
Lemma dd_from_i128_ref : forall (F : Semantics) (input : Z), refines (dd_from_i128 F input) (dd_from_i128_rel F input).
Proof. intros. unfold dd_from_i128, dd_from_i128_rel. ref_all. Qed.
#[export] Hint Resolve dd_from_i128_ref : refdb.
Lemma dd_from_u128_ref : forall (F : Semantics) (input : Z), refines (dd_from_u128 F input) (dd_from_u128_rel F input).
Proof. intros. unfold dd_from_u128, dd_from_u128_rel. ref_all. Qed.
#[export] Hint Resolve dd_from_u128_ref : refdb.
Lemma dd_to_i128_ref : forall (F : Semantics) (x : DFloat) (width : Z), refines (dd_to_i128 F x width) (dd_to_i128_rel F x width).
Proof. intros. unfold dd_to_i128, dd_to_i128_rel. ref_all. Qed.
#[export] Hint Resolve dd_to_i128_ref : refdb.
Lemma dd_to_u128_ref : forall (F : Semantics) (x : DFloat) (width : Z), refines (dd_to_u128 F x width) (dd_to_u128_rel F x width).
Proof. intros. unfold dd_to_u128, dd_to_u128_rel. ref_all. Qed.
#[export] Hint Resolve dd_to_u128_ref : refdb.
Lemma dd_scalbn_ref : forall (F : Semantics) (x : DFloat) (n : Z), refines (dd_scalbn F x n) (dd_scalbn_rel F x n).
Proof. intros. unfold dd_scalbn, dd_scalbn_rel. ref_all. Qed.
#[export] Hint Resolve dd_scalbn_ref : refdb.
Lemma dd_frexp_ref : forall (F : Semantics) (x : DFloat), refines (dd_frexp F x) (dd_frexp_rel F x).
Proof. intros. unfold dd_frexp, dd_frexp_rel. ref_all. Qed.
#[export] Hint Resolve dd_frexp_ref : refdb.
Lemma dd_add_assign_ref : forall (F : Semantics) (x y : DFloat), refines (dd_add_assign F x y) (dd_add_assign_rel F x y).
Proof. intros. unfold dd_add_assign, dd_add_assign_rel. ref_all. Qed.
#[export] Hint Resolve dd_add_assign_ref : refdb.
Lemma dd_sub_assign_ref : forall (F : Semantics) (x y : DFloat), refines (dd_sub_assign F x y) (dd_sub_assign_rel F x y).
Proof. intros. unfold dd_sub_assign, dd_sub_assign_rel. ref_all. Qed.
#[export] Hint Resolve dd_sub_assign_ref : refdb.
Lemma dd_mul_assign_ref : forall (F : Semantics) (x y : DFloat), refines (dd_mul_assign F x y) (dd_mul_assign_rel F x y).
Proof. intros. unfold dd_mul_assign, dd_mul_assign_rel. ref_all. Qed.
#[export] Hint Resolve dd_mul_assign_ref : refdb.
Lemma dd_div_assign_ref : forall (F : Semantics) (x y : DFloat), refines (dd_div_assign F x y) (dd_div_assign_rel F x y).
Proof. intros. unfold dd_div_assign, dd_div_assign_rel. ref_all. Qed.
#[export] Hint Resolve dd_div_assign_ref : refdb.
Lemma dd_rem_assign_ref : forall (F : Semantics) (x y : DFloat), refines (dd_rem_assign F x y) (dd_rem_assign_rel F x y).
Proof. intros. unfold dd_rem_assign, dd_rem_assign_rel. ref_all. Qed.
#[export] Hint Resolve dd_rem_assign_ref : refdb.
Lemma dd_debug_ref : forall (F : Semantics) (x : DFloat), refines (dd_debug F x) (dd_debug_rel F x).
Proof. intros. unfold dd_debug, dd_debug_rel. ref_all. Qed.
#[export] Hint Resolve dd_debug_ref : refdb.
