(** * Classes.v -- the classification predicates, in terms of the encodings
    (src/lib.rs:493-547, src/ieee.rs:1777-1795) *)
From Coq Require Import ZArith Reals List Bool Lia Lra.
From Flocq Require Import Core.
From Verif Require Import Machine Ieee Spec Norm Arith Special Order Bits Formats.
Local Open Scope Z_scope.
Ltac Zify.zify_post_hook ::= idtac.

Section Classes.
Variables (bits eb : Z) (nf : NonfiniteBehavior).
Let S := ieee_semantics bits eb nf.
Hypothesis HS : sem_ok S.
Hypothesis Hbits : bits <= 128.
Let t := bits - 1 - eb.

Theorem predicates_bits : forall x, wf S x ->
  exists b, to_bits S x = Ret b /\ 0 <= b < 2 ^ bits /\
    is_negative x = field_sign bits b /\
    (is_pos_zero x = true <-> b = 0) /\
    (is_neg_zero x = true <-> b = 2 ^ (bits - 1)) /\
    (is_non_zero x = false <-> b mod 2 ^ (bits - 1) = 0) /\
    (is_pos_infinity x = true <-> nf = IEEE754 /\ b = (2 ^ eb - 1) * 2 ^ t) /\
    (is_neg_infinity x = true <-> nf = IEEE754 /\ b = 2 ^ (bits - 1) + (2 ^ eb - 1) * 2 ^ t) /\
    (is_infinite x = true <-> nf = IEEE754 /\ field_exp bits eb b = 2 ^ eb - 1 /\ field_frac bits eb b = 0) /\
    (is_nan x = true <-> field_exp bits eb b = 2 ^ eb - 1 /\
                         match nf with IEEE754 => field_frac bits eb b <> 0 | NanOnly => field_frac bits eb b = 2 ^ t - 1 end) /\
    (is_signaling S x = true <-> nf = IEEE754 /\ field_exp bits eb b = 2 ^ eb - 1 /\
                         0 < field_frac bits eb b < 2 ^ (t - 1)).
Proof.
  intros x Wx. destruct (geometry bits eb nf HS) as [G1 [G2 [G3 [G4 [G5 [G6 [G7 G8]]]]]]]. fold t in G2, G3. fold S in G3, G4, G5, G6.
  destruct (encode_ranges bits eb nf HS x Wx) as [RE RF]. fold t in RF.
  set (E := encode_exp bits eb nf x) in *. set (F := encode_frac bits eb x) in *.
  destruct (fields_join bits eb (sign x) E F ltac:(lia) ltac:(lia) RE RF) as [B [FS [FE FF]]]. fold t in B, FS, FE, FF.
  eexists. split; [apply (to_bits_fields bits eb nf HS Hbits x Wx)|]. fold t. fold E F.
  set (b := b2z (sign x) * 2 ^ (bits - 1) + E * 2 ^ t + F) in *.
  split; [exact B|]. rewrite FS, FE, FF.
  assert (P : 2 ^ (bits - 1) = 2 ^ eb * 2 ^ t) by (rewrite <- Z.pow_add_r by lia; f_equal; unfold t; lia).
  assert (Q : 2 ^ t = 2 * 2 ^ (t - 1)) by (rewrite <- Z.pow_succ_r by lia; f_equal; lia).
  pose proof (Z.pow_pos_nonneg 2 (t - 1) ltac:(lia) ltac:(lia)) as HQ.
  rewrite (is_signaling_spec S x HS). unfold signaling. change (X87 S) with false. change (NONFINITE_BEHAVIOR S) with nf. rewrite G3.
  replace (t + 1 - 2) with (t - 1) by lia.
  assert (HP : 0 < 2 ^ eb) by lia.
  assert (HB : 0 < 2 ^ (bits - 1)) by (apply Z.pow_pos_nonneg; lia).
  assert (HM : 0 <= E * 2 ^ t + F < 2 ^ (bits - 1)).
  { assert (0 <= E * 2 ^ t) by (apply Z.mul_nonneg_nonneg; lia).
    assert (E * 2 ^ t <= (2 ^ eb - 1) * 2 ^ t) by (apply Z.mul_le_mono_nonneg_r; lia). rewrite P. lia. }
  assert (M : b mod 2 ^ (bits - 1) = E * 2 ^ t + F).
  { symmetry. apply Z.mod_unique with (b2z (sign x)); [left; exact HM|unfold b; ring]. }
  rewrite M.
  assert (PE : forall e f, 1 <= e -> 0 <= f -> 0 < e * 2 ^ t + f).
  { intros e f He Hf. assert (1 * 2 ^ t <= e * 2 ^ t) by (apply Z.mul_le_mono_nonneg_r; lia). lia. }
  assert (HEF : category x <> Zero -> 0 < E * 2 ^ t + F).
  { pose proof (proj2 (proj2 Wx)) as K. unfold E, F, encode_exp, encode_frac in *; fold t; destruct (category x); try congruence; intros _.
    - apply PE; lia.
    - apply PE; lia.
    - destruct K as [K1 [K2 [K3 _]]]. destruct (Z.ltb_spec (sig x) (2 ^ t)) as [L|L]; [lia|].
      rewrite G3 in *. replace (t + 1 - 1) with t in K3 by lia. apply PE; fold S; lia. }
  assert (HZ : category x = Zero -> E = 0 /\ F = 0) by (unfold E, F, encode_exp, encode_frac; intros ->; split; reflexivity).
  assert (HI : category x = Infinity -> nf = IEEE754 /\ E = 2 ^ eb - 1 /\ F = 0).
  { intro C. pose proof (proj2 (proj2 Wx)) as K. rewrite C in K. unfold E, F, encode_exp, encode_frac. rewrite C. tauto. }
  assert (HN : category x = NaN -> E = 2 ^ eb - 1 /\ F = sig x /\ match nf with IEEE754 => F <> 0 | NanOnly => F = 2 ^ t - 1 end).
  { intro C. pose proof (proj2 (proj2 Wx)) as K. rewrite C in K. unfold E, F, encode_exp, encode_frac. rewrite C.
    split; [reflexivity|]. split; [reflexivity|]. unfold nan_sig in K. change (NONFINITE_BEHAVIOR S) with nf in K. change (X87 S) with false in K.
    rewrite G3 in K. replace (t + 1 - 1) with t in K by lia. destruct nf; [lia|exact K]. }
  assert (HNorm : category x = Normal -> E <> 2 ^ eb - 1 \/ (nf = NanOnly /\ F <> 2 ^ t - 1)).
  { intro C. pose proof (proj2 (proj2 Wx)) as K. rewrite C in K. destruct K as [K1 [K2 [K3 K4]]]. unfold E, F, encode_exp, encode_frac. rewrite C.
    fold t. rewrite G3 in *. replace (t + 1 - 1) with t in K3 by lia.
    destruct (Z.ltb_spec (sig x) (2 ^ t)) as [L|L]; [left; lia|].
    change (NONFINITE_BEHAVIOR S) with nf in K4. destruct nf.
    - left. fold S. lia.
    - destruct (Z.eq_dec (exp x) (MAX_EXP S)) as [Em|Em]; [right|left; fold S; lia]. split; [reflexivity|].
      specialize (K4 eq_refl Em). rewrite Z.pow_add_r, Z.pow_1_r in K4 by lia. lia. }
  assert (TB : forall s, 0 <= s < 2 ^ t -> Z.testbit s (t - 1) = negb (s <? 2 ^ (t - 1))).
  { intros s Hs. rewrite testbit_odd by lia. destruct (Z.ltb_spec s (2 ^ (t - 1))) as [L|L].
    - rewrite Z.div_small by lia. reflexivity.
    - replace (s / 2 ^ (t - 1)) with 1; [reflexivity|]. apply Z.div_unique with (s - 2 ^ (t - 1)); lia. }
  unfold is_pos_zero, is_neg_zero, is_non_zero, is_pos_infinity, is_neg_infinity, is_zero, is_infinite, is_nan, is_negative.
  split; [reflexivity|].
  assert (Hb : b = b2z (sign x) * 2 ^ (bits - 1) + (E * 2 ^ t + F)) by (unfold b; ring).
  assert (UE : E * 2 ^ t + F = (2 ^ eb - 1) * 2 ^ t -> E = 2 ^ eb - 1 /\ F = 0).
  { intro H. assert (E = 2 ^ eb - 1); [|split; [assumption|subst E; lia]].
    assert (H1 : (E * 2 ^ t + F) / 2 ^ t = E) by (symmetry; apply Z.div_unique with F; [left; exact RF|ring]).
    rewrite H, Z.div_mul in H1 by lia. congruence. }
  clearbody b E F. clear FS FE FF M Wx RE B. rename P into P0.
  assert (HI' : 0 < (2 ^ eb - 1) * 2 ^ t < 2 ^ (bits - 1)) by (rewrite P0; specialize (PE (2 ^ eb - 1) 0 ltac:(lia) ltac:(lia)); lia).
  assert (SB : b2z (sign x) * 2 ^ (bits - 1) = if sign x then 2 ^ (bits - 1) else 0) by (destruct (sign x); cbn [b2z]; lia).
  rewrite SB in Hb. clear SB PE.
  destruct (category x) eqn:C; cbn [category_eqb andb negb];
    [destruct (HI eq_refl) as [N [E1 E2]]|destruct (HN eq_refl) as [E1 [Fs K]]|pose proof (HNorm eq_refl) as K|destruct (HZ eq_refl) as [E1 E2]];
    clear HI HN HNorm HZ; try (specialize (HEF ltac:(discriminate))); destruct (sign x); cbn [negb];
    repeat match goal with |- _ /\ _ => split | |- _ <-> _ => split end; intros;
    repeat match goal with H : _ /\ _ |- _ => destruct H end; try discriminate; try reflexivity; try assumption;
    try (exfalso; lia); try (subst E; lia); try (subst E F; lia).
  all: try (rewrite <- Fs in *); cbn [negb orb] in *; rewrite ?andb_true_r, ?negb_involutive in *.
  all: destruct nf; try discriminate; repeat split; try discriminate; try assumption; try reflexivity; try lia;
    repeat match goal with H : (_ <? _) = true |- _ => apply Z.ltb_lt in H | |- (_ <? _) = true => apply Z.ltb_lt end;
    try lia; try (exfalso; destruct UE; lia); try (exfalso; destruct K as [K|[K1 K2]]; try discriminate; try destruct UE; lia).
  all: rewrite TB, negb_involutive in * by (split; assumption);
    try match goal with H : (_ <? _) = true |- _ => apply Z.ltb_lt in H; exact H end;
    apply Z.ltb_lt; assumption.
Qed.
End Classes.

Theorem predicates_bits_crate : forall bits eb nf, In (bits, eb, nf) interchange_formats ->
  forall x, wf (ieee_semantics bits eb nf) x ->
  exists b, to_bits (ieee_semantics bits eb nf) x = Ret b /\ 0 <= b < 2 ^ bits /\
    is_negative x = field_sign bits b /\
    (is_pos_zero x = true <-> b = 0) /\
    (is_neg_zero x = true <-> b = 2 ^ (bits - 1)) /\
    (is_non_zero x = false <-> b mod 2 ^ (bits - 1) = 0) /\
    (is_pos_infinity x = true <-> nf = IEEE754 /\ b = (2 ^ eb - 1) * 2 ^ (bits - 1 - eb)) /\
    (is_neg_infinity x = true <-> nf = IEEE754 /\ b = 2 ^ (bits - 1) + (2 ^ eb - 1) * 2 ^ (bits - 1 - eb)) /\
    (is_infinite x = true <-> nf = IEEE754 /\ field_exp bits eb b = 2 ^ eb - 1 /\ field_frac bits eb b = 0) /\
    (is_nan x = true <-> field_exp bits eb b = 2 ^ eb - 1 /\
       match nf with IEEE754 => field_frac bits eb b <> 0 | NanOnly => field_frac bits eb b = 2 ^ (bits - 1 - eb) - 1 end) /\
    (is_signaling (ieee_semantics bits eb nf) x = true <-> nf = IEEE754 /\ field_exp bits eb b = 2 ^ eb - 1 /\
       0 < field_frac bits eb b < 2 ^ (bits - 1 - eb - 1)).
Proof. intros bits eb nf H. destruct (interchange_ok bits eb nf H). apply predicates_bits; assumption. Qed.
