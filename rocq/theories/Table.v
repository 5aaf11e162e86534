(** * Table.v -- the numbers of each format, with its parameters written out *)
From Coq Require Import ZArith Reals List Bool Lia Lra.
From Flocq Require Import Core.
From Verif Require Import Machine Sig Ieee Ppc Spec Bits Formats Norm Arith Int Orderx.
Import ListNotations.
Local Open Scope Z_scope.
Ltac Zify.zify_post_hook ::= idtac.

(** the multiples [n * 2^e] with [|n| < 2^p] and [emin <= e], up to [limit] *)
Definition number_of (p emin : Z) (limit : R) (r : R) : Prop :=
  exists n e, Z.abs n < 2 ^ p /\ emin <= e /\ r = (IZR n * bpow r2 e)%R /\ (Rabs r <= limit)%R.

Lemma p2 : forall e, 0 <= e -> IZR (2 ^ e) = bpow r2 e. Proof. intros e H. exact (IZR_Zpower r2 e H). Qed.
Lemma wf_zero' : forall S, sem_ok S -> wf S (ZERO S).
Proof. intros S H. apply (constants_spec S H). Qed.

Lemma has_float : forall S, sem_ok S -> forall r, representable S r -> exists x, wf S x /\ finite x /\ value S x = r.
Proof.
  intros S HS r [G B]. pose proof (ok_prec S HS) as Hp.
  destruct (Req_dec r 0) as [->|N].
  { exists (ZERO S). split; [apply wf_zero'; exact HS|]. split; [right; reflexivity|reflexivity]. }
  set (M := Ztrunc (scaled_mantissa r2 (fexp S) r)). set (E := cexp r2 (fexp S) r).
  assert (R0 : r = (IZR M * bpow r2 E)%R) by exact G.
  assert (HE : E = Z.max (Raux.mag r2 r - PRECISION S) (MIN_EXP S - (PRECISION S - 1))) by reflexivity.
  assert (Mag : (bpow r2 (Raux.mag r2 r - 1) <= Rabs r < bpow r2 (Raux.mag r2 r))%R) by (destruct (Raux.mag r2 r) as [k K]; exact (K N)).
  assert (AR : Rabs r = (IZR (Z.abs M) * bpow r2 E)%R).
  { rewrite R0 at 1. rewrite Rabs_mult, <- abs_IZR, (Rabs_pos_eq (bpow r2 E)) by apply bpow_ge_0. reflexivity. }
  assert (M0 : 0 < Z.abs M).
  { destruct (Z.eq_dec M 0) as [K|K]; [|lia]. exfalso. apply N. rewrite R0, K. ring. }
  assert (MU : Z.abs M < 2 ^ PRECISION S).
  { apply lt_IZR. rewrite p2 by lia. apply Rmult_lt_reg_r with (bpow r2 E); [apply bpow_gt_0|].
    rewrite <- AR, <- bpow_plus. eapply Rlt_le_trans; [apply Mag|]. apply bpow_le. lia. }
  assert (ML : E = MIN_EXP S - (PRECISION S - 1) \/ 2 ^ (PRECISION S - 1) <= Z.abs M).
  { destruct (Z_le_gt_dec (Raux.mag r2 r - PRECISION S) (MIN_EXP S - (PRECISION S - 1))) as [K|K]; [left; lia|right].
    apply le_IZR. rewrite p2 by lia. apply Rmult_le_reg_r with (bpow r2 E); [apply bpow_gt_0|].
    rewrite <- AR, <- bpow_plus. eapply Rle_trans; [|apply Mag]. apply bpow_le. lia. }
  exists (mkFloat (Z.abs M) (E + (PRECISION S - 1)) Normal (M <? 0)).
  split; [|split; [left; reflexivity|]].
  - apply wf_normal; [exact HS|]. split; [lia|]. 
    assert (EM : E + (PRECISION S - 1) <= MAX_EXP S).
    { destruct ML as [->|ML]; [destruct HS; lia|].
      assert (K : (bpow r2 (E + (PRECISION S - 1)) < bpow r2 (MAX_EXP S + 1))%R).
      { eapply Rle_lt_trans; [|apply (bpow_above_max S HS)]. eapply Rle_trans; [|exact B]. rewrite AR, Z.add_comm, bpow_plus.
        apply Rmult_le_compat_r; [apply bpow_ge_0|]. rewrite <- p2 by lia. apply IZR_le. exact ML. }
      apply lt_bpow in K. lia. }
    split; [lia|]. split; [destruct ML; [left|right]; lia|].
    intros NF EQ K. rewrite AR, K in B. unfold max_finite, max_sig in B. rewrite NF in B.
    replace (MAX_EXP S - (PRECISION S - 1)) with E in B by lia. apply Rmult_le_reg_r in B; [|apply bpow_gt_0]. apply le_IZR in B. lia.
  - unfold value. cbn [category sign sig exp]. rewrite R0. f_equal.
    + f_equal. unfold signed. destruct (Z.ltb_spec M 0); lia.
    + f_equal. lia.
Qed.
Theorem floats_are : forall S, sem_ok S -> forall r,
  (exists x, wf S x /\ finite x /\ value S x = r) <-> number_of (PRECISION S) (MIN_EXP S - (PRECISION S - 1)) (max_finite S) r.
Proof.
  intros S HS r. pose proof (ok_prec S HS) as Hp. split.
  - intros (x & W & F & <-). destruct F as [F|F].
    + pose proof (wf_normal_canonical S x W F) as (A & B & _).
      exists (signed (sign x) (sig x)), (exp x - (PRECISION S - 1)). split; [unfold signed; destruct (sign x); lia|]. split; [lia|].
      split; [unfold value; rewrite F; reflexivity|apply value_le_max; assumption].
    + exists 0, (MIN_EXP S - (PRECISION S - 1)). split; [cbn; apply Z.pow_pos_nonneg; lia|]. split; [lia|].
      unfold value. rewrite F. split; [ring|]. rewrite Rabs_R0. apply Rlt_le, max_finite_pos. exact HS.
  - intros (n & e & A & B & C & D). apply has_float; [exact HS|]. split; [|exact D].
    apply generic_format_FLT. exists (Defs.Float r2 n e); cbn [Fnum Fexp]; [exact C|exact A|exact B].
Qed.

(** ** The table *)
Definition format_table : list (Semantics * (Z * Z * Z * Z * Z * Z * R)) :=
  [ (* format, (bits, exponent bits, precision, largest and smallest exponent, least exponent of an ulp, largest number) *)
    (HalfS, (16, 5, 11, 15, -14, -24, 65504%R));
    (SingleS, (32, 8, 24, 127, -126, -149, (IZR (2 ^ 24 - 1) * bpow r2 104)%R));
    (DoubleS, (64, 11, 53, 1023, -1022, -1074, (IZR (2 ^ 53 - 1) * bpow r2 971)%R));
    (QuadS, (128, 15, 113, 16383, -16382, -16494, (IZR (2 ^ 113 - 1) * bpow r2 16271)%R));
    (BFloatS, (16, 8, 8, 127, -126, -133, (255 * bpow r2 120)%R));
    (Float8E5M2S, (8, 5, 3, 15, -14, -16, 57344%R));
    (Float8E4M3FNS, (8, 4, 4, 8, -6, -9, 448%R));
    (X87DoubleExtendedS, (80, 15, 64, 16383, -16382, -16445, (IZR (2 ^ 64 - 1) * bpow r2 16320)%R)) ].
Lemma table_row : forall S bits eb p emax emin elast top, In (S, (bits, eb, p, emax, emin, elast, top)) format_table ->
  sem_ok S /\ BITS S = bits /\ EXP_BITS S = eb /\ PRECISION S = p /\ MAX_EXP S = emax /\ MIN_EXP S = emin /\
  MIN_EXP S - (PRECISION S - 1) = elast /\ max_finite S = top.
Proof.
  intros S bits eb p emax emin elast top H. unfold format_table in H. cbn [In] in H.
  repeat (destruct H as [H|H]; [inversion H; subst; clear H; (split; [apply crate_formats_ok; vm_compute; tauto|]);
    do 6 (split; [reflexivity|]); unfold max_finite;
    first [reflexivity | match goal with |- (IZR ?a * bpow r2 ?b)%R = _ => let a' := eval vm_compute in a in let b' := eval vm_compute in b in
      change a with a'; change b with b'; cbn [bpow]; cbn [Z.pow_pos Pos.iter radix_val r2 Z.mul Pos.mul]; lra end] |]). contradiction.
Qed.
Theorem table_numbers : forall S bits eb p emax emin elast top, In (S, (bits, eb, p, emax, emin, elast, top)) format_table ->
  forall r, (exists x, wf S x /\ finite x /\ value S x = r) <->
            (exists n e, Z.abs n < 2 ^ p /\ elast <= e /\ r = (IZR n * bpow r2 e)%R /\ (Rabs r <= top)%R).
Proof.
  intros S bits eb p emax emin elast top H r. destruct (table_row _ _ _ _ _ _ _ _ H) as (HS & _ & _ & <- & _ & _ & <- & <-).
  apply floats_are. exact HS.
Qed.
Theorem table_constants : forall S bits eb p emax emin elast top, In (S, (bits, eb, p, emax, emin, elast, top)) format_table ->
  (BITS S = bits /\ EXP_BITS S = eb /\ PRECISION S = p /\ MAX_EXP S = emax /\ MIN_EXP S = emin) /\
  value S (largest S) = top /\ value S (smallest_normalized S) = bpow r2 emin /\ value S (SMALLEST S) = bpow r2 elast.
Proof.
  intros S bits eb p emax emin elast top H. destruct (table_row _ _ _ _ _ _ _ _ H) as (HS & E1 & E2 & E3 & E4 & E5 & E6 & E7).
  destruct (constants_spec S HS) as (_ & L & _ & M & _ & N & _). rewrite L, M, N. unfold min_normal, min_positive.
  rewrite E6, E7, E5. tauto.
Qed.
(** the seven formats of IEEE shape and the fields of their patterns *)
Definition pattern_table : list (Semantics * (Z * Z * NonfiniteBehavior)) :=
  [ (HalfS, (16, 5, IEEE754)); (SingleS, (32, 8, IEEE754)); (DoubleS, (64, 11, IEEE754)); (QuadS, (128, 15, IEEE754));
    (BFloatS, (16, 8, IEEE754)); (Float8E5M2S, (8, 5, IEEE754)); (Float8E4M3FNS, (8, 4, NanOnly)) ].
Theorem table_patterns : forall S bits eb nf, In (S, (bits, eb, nf)) pattern_table ->
  forall b, 0 <= b < 2 ^ bits ->
  exists x, from_bits S b = Ret x /\ wf S x /\ sign x = field_sign bits b /\ denotes S x (decoded nf bits eb b) /\ to_bits S x = Ret b.
Proof.
  intros S bits eb nf H b B.
  assert (K : In (bits, eb, nf) interchange_formats /\ S = ieee_semantics bits eb nf).
  { unfold pattern_table in H. cbn [In] in H. unfold interchange_formats. cbn [In].
    repeat (destruct H as [H|H]; [inversion H; subst; split; [tauto|reflexivity]|]). contradiction. }
  destruct K as [K ->]. destruct (from_bits_denotes_crate bits eb nf K b B) as (x & E & A & D).
  destruct (bits_round_trip_crate bits eb nf K b B) as (x' & E' & W & T). rewrite E in E'. assert (x' = x) by congruence. subst x'.
  exists x. split; [exact E|]. split; [exact W|]. split; [exact A|]. split; [exact D|exact T].
Qed.

(** src/ppc.rs:149-152 [BITS], [PRECISION], [MAX_EXP], [MIN_EXP] of [DoubleFloat<F>] *)
Definition dd_BITS (F : Semantics) : Z := BITS F * 2.
Definition dd_PRECISION (F : Semantics) : Z := PRECISION (FallbackS F).
Definition dd_MAX_EXP (F : Semantics) : Z := MAX_EXP (FallbackS F).
Definition dd_MIN_EXP (F : Semantics) : Z := MIN_EXP (FallbackS F).
