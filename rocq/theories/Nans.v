(** * Nans.v -- the NaN constructors *)
From Coq Require Import ZArith Reals List Bool Lia Lra ZifyBool.
From Flocq Require Import Core.
From Verif Require Import Machine Sig SpecSig Limbs SigProofs SigProofs2 SigProofs3 SigProofs4 SigProofs5 Ieee Spec Norm Arith Special Order Bits Formats Int Scale Next Convert Integral Rem Fma Algebra Laws Orderx Total.
Import ListNotations.
Ltac Zify.zify_post_hook ::= idtac.
Local Open Scope Z_scope.

(** ** The NaN constructors *)
Lemma bits_bound : forall x k, 0 <= x -> 0 <= k -> (forall n, k <= n -> Z.testbit x n = false) -> x < 2 ^ k.
Proof.
  intros x k Hx Hk H. assert (x = x mod 2 ^ k) as ->.
  - apply Z.bits_inj'. intros n Hn. destruct (Z_lt_le_dec n k) as [L|L].
    + rewrite Z.mod_pow2_bits_low by lia. reflexivity.
    + rewrite Z.mod_pow2_bits_high by lia. apply H. exact L.
  - apply Z.mod_pos_bound. apply Z.pow_pos_nonneg; lia.
Qed.
Lemma bit_nonzero : forall x n, Z.testbit x n = true -> x <> 0.
Proof. intros x n H ->. rewrite Z.bits_0 in H. discriminate. Qed.
Definition payload_bits (payload : option Z) : Z := match payload with Some p => p | None => 0 end.
Definition payload_ok (payload : option Z) : Prop := 0 <= payload_bits payload < 2 ^ 128.

Lemma qnan_bits_ieee : forall S pl n, sem_ok S -> NONFINITE_BEHAVIOR S = IEEE754 -> payload_ok pl -> 0 <= n ->
  Z.testbit (sig (qnan S pl)) n =
    (n =? PRECISION S - 2) || (X87 S && (n =? PRECISION S - 1)) || ((n <? PRECISION S - 1) && Z.testbit (payload_bits pl) n).
Proof.
  intros S pl n HS Nf Hp Hn. pose proof (ok_nonfinite S HS) as Ho. pose proof (ok_prec S HS) as Hq. rewrite Nf in Ho.
  destruct Ho as [E1 [E2 E3]]. unfold qnan. cbn [sig]. rewrite E1, E2, Z.lor_0_l, Z.lor_spec.
  assert (Hl : Z.testbit (match pl with Some p => Z.land p (2 ^ (PRECISION S - 1) - 1) | None => 0 end) n =
    (n <? PRECISION S - 1) && Z.testbit (payload_bits pl) n).
  { destruct pl as [p|]; cbn [payload_bits]; [|rewrite Z.bits_0, andb_false_r; reflexivity].
    rewrite Z.land_spec, ones_bits by lia. apply andb_comm. }
  rewrite Hl. f_equal. destruct (X87 S).
  - destruct E3 as [E3 ->]. rewrite E3. replace (3 * 2 ^ 62) with (Z.lor (2 ^ 62) (2 ^ 63)) by reflexivity. rewrite Z.lor_spec.
    rewrite !Z.pow2_bits_eqb by lia. cbn [andb]. change (64 - 2) with 62. change (64 - 1) with 63. rewrite (Z.eqb_sym n 62), (Z.eqb_sym n 63). reflexivity.
  - rewrite E3, Z.pow2_bits_eqb by lia. cbn [andb]. rewrite orb_false_r. apply Z.eqb_sym.
Qed.
Lemma qnan_range : forall S pl, sem_ok S -> payload_ok pl -> 0 <= sig (qnan S pl) < 2 ^ 128.
Proof.
  intros S pl HS Hp. pose proof (ok_nonfinite S HS) as Ho. pose proof (ok_prec S HS) as Hq. destruct (p_pow S HS) as [P1 [P2 P3]].
  assert (H0 : 0 <= sig (qnan S pl)).
  { unfold qnan. cbn [sig]. destruct (NONFINITE_BEHAVIOR S); destruct Ho as [-> [_ H]].
    - apply Z.lor_nonneg. split; [apply Z.lor_nonneg; split; [lia|]|].
      + destruct (X87 S); [destruct H as [_ ->]|rewrite H]; lia.
      + unfold payload_ok, payload_bits in Hp. destruct pl; [apply Z.land_nonneg; left|]; lia.
    - destruct H as [-> _]. apply Z.lor_nonneg. split; [apply Z.lor_nonneg; lia|].
      unfold payload_ok, payload_bits in Hp. destruct pl; [apply Z.land_nonneg; left|]; lia. }
  split; [exact H0|]. destruct (NONFINITE_BEHAVIOR S) eqn:Nf.
  - apply Z.lt_le_trans with (2 ^ PRECISION S); [|apply Z.pow_le_mono_r; lia]. apply bits_bound; [exact H0|lia|].
    intros n Hn. rewrite qnan_bits_ieee by (try assumption; lia).
    rewrite (proj2 (Z.eqb_neq n _)) by lia. rewrite (proj2 (Z.eqb_neq n _)) by lia. rewrite (proj2 (Z.ltb_ge n _)) by lia.
    rewrite andb_false_r. reflexivity.
  - unfold qnan. cbn [sig]. destruct Ho as [-> [-> [-> _]]]. rewrite Z.lor_0_r.
    replace (match pl with Some p => Z.land p 0 | None => 0 end) with 0 by (destruct pl; [rewrite Z.land_0_r|]; reflexivity).
    rewrite Z.lor_0_r. lia.
Qed.
Lemma nan_exp_i32 : forall S, sem_ok S ->
  i32 (match NONFINITE_BEHAVIOR S with IEEE754 => MAX_EXP S + 1 | NanOnly => MAX_EXP S end).
Proof. intros S [H' _ H _]. unfold i32. destruct (NONFINITE_BEHAVIOR S); lia. Qed.

Theorem qnan_spec : forall S pl, sem_ok S -> payload_ok pl ->
  default_nan S (qnan S pl) /\ sign (qnan S pl) = false /\
  (NONFINITE_BEHAVIOR S = IEEE754 -> forall n, 0 <= n < PRECISION S - 2 ->
     Z.testbit (sig (qnan S pl)) n = Z.testbit (payload_bits pl) n).
Proof.
  intros S pl HS Hp. pose proof (ok_prec S HS) as Hq. pose proof (qnan_range S pl HS Hp) as R.
  assert (Hb : NONFINITE_BEHAVIOR S = IEEE754 -> forall n, 0 <= n < PRECISION S - 2 ->
     Z.testbit (sig (qnan S pl)) n = Z.testbit (payload_bits pl) n).
  { intros Nf n Hn. rewrite qnan_bits_ieee by (try assumption; lia).
    rewrite (proj2 (Z.eqb_neq n _)) by lia. rewrite (proj2 (Z.eqb_neq n _)) by lia. rewrite (proj2 (Z.ltb_lt n _)) by lia.
    rewrite andb_false_r. reflexivity. }
  split; [|split; [reflexivity|exact Hb]]. unfold default_nan. split; [|split; [reflexivity|]].
  - split; [exact R|]. split; [apply nan_exp_i32; exact HS|]. change (category (qnan S pl)) with NaN. cbn iota.
    unfold nan_sig. destruct (NONFINITE_BEHAVIOR S) eqn:Nf.
    + pose proof (fun n => qnan_bits_ieee S pl n HS Nf Hp) as B.
      assert (N0 : sig (qnan S pl) <> 0).
      { apply bit_nonzero with (PRECISION S - 2). rewrite B by lia. rewrite Z.eqb_refl. reflexivity. }
      destruct (X87 S) eqn:Ex.
      * split; [split; [lia|]|].
        -- apply bits_bound; [lia|lia|]. intros n Hn. rewrite B by lia.
           rewrite (proj2 (Z.eqb_neq n _)) by lia. rewrite (proj2 (Z.eqb_neq n _)) by lia. rewrite (proj2 (Z.ltb_ge n _)) by lia. reflexivity.
        -- intro X. assert (H : Z.testbit (2 ^ (PRECISION S - 1)) (PRECISION S - 2) = true) by (rewrite <- X, B by lia; rewrite Z.eqb_refl; reflexivity).
           rewrite Z.pow2_bits_false in H by lia. discriminate.
      * split; [lia|]. apply bits_bound; [lia|lia|]. intros n Hn. rewrite B by lia.
        rewrite (proj2 (Z.eqb_neq n _)) by lia. rewrite (proj2 (Z.ltb_ge n _)) by lia. reflexivity.
    + pose proof (ok_nonfinite S HS) as Ho. rewrite Nf in Ho. destruct Ho as [E1 [E2 [E3 _]]].
      unfold qnan. cbn [sig]. rewrite E1, E2, E3, Z.lor_0_r. destruct pl; rewrite ?Z.land_0_r, Z.lor_0_r; reflexivity.
  - unfold signaling. change (category (qnan S pl)) with NaN. cbn iota. destruct (NONFINITE_BEHAVIOR S) eqn:Nf; [|reflexivity].
    rewrite !qnan_bits_ieee by (try assumption; lia). rewrite Z.eqb_refl. cbn [orb andb negb].
    destruct (X87 S); cbn [negb orb]; [|reflexivity]. rewrite Z.eqb_refl. cbn [andb orb]. rewrite orb_true_r. reflexivity.
Qed.

Lemma snan_q : forall S, sem_ok S -> NONFINITE_BEHAVIOR S = IEEE754 ->
  Z.land (QNAN_SIGNIFICAND S) (NAN_PAYLOAD_MASK S) = 2 ^ (PRECISION S - 2).
Proof.
  intros S HS Nf. pose proof (ok_nonfinite S HS) as Ho. pose proof (ok_prec S HS) as Hq. rewrite Nf in Ho.
  destruct Ho as [_ [-> E3]]. destruct (X87 S); [destruct E3 as [-> ->]; reflexivity|]. rewrite E3.
  rewrite land_ones_mod by lia. apply Z.mod_small. split; [apply Z.pow_nonneg; lia|]. apply Z.pow_lt_mono_r; lia.
Qed.

Theorem snan_spec : forall S pl, sem_ok S -> payload_ok pl ->
  wf S (snan S pl) /\ category (snan S pl) = NaN /\ sign (snan S pl) = false /\
  (NONFINITE_BEHAVIOR S = IEEE754 ->
     signaling S (snan S pl) = true /\
     (payload_bits pl mod 2 ^ (PRECISION S - 2) <> 0 ->
        sig (snan S pl) mod 2 ^ (PRECISION S - 2) = payload_bits pl mod 2 ^ (PRECISION S - 2)) /\
     (payload_bits pl mod 2 ^ (PRECISION S - 2) = 0 ->
        sig (snan S pl) mod 2 ^ (PRECISION S - 2) = 2 ^ (PRECISION S - 3))).
Proof.
  intros S pl HS Hp. pose proof (ok_prec S HS) as Hq. pose proof (qnan_range S pl HS Hp) as R.
  destruct (NONFINITE_BEHAVIOR S) eqn:Nf.
  2:{ assert (E : snan S pl = qnan S pl).
      { pose proof (ok_nonfinite S HS) as Ho. rewrite Nf in Ho. destruct Ho as [E1 [E2 [E3 _]]].
        unfold snan. rewrite E2, E3. change (Z.land 0 0) with 0. rewrite !Z.land_0_r. cbn [Z.eqb].
        rewrite land_all by exact R. change (Z.shiftr 0 1) with 0. rewrite Z.lor_0_r. destruct (qnan S pl). reflexivity. }
      rewrite E. destruct (qnan_spec S pl HS Hp) as [[W [C _]] [G _]]. split; [exact W|]. split; [exact C|]. split; [exact G|]. discriminate. }
  pose proof (fun n => qnan_bits_ieee S pl n HS Nf Hp) as B.
  pose proof (ok_nonfinite S HS) as Ho. rewrite Nf in Ho. destruct Ho as [E1 [E2 E3]].
  set (q := 2 ^ (PRECISION S - 2)) in *.
  assert (Hq0 : 0 <= q < 2 ^ 128) by (unfold q; split; [apply Z.pow_nonneg; lia|apply Z.pow_lt_mono_r; lia]).
  set (sg0 := Z.land (sig (qnan S pl)) (not128 q)).
  assert (B0 : forall n, 0 <= n -> Z.testbit sg0 n =
     (X87 S && (n =? PRECISION S - 1)) || ((n <? PRECISION S - 2) && Z.testbit (payload_bits pl) n)).
  { intros n Hn. unfold sg0. rewrite Z.land_spec, B, not128_bits by lia. unfold q. rewrite Z.pow2_bits_eqb by lia.
    destruct (Z.eqb_spec n (PRECISION S - 2)) as [E|E].
    - subst n. rewrite Z.eqb_refl, (proj2 (Z.eqb_neq _ _)) by lia. rewrite Z.ltb_irrefl. cbn [negb orb andb]. rewrite !andb_false_r. reflexivity.
    - rewrite (proj2 (Z.eqb_neq (PRECISION S - 2) n)) by lia. cbn [negb orb]. rewrite andb_true_r.
      destruct (Z.ltb_spec n (PRECISION S - 2)) as [L|L].
      + rewrite (proj2 (Z.ltb_lt n (PRECISION S - 1))) by lia. rewrite (proj2 (Z.ltb_lt n 128)) by lia. apply andb_true_r.
      + rewrite (proj2 (Z.ltb_ge n (PRECISION S - 1))) by lia. cbn [andb]. rewrite !orb_false_r.
        destruct (Z.eqb_spec n (PRECISION S - 1)) as [E'|E']; [|rewrite !andb_false_r; reflexivity].
        rewrite (proj2 (Z.ltb_lt n 128)) by lia. apply andb_true_r. }
  assert (M : Z.land sg0 (NAN_PAYLOAD_MASK S) = payload_bits pl mod q).
  { rewrite E2. apply Z.bits_inj'. intros n Hn. rewrite Z.land_spec, B0, ones_bits by lia. unfold q.
    destruct (Z_lt_le_dec n (PRECISION S - 2)) as [L|L].
    - rewrite Z.mod_pow2_bits_low by lia. rewrite (proj2 (Z.ltb_lt n (PRECISION S - 2))), (proj2 (Z.ltb_lt n (PRECISION S - 1))), (proj2 (Z.eqb_neq n _)) by lia.
      rewrite andb_false_r, andb_true_r. reflexivity.
    - rewrite Z.mod_pow2_bits_high by lia. rewrite (proj2 (Z.ltb_ge n (PRECISION S - 2))) by lia. cbn [andb]. rewrite orb_false_r.
      destruct (Z.eqb_spec n (PRECISION S - 1)) as [->|E]; [rewrite Z.ltb_irrefl, andb_false_r; reflexivity|rewrite andb_false_r; reflexivity]. }
  set (sg := if payload_bits pl mod q =? 0 then Z.lor sg0 (Z.shiftr q 1) else sg0).
  assert (Es : snan S pl = mkFloat sg (exp (qnan S pl)) NaN false).
  { unfold snan. rewrite snan_q by assumption. fold q. fold sg0. rewrite M. reflexivity. }
  assert (Hsh : Z.shiftr q 1 = 2 ^ (PRECISION S - 3)).
  { unfold q. rewrite Z.shiftr_div_pow2 by lia. replace (PRECISION S - 2) with (PRECISION S - 3 + 1) by lia. rewrite Z.pow_add_r by lia.
    apply Z.div_mul. lia. }
  assert (Bs : forall n, 0 <= n -> Z.testbit sg n =
     (X87 S && (n =? PRECISION S - 1)) || ((n <? PRECISION S - 2) &&
       (if payload_bits pl mod q =? 0 then n =? PRECISION S - 3 else Z.testbit (payload_bits pl) n))).
  { intros n Hn. unfold sg. destruct (Z.eqb_spec (payload_bits pl mod q) 0) as [Z0|Z0]; [|apply B0; exact Hn].
    rewrite Z.lor_spec, B0, Hsh, Z.pow2_bits_eqb by lia.
    destruct (Z_lt_le_dec n (PRECISION S - 2)) as [L|L].
    - rewrite (proj2 (Z.ltb_lt n _)) by lia.
      assert (Z.testbit (payload_bits pl) n = false) as ->.
      { rewrite <- (Z.mod_pow2_bits_low (payload_bits pl) (PRECISION S - 2) n) by lia. fold q. rewrite Z0. apply Z.bits_0. }
      cbn [andb]. rewrite orb_false_r, (Z.eqb_sym n (PRECISION S - 3)). reflexivity.
    - rewrite (proj2 (Z.ltb_ge n _)) by lia. rewrite (proj2 (Z.eqb_neq (PRECISION S - 3) n)) by lia. cbn [andb]. rewrite !orb_false_r. reflexivity. }
  assert (Hsg0 : 0 <= sg0) by (unfold sg0; apply Z.land_nonneg; left; lia).
  assert (Hsg : 0 <= sg) by (unfold sg; destruct (_ =? 0); [apply Z.lor_nonneg; split; [exact Hsg0|rewrite Hsh; apply Z.pow_nonneg; lia]|exact Hsg0]).
  assert (Hup : sg < 2 ^ PRECISION S).
  { apply bits_bound; [exact Hsg|lia|]. intros n Hn. rewrite Bs by lia. rewrite (proj2 (Z.eqb_neq n _)) by lia. rewrite (proj2 (Z.ltb_ge n _)) by lia. rewrite andb_false_r. reflexivity. }
  assert (Hlow : sg mod q = if payload_bits pl mod q =? 0 then 2 ^ (PRECISION S - 3) else payload_bits pl mod q).
  { apply Z.bits_inj'. intros n Hn. unfold q at 1. destruct (Z_lt_le_dec n (PRECISION S - 2)) as [L|L].
    - rewrite Z.mod_pow2_bits_low by lia. rewrite Bs by lia. rewrite (proj2 (Z.eqb_neq n (PRECISION S - 1))), (proj2 (Z.ltb_lt n _)) by lia.
      rewrite andb_false_r. cbn [orb andb]. destruct (_ =? 0).
      + rewrite Z.pow2_bits_eqb by lia. apply Z.eqb_sym.
      + unfold q. rewrite Z.mod_pow2_bits_low by lia. reflexivity.
    - rewrite Z.mod_pow2_bits_high by lia. symmetry. destruct (_ =? 0).
      + apply Z.pow2_bits_false. lia.
      + unfold q. apply Z.mod_pow2_bits_high. lia. }
  assert (Hlow0 : sg mod q <> 0).
  { rewrite Hlow. destruct (Z.eqb_spec (payload_bits pl mod q) 0); [|assumption]. assert (0 < 2 ^ (PRECISION S - 3)) by (apply Z.pow_pos_nonneg; lia). lia. }
  assert (Hn0 : sg <> 0) by (intro X; rewrite X, Z.mod_0_l in Hlow0; lia).
  rewrite Es. cbn [sig category sign]. split; [|split; [reflexivity|split; [reflexivity|]]].
  - split; [|split]; cbn [sig exp category].
    + unfold limb. split; [exact Hsg|]. apply Z.lt_le_trans with (1 := Hup). apply Z.pow_le_mono_r; lia.
    + apply nan_exp_i32. exact HS.
    + unfold nan_sig. rewrite Nf. destruct (X87 S) eqn:Ex.
      * split; [split; [exact Hsg|exact Hup]|]. intro X. rewrite X in Hlow0. apply Hlow0. unfold q.
        replace (PRECISION S - 1) with (PRECISION S - 2 + 1) by lia. rewrite Z.pow_add_r by lia. rewrite Z.mul_comm. apply Z.mod_mul. fold q. unfold q. lia.
      * split; [lia|]. apply bits_bound; [exact Hsg|lia|]. intros n Hn. rewrite Bs by lia. rewrite (proj2 (Z.ltb_ge n _)) by lia. reflexivity.
  - intros _. split; [|rewrite Hlow; split].
    + unfold signaling. cbn [category sig]. rewrite Nf. rewrite (Bs (PRECISION S - 2)) by lia.
      rewrite (proj2 (Z.eqb_neq (PRECISION S - 2) _)) by lia. rewrite Z.ltb_irrefl. rewrite andb_false_r. reflexivity.
    + intro H. rewrite (proj2 (Z.eqb_neq _ _) H). reflexivity.
    + intro H. rewrite (proj2 (Z.eqb_eq _ _) H). reflexivity.
Qed.
