(** * FmtEdge.v -- Display: the precision 0 and precisions that are too large *)
From Coq Require Import ZArith Reals Bool Lia Lra ZifyBool String List.
From Flocq Require Import Core.
From Verif Require Import Machine Sig SpecSig Limbs SigProofs SigProofs2 SigProofs3 SigProofs4 Ieee Spec Formats Norm Arith Int Integral Algebra
  Parse SpecStr StrHex StrScan StrNum StrLoop StrDecimal StrCell StrTop Fmt FmtNum SpecFmt FmtTop.
Import ListNotations.
Local Open Scope Z_scope.
Ltac Zify.zify_post_hook ::= idtac.

Lemma expansion_unique : forall v N e N' e', expansion v N e -> expansion v N' e' -> N = N' /\ e = e'.
Proof.
  assert (W : forall v N e N' e', expansion v N e -> expansion v N' e' -> e <= e' -> N = N' /\ e = e').
  { intros v N e N' e' [V [P [E T]]] [V' [P' [E' T']]] L.
    assert (X : N = N' * 10 ^ (e' - e)).
    { apply eq_IZR. rewrite mult_IZR, <- bpow10_pos by lia. apply Rmult_eq_reg_r with (bpow r10 e); [|apply Rgt_not_eq, bpow_gt_0].
      rewrite <- V, V', Rmult_assoc, <- bpow_plus. do 2 f_equal. lia. }
    destruct (Z.eq_dec e e') as [Q|Q]; [subst e'; rewrite Z.sub_diag, Z.pow_0_r, Z.mul_1_r in X; split; [exact X|reflexivity]|exfalso].
    apply T; [lia|]. rewrite X. replace (e' - e) with (e' - e - 1 + 1) by lia. rewrite Z.pow_add_r, Z.pow_1_r, Z.mul_assoc by lia. apply Z.mod_mul. lia. }
  intros v N e N' e' H H'. destruct (Z_le_gt_dec e e') as [L|L]; [apply (W v); assumption|].
  destruct (W v N' e' N e H' H ltac:(lia)) as [-> ->]. split; reflexivity.
Qed.
Lemma scaled_expansion : forall S x, sem_ok S -> wf S x -> category x = Normal ->
  exists sg e, scaled_sig S x = Ret (sg, e) /\ limbs sg /\ - (2 ^ 20 + 126) <= e <= 0 /\ 128 * Z.of_nat (List.length sg) <= 2 ^ 23 /\
    expansion (Rabs (value S x)) (lval sg) e.
Proof.
  intros S x HS Hx C. destruct (scaled_sig_spec S x HS Hx C) as [sg [e [E [Hs [Hp [He [HL [V O]]]]]]]].
  exists sg, e. split; [exact E|]. split; [exact Hs|]. split; [exact He|]. split; [exact HL|]. split; [exact V|]. split; [exact Hp|]. split; [lia|].
  intros L Z0. destruct (O L) as [h Oh]. pose proof (Z.div_mod (lval sg) 10 ltac:(lia)). lia.
Qed.
(** the precision does not fit the arithmetic *)
Theorem fmt_too_precise : forall S x w p alternate, sem_ok S -> wf S x -> category x = Normal -> largest_precision < chosen_precision S p ->
  fmt S x w p alternate = Panic.
Proof.
  intros S x w p alternate HS Hx C HP. rewrite fmt_normal_split by assumption. unfold largest_precision in HP.
  destruct (scaled_expansion S x HS Hx C) as [sg [e [E _]]]. rewrite E. cbn [bind]. unfold reduced.
  replace (_ <? 2 ^ 64) with false by (symmetry; apply Z.ltb_ge; lia). reflexivity.
Qed.

(** ** All digits are discarded *)
Lemma loop_exhaust : forall d fuel sg e, limbs sg -> (lval sg = 0 -> sg = []) -> lval sg / 10 ^ Z.of_nat d = 0 -> lval sg < 2 ^ (Z.of_nat fuel - 1) ->
  - 2 ^ 31 <= e -> e + Z.of_nat d <= 2 ^ 31 - 1 -> exists e', digits_loop fuel sg e (Z.of_nat d) true [] = Ret ([], e').
Proof.
  induction d as [|d IH]; intros fuel sg e Hs N Hd Hf He He'.
  - change (Z.of_nat 0) with 0 in *. rewrite Z.pow_0_r, Z.div_1_r in Hd. rewrite (N Hd) in *. change (lval []) with 0 in Hf.
    destruct fuel as [|fuel]; [exfalso; change (2 ^ (Z.of_nat 0 - 1)) with 0 in Hf; lia|]. exists e. reflexivity.
  - pose proof (lval_nonneg sg Hs) as P0.
    destruct fuel as [|fuel]; [exfalso; change (2 ^ (Z.of_nat 0 - 1)) with 0 in Hf; lia|].
    destruct (Z.eq_dec (lval sg) 0) as [Z0|Z0]; [rewrite (N Z0); exists e; reflexivity|]. assert (Hp : 0 < lval sg) by lia.
    destruct (fuel_step _ _ Hp Hf) as [Hf' _]. destruct (div10_spec sg Hs) as [r [E [Br [Vr [Nr _]]]]]. rewrite <- Vr in Hf'.
    assert (P10 : 0 < 10 ^ Z.of_nat d) by (apply Z.pow_pos_nonneg; lia).
    rewrite Nat2Z.inj_succ, Z.pow_succ_r, <- Z.div_div, <- Vr in Hd by lia.
    destruct (IH fuel r (e + 1) Br Nr Hd Hf' ltac:(lia) ltac:(lia)) as [e' E'].
    exists e'. cbn [digits_loop]. rewrite (not_empty sg Hp), E. cbn [bind]. replace (0 <? Z.of_nat (S d)) with true by lia.
    rewrite chk32_ret by lia. cbn [bind]. replace (Z.of_nat (S d) - 1) with (Z.of_nat d) by lia. exact E'.
Qed.
Theorem fmt_precision_0 : forall S x w alternate, sem_ok S -> wf S x -> category x = Normal -> 0 <= chosen_width w ->
  exists N e, expansion (Rabs (value S x)) N e /\
  if N <? 10 ^ ((Z.log2 N + 1) * 59 / 196) then fmt S x w (Some 0) alternate = Panic
  else exists k t, (bpow r10 (k - 1) <= Rabs (value S x) < bpow r10 k)%R /\ layout (chosen_width w) 0 alternate 1 k t /\
    fmt S x w (Some 0) alternate = Ret ((if sign x then [45] else []) ++ t).
Proof.
  intros S x w alternate HS Hx C Hw. rewrite fmt_normal_split by assumption. change (chosen_precision S (Some 0)) with 0. set (W := chosen_width w) in *.
  destruct (scaled_expansion S x HS Hx C) as [sg [e [E [Hs [He [HL X]]]]]]. rewrite E. cbn [bind]. clear E. exists (lval sg), e. split; [exact X|].
  destruct X as [V [Hp _]]. unfold reduced. change (0 * 196 + 58 <? 2 ^ 64) with true. cbn [assertb]. rewrite omsb_spec by assumption.
  change ((0 * 196 + 58) / 59) with 0.
  replace (saturating_usub (bitlen (lval sg)) 0) with (Z.log2 (lval sg) + 1) by (rewrite bitlen_pos by exact Hp; unfold saturating_usub; pose proof (Z.log2_nonneg (lval sg)); lia).
  pose proof (Z.log2_nonneg (lval sg)) as L0. set (b := Z.log2 (lval sg) + 1) in *. set (D := b * 59 / 196) in *.
  assert (HD : 0 <= D <= b) by (unfold D; pose proof (Z.div_mod (b * 59) 196 ltac:(lia)); pose proof (Z.mod_pos_bound (b * 59) 196 ltac:(lia)); lia).
  assert (P10 : 0 < 10 ^ D) by (apply Z.pow_pos_nonneg; lia).
  pose proof (lval_bound sg Hs) as Bs.
  assert (Bb : b <= 2 ^ 23).
  { unfold b. assert (Z.log2 (lval sg) < nbits sg) by (apply Z.log2_lt_pow2; lia). unfold nbits, nlimbs in *. lia. }
  set (fuel := Datatypes.S (Z.to_nat (128 * len sg))).
  assert (Ef : Z.of_nat fuel - 1 = nbits sg) by (unfold fuel, nbits, nlimbs, len; lia).
  assert (Ef' : Z.of_nat fuel <= 2 ^ 23 + 1) by (unfold nbits, nlimbs in Ef; lia).
  destruct (Z.ltb_spec (lval sg) (10 ^ D)) as [K|K].
  - destruct (loop_exhaust (Z.to_nat D) fuel sg e Hs) as [e' E].
    + intro Z0. lia.
    + rewrite Z2Nat.id by lia. apply Z.div_small. lia.
    + rewrite Ef. lia.
    + lia.
    + lia.
    + rewrite Z2Nat.id in E by lia. rewrite E. reflexivity.
  - assert (HM : 0 < lval sg / 10 ^ D) by (apply Z.div_str_pos; lia).
    destruct (digits_loop_spec fuel sg e D Hs ltac:(lia) HM ltac:(rewrite Ef; lia) ltac:(lia) ltac:(lia)) as [buf [t [n [E [Nb [Sb [Nn [Hn [En Ht]]]]]]]]].
    rewrite E. cbn [bind]. clear E. replace (is_empty buf) with false by (destruct buf; [contradiction|reflexivity]). cbn [negb assertb].
    pose proof (shows_bound _ _ Sb) as Bn.
    assert (L1 : 1 <= len buf) by (unfold len; destruct buf; [contradiction|cbn; lia]).
    assert (P10t : 0 < 10 ^ t) by (apply Z.pow_pos_nonneg; lia).
    assert (Hlow : n * 10 ^ t * 10 ^ D <= lval sg) by (rewrite <- En, Z.mul_comm; apply Z.mul_div_le; exact P10).
    assert (Hupp : lval sg < (n * 10 ^ t + 1) * 10 ^ D) by (rewrite <- En, Z.mul_comm, Z.add_1_r; apply Z.mul_succ_div_gt; exact P10).
    assert (Lb : len buf <= 2 ^ 23).
    { destruct (Z_le_gt_dec (len buf) (2 ^ 23)) as [Y|Y]; [exact Y|exfalso].
      assert (n <= lval sg) by nia.
      assert (Q : 2 ^ (len buf - 1) < 2 ^ nbits sg).
      { apply Z.le_lt_trans with (2 := proj2 Bs). apply Z.le_trans with (10 ^ (len buf - 1)); [apply Z.pow_le_mono_l; lia|]. lia. }
      apply Z.pow_lt_mono_r_iff in Q; [|lia|apply nbits_nonneg]. unfold nbits, nlimbs in Q. lia. }
    set (L := len buf) in *.
    assert (E : round_buffer buf (e + D + t) 0 = Ret ([49], e + D + t + L)).
    { unfold round_buffer. fold L. replace (0 <? L) with true by lia. rewrite Z.sub_0_r. rewrite usub_ret by lia. cbn [bind]. rewrite get_ret by lia. cbn [bind].
      rewrite slice_from_ret by lia. cbn [bind]. replace (skipn (Z.to_nat L) buf) with (@nil Z) by (symmetry; apply skipn_all2; unfold L, len; lia).
      cbn [count_zeros carry_nines]. destruct (_ <? ch "5"); rewrite Z.add_0_r, as_i32_id by lia; rewrite chk32_ret by lia; reflexivity. }
    rewrite E. cbn [bind]. clear E. set (k := e + D + t + L) in *.
    assert (Nu : numeral (rev [49]) 1).
    { split; [apply (shows_cons 49 [] 1 0); [lia|reflexivity|apply shows_nil]|]. split; [discriminate|reflexivity]. }
    destruct (layout_spec W 0 alternate [49] 1 k Hw ltac:(lia) Nu ltac:(discriminate) ltac:(reflexivity || (cbn; lia)) ltac:(cbn; lia) ltac:(lia)) as [tx [E Ht']].
    rewrite E. cbn [bind]. exists k, tx. split; [|split; [exact Ht'|reflexivity]].
    assert (A1 : 10 ^ (L - 1) * 10 ^ t <= n * 10 ^ t) by (apply Z.mul_le_mono_nonneg_r; lia).
    assert (A2 : n * 10 ^ t + 1 <= 10 ^ L * 10 ^ t) by (assert ((n + 1) * 10 ^ t <= 10 ^ L * 10 ^ t) by (apply Z.mul_le_mono_nonneg_r; lia); lia).
    apply (Z.mul_le_mono_nonneg_r _ _ (10 ^ D)) in A1; [|lia]. apply (Z.mul_le_mono_nonneg_r _ _ (10 ^ D)) in A2; [|lia].
    rewrite V. replace (k - 1) with (L - 1 + t + D + e) by lia. replace k with (L + t + D + e) by lia. rewrite !bpow_plus, (bpow10_pos (L - 1)), (bpow10_pos L), (bpow10_pos t), (bpow10_pos D) by lia. rewrite <- !mult_IZR.
    split; [apply Rmult_le_compat_r; [apply bpow_ge_0|apply IZR_le; lia]|apply Rmult_lt_compat_r; [apply bpow_gt_0|apply IZR_lt; lia]].
Qed.
