(** * StrLong.v -- literals so long that the exponent arithmetic fails

    The length of a literal enters its exponent.  The hexadecimal reader
    multiplies it by four in saturating 32-bit arithmetic, after an [unwrap] of
    its conversion to 32 bits (src/ieee.rs:2284-2295); the decimal reader casts
    it to 32 bits, dropping bits (src/ieee.rs:2384-2389). *)
From Coq Require Import ZArith Reals List Bool Lia Lra ZifyBool String.
From Flocq Require Import Core Bracket Round.
From Verif Require Import Machine Sig SpecSig Ieee Spec Norm Arith Int Algebra Laws Formats Samples Limbs Parse SpecStr StrHex StrSyntax StrScan StrTop StrRefute.
Import ListNotations.
Local Notation length := List.length (only parsing).
Ltac Zify.zify_post_hook ::= idtac.
Local Open Scope Z_scope.

(** the digit 1 followed by [N] zeros *)
Definition one_zeros (N : nat) : list Z := 49 :: repeat 48 N.
Lemma one_zeros_len : forall N, len (one_zeros N) = Z.of_nat N + 1.
Proof. intro N. unfold len, one_zeros. cbn [length]. rewrite repeat_length. lia. Qed.
Lemma zeros_digits : forall r N, 1 < r -> digits r (repeat 48 N) 0.
Proof.
  intros r N Hr. induction N as [|N IH]; [constructor|]. cbn [repeat].
  replace 0 with (0 * r ^ len (repeat 48 N) + 0) by lia. apply digits_cons; [lia|apply (dc_decimal 0); lia|lia|exact IH].
Qed.
Lemma one_zeros_digits : forall r N, 1 < r -> digits r (one_zeros N) (r ^ Z.of_nat N).
Proof.
  intros r N Hr. unfold one_zeros. replace (r ^ Z.of_nat N) with (1 * r ^ len (repeat 48 N) + 0) by (unfold len; rewrite repeat_length; lia).
  apply digits_cons; [lia|apply (dc_decimal 1); lia|lia|apply zeros_digits; lia].
Qed.
Lemma one_zeros_mantissa : forall r N, 1 < r -> mantissa r (one_zeros N) (r ^ Z.of_nat N) 0.
Proof. intros r N Hr. apply mantissa_int; [apply one_zeros_digits; lia|discriminate]. Qed.

(** ** Hexadecimal *)
Lemma hex_zeros_scan : forall N u minus ds e, 32 <= Z.of_nat N -> exp_sign u = (minus, ds) ->
  exp_digits ds false 0 = Ok (true, e) -> 0 <= e <= I32_MAX ->
  let s := one_zeros N ++ 112 :: u in
  exists bp, hex_loop (len s) 0 s (mkHex 0 0 false false LIMB_BITS None None (len s)) =
    Ret (Ok (mkHex (2 ^ 124) (if minus then - e else e) true true bp (Some ExactlyZero) (Some 0) (Z.of_nat N + 1))).
Proof.
  intros N u minus ds e HN Hs He Hr s. subst s. set (t := one_zeros N).
  set (L := len (t ++ 112 :: u)). pose proof (one_zeros_digits 16 N ltac:(lia)) as D.
  destruct (hex_digits_step t L 0 false 0 None _ (112 :: u) (hex_start L) (digits_forall _ _ _ D)) as [n [st [Hn [E1 I]]]].
  rewrite <- (digits_unique 16 t _ n ltac:(lia) D Hn) in I. clear n Hn.
  assert (Ht : len t = Z.of_nat N + 1) by apply one_zeros_len.
  rewrite Z.mul_0_l, !Z.add_0_l in *. cbn [is_empty orb negb t one_zeros] in I.
  destruct I as [I1 I2 I3 I4 I5 I6 _ I8].
  assert (P : 0 < 16 ^ Z.of_nat N) by (apply Z.pow_pos_nonneg; lia).
  destruct (I8 P) as [k [K1 [K2 [B [F [Sg Lo]]]]]].
  assert (Ek : k = Z.of_nat N + 1).
  { destruct (Z.lt_trichotomy k (Z.of_nat N + 1)) as [Y|[Y|Y]]; [exfalso|exact Y|exfalso].
    - assert (16 ^ k <= 16 ^ Z.of_nat N) by (apply Z.pow_le_mono_r; lia). lia.
    - assert (16 ^ Z.of_nat N < 16 ^ (k - 1)) by (apply Z.pow_lt_mono_r; lia). lia. }
  clear K2. subst k.
  assert (Q : 16 ^ Z.of_nat N = 2 ^ 124 * 16 ^ (Z.of_nat N + 1 - 32)).
  { change (2 ^ 124) with (16 ^ 31). rewrite <- Z.pow_add_r by lia. f_equal. lia. }
  assert (P2 : 0 < 16 ^ (Z.of_nat N + 1 - 32)) by (apply Z.pow_pos_nonneg; lia).
  assert (Sg' : h_sig st = 2 ^ 124).
  { rewrite Sg. unfold hex_sig. rewrite (proj2 (Z.leb_gt _ _)) by lia. rewrite Q. apply Z.div_mul. lia. }
  assert (Lo' : h_loss st = Some ExactlyZero).
  { rewrite Lo. unfold hex_loss. rewrite (proj2 (Z.leb_gt _ _)) by lia. rewrite Q, Z.mod_mul by lia. reflexivity. }
  rewrite Ht in *. unfold first_pos in F. replace (Z.of_nat N + 1 - (Z.of_nat N + 1)) with 0 in F by lia.
  exists (h_bit_pos st). rewrite E1. cbn [hex_loop]. change (112 =? ch ".") with false. change (to_digit 16 112) with (@None Z).
  change ((112 =? ch "p") || (112 =? ch "P")) with true. cbv iota. rewrite I3. cbn [negb]. rewrite Hs, I2, I1, He. cbn [negb].
  assert ((if minus then chk32 (- e) else Ret e) = Ret (if minus then - e else e)) as ->.
  { destruct minus; [|reflexivity]. apply chk32_ret. unfold I32_MAX in Hr. lia. }
  cbn [bind]. rewrite I4, Z.eqb_refl, F, Sg', Lo'. reflexivity.
Qed.
Lemma hex_number : forall S t m, t <> [] -> from_str_r S (48 :: 120 :: t) m =
  let? '(status, r) := from_hexadecimal_string S t m in Ret (Ok (status, r)).
Proof.
  intros S t m N. rewrite (signed_number S [] false 48 (120 :: t)); [|constructor|right; exists 0; split; [apply (dc_decimal 0)|]; lia].
  unfold number. cbn [round_negate_if negate_if]. destruct t; [contradiction|]. reflexivity.
Qed.

(** 2^29 hexadecimal digits: [0x1000...0p-2147483647] is 1/8 *)
Definition hex_long (N : nat) : list Z := 48 :: 120 :: one_zeros N ++ 112 :: bytes "-2147483647".
Lemma exponent_long : exponent (bytes "-2147483647") (- 2147483647).
Proof.
  change (bytes "-2147483647") with (45 :: bytes "2147483647"). apply (exponent_minus (bytes "2147483647") 2147483647).
  exact (digits_all (bytes "2147483647") eq_refl).
Qed.

Lemma hex_long_value : forall N, Z.of_nat N = 2 ^ 29 - 1 -> hex_text (hex_long N) false (bpow r2 (-3)).
Proof.
  intros N HN. assert (E : (bpow r2 (-3) = IZR (16 ^ Z.of_nat N) * bpow r2 (- 2147483647 - 4 * 0))%R).
  { rewrite pow16, IZR_pow2, <- bpow_plus by lia. f_equal. rewrite HN. reflexivity. }
  rewrite E. apply (hex_text_intro [] false 120); [constructor|left; reflexivity|].
  apply hex_intro; [apply one_zeros_mantissa; reflexivity|left; reflexivity|exact exponent_long|].
  exists 50, 2. split; [right; left; reflexivity|apply (dc_decimal 2); lia].
Qed.
(** it is read as 2^-27 in single precision, with no flag *)
Lemma hex_zeros_run : forall N m, Z.of_nat N = 2 ^ 29 - 1 ->
  from_str_r SingleS (hex_long N) m = Ret (Ok (OK, mkFloat (2 ^ 23) (-27) Normal false)).
Proof.
  intros N m HN. unfold hex_long. rewrite hex_number by discriminate. unfold from_hexadecimal_string.
  destruct (hex_zeros_scan N (bytes "-2147483647") true (bytes "2147483647") 2147483647 ltac:(lia) eq_refl eq_refl ltac:(unfold I32_MAX; lia)) as [bp E].
  rewrite E. clear E. cbn [rbind bind h_any_digits h_has_exp negb h_first h_dot h_exp h_loss h_sig]. rewrite HN.
  destruct m; vm_compute; reflexivity.
Qed.
Theorem hex_long_refuted : exists S s x f, sem_ok S /\ hex_text s false x /\
  from_str_r S s NearestTiesToEven = Ret (Ok (OK, f)) /\ forall st' g, ~ correctly_rounded S NearestTiesToEven x g (st', f).
Proof.
  assert (HN : Z.of_nat (Z.to_nat (2 ^ 29 - 1)) = 2 ^ 29 - 1) by (apply Z2Nat.id; lia).
  remember (Z.to_nat (2 ^ 29 - 1)) as N eqn:X. clear X.
  exists SingleS, (hex_long N), (bpow r2 (-3)), (mkFloat (2 ^ 23) (-27) Normal false).
  split; [exact single_ok|]. split; [exact (hex_long_value N HN)|]. split; [exact (hex_zeros_run N _ HN)|].
  intros st' g H. destruct (delivers_representable _ _ _ _ _ _ _ single_ok H) as [_ [_ V]].
  - split.
    + apply generic_format_bpow. vm_compute. discriminate.
    + rewrite Rabs_pos_eq by apply bpow_ge_0. apply Rle_trans with (2 := single_max_one). change 1%R with (bpow r2 0). apply bpow_le. lia.
  - unfold value in V. cbn [category sign sig exp signed] in V. change (-27 - (PRECISION SingleS - 1)) with (-50) in V.
    rewrite IZR_pow2, <- bpow_plus in V by lia. apply bpow_inj in V. lia.
Qed.

(** 2^31 digits: the conversion of their number to 32 bits fails *)
Definition hex_panic (N : nat) : list Z := 48 :: 120 :: one_zeros N ++ 112 :: bytes "0".
Theorem hex_panic_refuted : exists s, accepted s /\ forall S m, from_str_r S s m = Panic.
Proof.
  assert (HN : Z.of_nat (Z.to_nat (2 ^ 31 - 1)) = 2 ^ 31 - 1) by (apply Z2Nat.id; lia).
  remember (Z.to_nat (2 ^ 31 - 1)) as N eqn:X. clear X. exists (hex_panic N). split.
  - right. right. left. exists false, (IZR (16 ^ Z.of_nat N) * bpow r2 (0 - 4 * 0))%R.
    apply (hex_text_intro [] false 120); [constructor|left; reflexivity|].
    apply hex_intro; [apply one_zeros_mantissa; reflexivity|left; reflexivity| |].
    + apply exponent_plain. exact (digits_all (bytes "0") eq_refl).
    + exists 48, 0. split; [left; reflexivity|apply (dc_decimal 0); lia].
  - intros S m. unfold hex_panic. rewrite hex_number by discriminate. unfold from_hexadecimal_string.
    destruct (hex_zeros_scan N (bytes "0") false (bytes "0") 0 ltac:(lia) eq_refl eq_refl ltac:(unfold I32_MAX; lia)) as [bp E].
    rewrite E. clear E. cbn [rbind bind h_any_digits h_has_exp negb h_first h_dot h_exp h_loss h_sig]. rewrite HN. reflexivity.
Qed.

(** ** Decimal *)
Lemma dec_zeros_scan : forall N L p any e f l, dec_loop L p (repeat 48 (Datatypes.S N)) (mkDec any e f l L) = Ret (Ok (mkDec true e f l L)).
Proof.
  induction N as [|N IH]; intros L p any e f l; [reflexivity|].
  change (repeat 48 (Datatypes.S (Datatypes.S N))) with (48 :: repeat 48 (Datatypes.S N)).
  cbn [dec_loop]. change (48 =? ch ".") with false. change (to_digit 10 48) with (Some 0). cbv iota beta. change (negb (0 =? 0)) with false. cbv iota.
  cbn [d_exp d_first d_last d_dot]. apply IH.
Qed.
(** 1 followed by 2^32 zeros is read as 1 *)
Lemma dec_long_value : forall N, dec_text (one_zeros N) false (IZR (10 ^ Z.of_nat N)).
Proof.
  intro N. replace (IZR (10 ^ Z.of_nat N)) with (IZR (10 ^ Z.of_nat N) * bpow r10 (- 0))%R by apply Rmult_1_r.
  apply (dec_text_intro [] false); [constructor|]. apply dec_plain. apply one_zeros_mantissa. reflexivity.
Qed.
Lemma dec_zeros_run : forall N m, Z.of_nat N = 2 ^ 32 ->
  from_str_r SingleS (one_zeros N) m = Ret (Ok (OK, mkFloat (2 ^ 23) 0 Normal false)).
Proof.
  intros N m HN. pose proof (one_zeros_len N) as HL. unfold one_zeros.
  rewrite (signed_number SingleS [] false 49 (repeat 48 N)); [|constructor|right; exists 1; split; [apply (dc_decimal 1)|]; lia].
  unfold number. cbn [round_negate_if negate_if]. unfold from_decimal_string. fold (one_zeros N). rewrite HL, HN.
  assert (E : dec_loop (2 ^ 32 + 1) 0 (one_zeros N) (mkDec false 0 None 0 (2 ^ 32 + 1)) = Ret (Ok (mkDec true 0 (Some 0) 0 (2 ^ 32 + 1)))).
  { unfold one_zeros. destruct N as [|N]; [discriminate HN|]. cbn [dec_loop]. change (49 =? ch ".") with false. change (to_digit 10 49) with (Some 1). cbv iota beta.
    change (negb (1 =? 0)) with true. cbv iota. cbn [d_exp d_first d_last d_dot]. apply dec_zeros_scan. }
  rewrite E. clear E. cbn [rbind bind d_any_digits negb d_first d_dot d_last d_exp].
  assert (S1 : slice_from (one_zeros N) 0 = Ret (one_zeros N)).
  { unfold slice_from. rewrite HL, HN. reflexivity. }
  assert (S2 : slice_to (one_zeros N) (0 + 1 - 0) = Ret [49]).
  { unfold slice_to. rewrite HL, HN. reflexivity. }
  rewrite S1. cbn [bind]. rewrite S2. clear.
  destruct m; vm_compute; reflexivity.
Qed.
Theorem dec_long_refuted : exists S s x f, sem_ok S /\ dec_ok S /\ dec_text s false x /\
  from_str_r S s NearestTiesToEven = Ret (Ok (OK, f)) /\ forall m st' g, ~ correctly_rounded S m x g (st', f).
Proof.
  assert (HN : Z.of_nat (Z.to_nat (2 ^ 32)) = 2 ^ 32) by (apply Z2Nat.id; lia).
  remember (Z.to_nat (2 ^ 32)) as N eqn:X. clear X.
  exists SingleS, (one_zeros N), (IZR (10 ^ Z.of_nat N)), (mkFloat (2 ^ 23) 0 Normal false).
  split; [exact single_ok|]. split; [constructor; vm_compute; (reflexivity || discriminate)|].
  split; [exact (dec_long_value N)|]. split; [exact (dec_zeros_run N _ HN)|].
  intros m st' g [_ [_ [A B]]].
  assert (V : value SingleS (mkFloat (2 ^ 23) 0 Normal false) = 1%R).
  { unfold value. cbn [category sign sig exp signed]. change (0 - (PRECISION SingleS - 1)) with (- (23)). rewrite IZR_pow2, <- bpow_plus by lia. reflexivity. }
  assert (Hx : (2 <= rounded SingleS m (IZR (10 ^ Z.of_nat N)))%R).
  { assert (R2 : rounded SingleS m (bpow r2 1) = bpow r2 1) by (apply rounded_format, generic_format_bpow; vm_compute; discriminate).
    change 2%R with (bpow r2 1). rewrite <- R2. apply rounded_mono; [exact single_ok|]. change (bpow r2 1) with 2%R.
    apply IZR_le. apply Z.le_trans with (10 ^ 1); [lia|]. apply Z.pow_le_mono_r; lia. }
  set (r := rounded SingleS m (IZR (10 ^ Z.of_nat N))) in *. clearbody r.
  destruct (Rle_lt_dec (Rabs r) (max_finite SingleS)) as [L|L].
  - destruct (A L) as [_ [Q _]]. rewrite V in Q. lra.
  - specialize (B L). destruct (to_infinity m _).
    + destruct B as [_ B]. discriminate B.
    + destruct B as [_ [_ B]]. rewrite V, Rabs_R1 in B. revert B. unfold max_finite.
      change (max_sig SingleS) with (2 ^ 24 - 1). change (bpow r2 _) with (bpow r2 104). intro B.
      pose proof (bpow_le r2 0 104 ltac:(lia)) as Bp. change (bpow r2 0) with 1%R in Bp.
      assert (2 * 1 <= IZR (2 ^ 24 - 1) * bpow r2 104)%R; [|lra].
      apply Rmult_le_compat; [lra|lra|apply IZR_le; vm_compute; discriminate|exact Bp].
Qed.
