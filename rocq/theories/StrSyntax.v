(** * StrSyntax.v -- [from_str_r]: signs, special values, and the split into
    hexadecimal and decimal numerals. *)
From Coq Require Import ZArith Reals List Bool Lia Lra ZifyBool Ascii String.
From Flocq Require Import Core.
From Verif Require Import Machine Sig SpecSig Limbs SigProofs SigProofs2 SigProofs3 SigProofs4 SigProofs5 Ieee Spec Norm Arith
  Special Order Bits Formats Int Scale Next Convert Integral Rem Fma Algebra Laws Orderx Total Nans Parse SpecStr StrHex StrScan.
Import ListNotations.
Local Open Scope Z_scope.
Ltac Zify.zify_post_hook ::= idtac.
Local Notation length := List.length.

(** ** Payload numbers *)
Lemma radix_digits_spec : forall r s acc n, 1 <= r <= 16 -> 0 <= acc < 2 ^ 128 ->
  radix_digits r s acc = Some n <-> exists d, digits r s d /\ n = acc * r ^ len s + d /\ n < 2 ^ 128.
Proof.
  intros r s. induction s as [|c s IH]; intros acc n Hr Ha.
  - cbn [radix_digits]. unfold len. cbn. split.
    + intro H. injection H as <-. exists 0. split; [constructor|]. lia.
    + intros [d [D [E L]]]. inversion D; [|destruct ds; discriminate]. subst. f_equal. lia.
  - cbn [radix_digits]. destruct (to_digit r c) as [k|] eqn:Hk.
    + apply to_digit_some in Hk; [|lia]. destruct Hk as [Hc Hk]. pose proof (digit_nonneg _ _ Hc) as H0.
      assert (Hp : 0 < r ^ len s) by (apply Z.pow_pos_nonneg; unfold len; lia).
      assert (EL : r ^ len (c :: s) = r * r ^ len s).
      { unfold len. cbn [length]. rewrite Nat2Z.inj_succ, Z.pow_succ_r by lia. reflexivity. }
      change LIMB_MOD with (2 ^ 128). split.
      * destruct (Z.ltb_spec (acc * r + k) (2 ^ 128)); [|discriminate]. intro H1.
        apply IH in H1; [|lia|nia]. destruct H1 as [d [D [E L]]]. exists (k * r ^ len s + d).
        split; [apply digits_cons; try assumption; lia|]. rewrite EL. split; [rewrite E; ring|exact L].
      * intros [d [D [E L]]]. destruct (digits_cons_inv r c s d ltac:(lia) D) as [k' [d' [Hc' [Hk' [Hd' Ed]]]]].
        rewrite (digit_unique _ _ _ Hc' Hc) in *. pose proof (digits_bound r s d' ltac:(lia) Hd') as B.
        rewrite EL in E. assert (E2 : n = (acc * r + k) * r ^ len s + d') by (rewrite E, Ed; ring).
        assert (acc * r + k < 2 ^ 128) by (clear - E2 L B Hp Ha H0 Hr; nia).
        destruct (Z.ltb_spec (acc * r + k) (2 ^ 128)); [|lia].
        apply IH; [lia|nia|]. exists d'. split; [exact Hd'|]. split; [exact E2|exact L].
    + split; [discriminate|]. intros [d [D _]]. destruct (digits_cons_inv r c s d ltac:(lia) D) as [k' [d' [Hc' [Hk' _]]]].
      rewrite (proj2 (to_digit_some r c k' ltac:(lia)) (conj Hc' Hk')) in Hk. discriminate.
Qed.
Lemma plus_not_digit : forall r, ~ is_digit r 43.
Proof.
  intros r [k [H _]]. remember 43 as c. destruct H; lia.
Qed.
Lemma u128_spec : forall r s n, 1 <= r <= 16 -> u128_from_str_radix s r = Some n <-> plus_digits r s n.
Proof.
  intros r s n Hr. unfold u128_from_str_radix. destruct s as [|c t].
  - split; [discriminate|]. intro H. inversion H. subst. contradiction.
  - change (ch "+"%string) with 43. destruct (Z.eqb_spec c 43) as [->|N]; cbn [andb].
    + destruct t as [|c t]; cbn [is_empty negb].
      * split.
        -- intro H. apply radix_digits_spec in H; [|lia|lia]. destruct H as [d [D _]].
           pose proof (digits_forall _ _ _ D) as F. inversion F. exfalso. eapply plus_not_digit. eassumption.
        -- intro H. inversion H; subst; [|contradiction]. pose proof (digits_forall _ _ _ H0) as F. inversion F. exfalso. eapply plus_not_digit. eassumption.
      * split.
        -- intro H. apply radix_digits_spec in H; [|lia|lia]. destruct H as [d [D [E L]]]. apply pd_plus; [|discriminate|exact L].
           rewrite E, Z.mul_0_l. exact D.
        -- intro H. apply radix_digits_spec; [lia|lia|]. inversion H; subst.
           ++ pose proof (digits_forall _ _ _ H0) as F. inversion F. exfalso. eapply plus_not_digit. eassumption.
           ++ exists n. split; [assumption|]. split; [ring|assumption].
    + split.
      * intro H. apply radix_digits_spec in H; [|lia|lia]. destruct H as [d [D [E L]]]. apply pd_plain; [|discriminate|exact L].
        rewrite E, Z.mul_0_l. exact D.
      * intro H. apply radix_digits_spec; [lia|lia|]. inversion H; subst; [|contradiction].
        exists n. split; [assumption|]. split; [ring|assumption].
Qed.

(** what [parse_nan] does to the text after the name and the parentheses *)
Definition payload_of (s : list Z) : option Z :=
  let '(radix, s) :=
    match strip_prefix (bytes "0") s with
    | Some s1 =>
      if is_empty s1 then (10, s)
      else match strip_prefix_any [ch "x"; ch "X"] s1 with Some s2 => (16, s2) | None => (8, s1) end
    | None => (10, s)
    end in
  u128_from_str_radix s radix.
Lemma payload_of_spec : forall s n, s <> [] -> payload_of s = Some n <-> payload_text s n.
Proof.
  intros s n Ns. unfold payload_of. destruct s as [|c t]; [contradiction|].
  change (bytes "0") with [48]. cbn [strip_prefix]. destruct (Z.eqb_spec 48 c) as [<-|N].
  - destruct t as [|c t]; cbn [is_empty].
    + change (u128_from_str_radix [48] 10) with (Some 0). split; intro H; [injection H as <-; constructor|].
      inversion H; subst; try reflexivity; [contradiction|].
      apply (u128_spec 8) in H1; [discriminate|lia].
    + cbn [strip_prefix_any existsb]. change (ch "x"%string) with 120. change (ch "X"%string) with 88.
      destruct ((120 =? c) || ((88 =? c) || false)) eqn:Hx.
      * rewrite u128_spec by lia. split; intro H; [apply payload_hex; [lia|exact H]|].
        inversion H; subst; [contradiction| |assumption].
        exfalso. assert (D : ~ is_digit 8 c /\ c <> 43).
        { split; [|lia]. intros [k [A B]]. destruct A; lia. }
        inversion H1; subst; [|lia]. pose proof (digits_forall _ _ _ H0) as F. inversion F. tauto.
      * rewrite u128_spec by lia. split; intro H; [apply payload_oct; exact H|].
        inversion H; subst; [contradiction|assumption|]. lia.
  - rewrite u128_spec by lia. split; intro H; [apply payload_dec; [exact H|congruence]|].
    inversion H; subst; try assumption; contradiction.
Qed.

(** ** NaN *)
Lemma strip_prefix_spec : forall p s r, strip_prefix p s = Some r <-> s = p ++ r.
Proof.
  induction p as [|a p IH]; intros s r; cbn [strip_prefix app].
  - split; [intro H; injection H as <-; reflexivity|intros ->; reflexivity].
  - destruct s as [|b s]; [split; discriminate|]. destruct (Z.eqb_spec a b) as [->|N].
    + rewrite IH. split; [intros ->; reflexivity|intro H; injection H as ->; reflexivity].
    + split; [discriminate|]. intro H. injection H as -> _. contradiction.
Qed.
Lemma strip_suffix_spec : forall p s r, strip_suffix p s = Some r <-> s = r ++ p.
Proof.
  intros p s r. unfold strip_suffix. destruct (strip_prefix (rev p) (rev s)) as [t|] eqn:E.
  - apply strip_prefix_spec in E. apply (f_equal (@rev Z)) in E. rewrite rev_involutive, rev_app_distr, rev_involutive in E. split.
    + intro H. injection H as <-. exact E.
    + intro H. rewrite E in H. apply app_inv_tail in H. rewrite H. reflexivity.
  - split; [discriminate|]. intros ->. assert (X : strip_prefix (rev p) (rev (r ++ p)) = Some (rev r)).
    { apply strip_prefix_spec. rewrite rev_app_distr. reflexivity. }
    congruence.
Qed.
Lemma str_eqb_spec : forall a b, str_eqb a b = true <-> a = b.
Proof.
  induction a as [|x a IH]; intros [|y b]; cbn [str_eqb]; try (split; [discriminate|discriminate]); [split; reflexivity|].
  rewrite Bool.andb_true_iff, IH, Z.eqb_eq. split; [intros [-> ->]; reflexivity|intro H; injection H as -> ->; split; reflexivity].
Qed.

(** the text after the name *)
Definition payload_part (t : list Z) (pl : option Z) : Prop :=
  (t = [] /\ pl = None) \/
  (exists n, (payload_text t n \/ exists u, t = 40 :: u ++ [41] /\ payload_text u n) /\ pl = Some n).
Definition strip_paren (s : list Z) : list Z :=
  match strip_prefix (bytes "(") s with
  | Some s1 =>
    match strip_suffix (bytes ")") s1 with
    | Some s2 => if negb (is_empty s2) then s2 else s
    | None => s
    end
  | None => s
  end.
Lemma payload_text_ne : forall n, ~ payload_text [] n.
Proof. intros n H. inversion H. Qed.
Lemma payload_no_paren : forall u n, ~ payload_text (40 :: u) n.
Proof.
  intros u n H. assert (Nd : ~ is_digit 10 40) by (intros [k [A B]]; remember 40 as c; destruct A; lia).
  inversion H; subst. match goal with P : plus_digits _ _ _ |- _ => inversion P; subst end.
  match goal with D : digits _ _ _ |- _ => pose proof (digits_forall _ _ _ D) as F end. inversion F. tauto.
Qed.
Lemma strip_paren_spec : forall t pl,
  (if is_empty (strip_paren t) then pl = None else payload_of (strip_paren t) = pl /\ pl <> None) <-> payload_part t pl.
Proof.
  intros t pl. assert (G : forall v, v <> [] -> payload_of v = pl /\ pl <> None <-> exists n, payload_text v n /\ pl = Some n).
  { intros v Nv. split.
    - intros [H N]. destruct pl as [n|]; [|contradiction]. exists n. split; [apply payload_of_spec; assumption|reflexivity].
    - intros [n [H ->]]. split; [apply payload_of_spec; assumption|discriminate]. }
  unfold strip_paren. change (bytes "(") with [40]. change (bytes ")") with [41].
  destruct (strip_prefix [40] t) as [s1|] eqn:E1.
  - apply strip_prefix_spec in E1. cbn [app] in E1. subst t.
    assert (P1 : payload_part (40 :: s1) pl <-> exists n u, s1 = u ++ [41] /\ payload_text u n /\ pl = Some n).
    { split.
      - intros [[X _]|[n [[H|[u [E H]]] Hp]]]; [discriminate|exfalso; exact (payload_no_paren _ _ H)|].
        injection E as ->. exists n, u. repeat split; assumption.
      - intros [n [u [-> [H Hp]]]]. right. exists n. split; [right; exists u; split; [reflexivity|exact H]|exact Hp]. }
    assert (P2 : (if is_empty (40 :: s1) then pl = None else payload_of (40 :: s1) = pl /\ pl <> None) <-> False).
    { cbn [is_empty]. rewrite G by discriminate. split; [|tauto]. intros [n [H _]]. exact (payload_no_paren _ _ H). }
    rewrite P1. destruct (strip_suffix [41] s1) as [s2|] eqn:E2.
    + apply strip_suffix_spec in E2. subst s1. destruct (is_empty s2) eqn:Em; cbn [negb].
      * rewrite P2. split; [tauto|]. intros [n [u [Hu [H _]]]]. apply app_inj_tail in Hu. destruct Hu as [<- _].
        destruct s2; [|discriminate]. exact (payload_text_ne _ H).
      * rewrite Em. rewrite G by (intros ->; discriminate). split.
        -- intros [n [H Hp]]. exists n, s2. repeat split; assumption.
        -- intros [n [u [Hu [H Hp]]]]. apply app_inj_tail in Hu. destruct Hu as [<- _]. exists n. split; assumption.
    + rewrite P2. split; [tauto|]. intros [n [u [Hu _]]]. apply (strip_suffix_spec [41]) in Hu. congruence.
  - destruct t as [|c t]; cbn [is_empty].
    + split.
      * intros ->. left. split; reflexivity.
      * intros [[_ ->]|[n [[H|[u [E H]]] Hp]]]; [reflexivity|exfalso; exact (payload_text_ne _ H)|discriminate].
    + rewrite G by discriminate. split.
      * intros [n [H Hp]]. right. exists n. split; [left; exact H|exact Hp].
      * intros [[X _]|[n [[H|[u [E H]]] Hp]]]; [discriminate|exists n; split; assumption|].
        exfalso. injection E as -> ->. discriminate.
Qed.

Definition make_nan (S : Semantics) (signaling : bool) (pl : option Z) : Float := if signaling then snan S pl else qnan S pl.
Lemma parse_nan_eq : forall S s, parse_nan S s =
  let '(q, s) := match strip_prefix_any [ch "s"; ch "S"] s with Some s => (true, s) | None => (false, s) end in
  match (match strip_prefix (bytes "nan") s with Some s => Some s | None => strip_prefix (bytes "NaN") s end) with
  | None => None
  | Some t => if is_empty (strip_paren t) then Some (make_nan S q None)
              else match payload_of (strip_paren t) with Some p => Some (make_nan S q (Some p)) | None => None end
  end.
Proof.
  intros S s. unfold parse_nan, payload_of, strip_paren, make_nan.
  repeat match goal with
  | |- ?a = ?a => reflexivity
  | |- context [match ?d with _ => _ end] => lazymatch d with context [match _ with _ => _ end] => fail | _ => destruct d end
  end.
Qed.
Definition nan_body (b : list Z) (q : bool) (pl : option Z) : Prop :=
  exists qt name t, b = qt ++ name ++ t /\ ((qt = [] /\ q = false) \/ ((qt = [115] \/ qt = [83]) /\ q = true)) /\
    (name = [110; 97; 110] \/ name = [78; 97; 78]) /\ payload_part t pl.
Lemma name_spec : forall s t,
  match strip_prefix (bytes "nan") s with Some s => Some s | None => strip_prefix (bytes "NaN") s end = Some t <->
  exists name, (name = [110; 97; 110] \/ name = [78; 97; 78]) /\ s = name ++ t.
Proof.
  intros s t. change (bytes "nan") with [110; 97; 110]. change (bytes "NaN") with [78; 97; 78].
  destruct (strip_prefix [110; 97; 110] s) as [u|] eqn:E.
  - apply strip_prefix_spec in E. subst s. split.
    + intro H. injection H as <-. eexists. split; [left; reflexivity|reflexivity].
    + intros [name [[->| ->] H]]; [apply app_inv_head in H; subst; reflexivity|discriminate].
  - rewrite strip_prefix_spec. split.
    + intros ->. eexists. split; [right; reflexivity|reflexivity].
    + intros [name [[->| ->] H]]; [|exact H]. apply strip_prefix_spec in H. congruence.
Qed.
Lemma parse_name_spec : forall S q s f,
  match (match strip_prefix (bytes "nan") s with Some s => Some s | None => strip_prefix (bytes "NaN") s end) with
  | None => None
  | Some t => if is_empty (strip_paren t) then Some (make_nan S q None)
              else match payload_of (strip_paren t) with Some p => Some (make_nan S q (Some p)) | None => None end
  end = Some f <->
  exists name t pl, (name = [110; 97; 110] \/ name = [78; 97; 78]) /\ s = name ++ t /\ payload_part t pl /\ f = make_nan S q pl.
Proof.
  intros S q s f. pose proof (name_spec s) as N.
  destruct (match strip_prefix (bytes "nan") s with Some s => Some s | None => strip_prefix (bytes "NaN") s end) as [t|].
  - destruct (proj1 (N t) eq_refl) as [name [Hn Hs]]. split.
    + intro H. pose proof (strip_paren_spec t) as P. destruct (is_empty (strip_paren t)).
      * injection H as <-. exists name, t, None. split; [exact Hn|]. split; [exact Hs|]. split; [apply P; reflexivity|reflexivity].
      * destruct (payload_of (strip_paren t)) as [p|]; [|discriminate]. injection H as <-.
        exists name, t, (Some p). split; [exact Hn|]. split; [exact Hs|]. split; [apply P; split; [reflexivity|discriminate]|reflexivity].
    + intros [name' [t' [pl [Hn' [Hs' [Hp ->]]]]]].
      assert (t' = t) as ->.
      { assert (X : Some t = Some t') by (apply N; exists name'; split; assumption). injection X as ->. reflexivity. }
      apply strip_paren_spec in Hp. destruct (is_empty (strip_paren t)); [subst; reflexivity|].
      destruct Hp as [-> Np]. destruct pl; [reflexivity|contradiction].
  - split; [discriminate|]. intros [name [t [pl [Hn [Hs _]]]]]. assert (X : None = Some t) by (apply N; exists name; split; assumption). discriminate.
Qed.
Lemma parse_nan_spec : forall S b f, parse_nan S b = Some f <-> exists q pl, nan_body b q pl /\ f = make_nan S q pl.
Proof.
  intros S b f. rewrite parse_nan_eq. unfold strip_prefix_any. change (ch "s"%string) with 115. change (ch "S"%string) with 83.
  destruct b as [|c b].
  - rewrite parse_name_spec. split.
    + intros [name [t [pl [[->| ->] [H _]]]]]; discriminate.
    + intros [q [pl [[qt [name [t [H [_ [[->| ->] _]]]]]] _]]]; destruct qt; discriminate.
  - cbn [existsb]. destruct ((115 =? c) || ((83 =? c) || false)) eqn:E; rewrite parse_name_spec.
    + split.
      * intros [name [t [pl [Hn [-> [Hp ->]]]]]]. exists true, pl. split; [|reflexivity]. exists [c], name, t.
        split; [reflexivity|]. split; [right; split; [|reflexivity]|split; assumption].
        assert (C : c = 115 \/ c = 83) by lia. destruct C as [->| ->]; [left|right]; reflexivity.
      * intros [q [pl [[qt [name [t [H [Hq [Hn Hp]]]]]] ->]]]. destruct Hq as [[-> ->]|[Hq ->]].
        -- exfalso. destruct Hn as [->| ->]; injection H as -> _; discriminate.
        -- exists name, t, pl. split; [exact Hn|]. split; [|split; [exact Hp|reflexivity]].
           destruct Hq as [->| ->]; injection H as _ H; exact H.
    + split.
      * intros [name [t [pl [Hn [H [Hp ->]]]]]]. exists false, pl. split; [|reflexivity]. exists [], name, t.
        split; [exact H|]. split; [left; split; reflexivity|]. split; assumption.
      * intros [q [pl [[qt [name [t [H [Hq [Hn Hp]]]]]] ->]]]. destruct Hq as [[-> ->]|[Hq ->]].
        -- exists name, t, pl. repeat split; assumption.
        -- exfalso. destruct Hq as [->| ->]; injection H as -> _; discriminate.
Qed.

(** ** The whole of [from_str_r] *)
(** the sign the code removes, and the text it leaves *)
Definition take_sign (s : list Z) : bool * bool * list Z :=
  match s with
  | c :: r => if c =? 45 then (true, false, r) else if c =? 43 then (false, true, r) else (false, false, s)
  | [] => (false, false, [])
  end.
Definition special_value (S : Semantics) (minus plus : bool) (s : list Z) : option Float :=
  if str_eqb s (bytes "Inf") && (minus || plus) then Some (INFINITY S)
  else if (str_eqb s (bytes "inf") || str_eqb s (bytes "INFINITY")) && negb plus then Some (INFINITY S)
  else if negb plus then parse_nan S s
  else None.
Definition number (S : Semantics) (s : list Z) (round : Round) : outcome (result (Z * Float)) :=
  match s with
  | 48 :: c :: r => if (120 =? c) || (88 =? c) then (if is_empty r then Ret (Err InvalidString) else from_hexadecimal_string S r round)
                    else from_decimal_string S s round
  | _ => from_decimal_string S s round
  end.
Lemma from_str_eq : forall S s m, from_str_r S s m =
  if is_empty s then Ret (Err InvalidStringLength)
  else let '(minus, plus, b) := take_sign s in
    match special_value S minus plus b with
    | Some r => Ret (Ok (OK, negate_if r minus))
    | None => if is_empty b then Ret (Err StringHasNoDigits)
              else let? '(status, r) := number S b (round_negate_if m minus) in Ret (Ok (status, negate_if r minus))
    end.
Proof.
  intros S s m. unfold from_str_r. destruct s as [|c t]; [reflexivity|]. cbn [is_empty].
  change (bytes "-") with [45]. change (bytes "+") with [43]. change (bytes "0") with [48]. change (ch "x"%string) with 120. change (ch "X"%string) with 88.
  assert (P : forall b, (let '(is_hex, s) := match strip_prefix [48] b with
       | Some s1 => match strip_prefix_any [120; 88] s1 with Some s2 => (true, s2) | None => (false, b) end
       | None => (false, b) end in
     (fun round => if is_hex : bool then if is_empty s then Ret (Err InvalidString) else from_hexadecimal_string S s round else from_decimal_string S s round))
     = number S b).
  { intro b. unfold number. destruct b as [|c1 b]; [reflexivity|]. cbn [strip_prefix].
    destruct (Z.eqb_spec 48 c1) as [<-|N].
    - destruct b as [|c2 b]; [reflexivity|]. cbn [strip_prefix_any existsb]. rewrite orb_false_r. destruct ((120 =? c2) || (88 =? c2)); reflexivity.
    - destruct c1 as [|q|q]; try reflexivity. repeat (try reflexivity; destruct q as [q|q|]; try reflexivity). contradiction. }
  assert (K : forall (minus plus : bool) b,
    match (if str_eqb b (bytes "Inf") && (minus || plus) then Some (INFINITY S)
           else if (str_eqb b (bytes "inf") || str_eqb b (bytes "INFINITY")) && negb plus then Some (INFINITY S)
           else if negb plus then parse_nan S b else None) with
    | Some r => Ret (Ok (OK, negate_if r minus))
    | None => if is_empty b then Ret (Err StringHasNoDigits)
      else let round := round_negate_if m minus in
        let '(is_hex, s) := match strip_prefix [48] b with
          | Some s1 => match strip_prefix_any [120; 88] s1 with Some s2 => (true, s2) | None => (false, b) end
          | None => (false, b) end in
        let? '(status, r) := (if is_hex : bool then if is_empty s then Ret (Err InvalidString) else from_hexadecimal_string S s round
                              else from_decimal_string S s round) in
        Ret (Ok (status, negate_if r minus))
    end = match special_value S minus plus b with
    | Some r => Ret (Ok (OK, negate_if r minus))
    | None => if is_empty b then Ret (Err StringHasNoDigits)
              else let? '(status, r) := number S b (round_negate_if m minus) in Ret (Ok (status, negate_if r minus))
    end).
  { intros minus plus b. fold (special_value S minus plus b). destruct (special_value S minus plus b); [reflexivity|].
    destruct (is_empty b); [reflexivity|]. rewrite <- (P b).
    destruct (match strip_prefix [48] b with
       | Some s1 => match strip_prefix_any [120; 88] s1 with Some s2 => (true, s2) | None => (false, b) end
       | None => (false, b) end) as [[|] u]; reflexivity. }
  clear P.
  destruct (Z.eqb_spec c 45) as [->|N1].
  - assert (H1 : match strip_prefix [45] (45 :: t) with Some s => (true, s) | None => (false, 45 :: t) end = (true, t)) by reflexivity.
    rewrite H1. cbv beta iota.
    assert (H2 : match strip_prefix [43] t with Some s1 => if negb true then (true, s1) else (false, t) | None => (false, t) end = (false, t))
      by (destruct (strip_prefix [43] t); reflexivity).
    rewrite H2. exact (K true false t).
  - assert (H1 : match strip_prefix [45] (c :: t) with Some s => (true, s) | None => (false, c :: t) end = (false, c :: t)).
    { cbn [strip_prefix]. destruct (Z.eqb_spec 45 c); [congruence|reflexivity]. }
    rewrite H1. cbv beta iota. destruct (Z.eqb_spec c 43) as [->|N2].
    + exact (K false true t).
    + assert (H2 : match strip_prefix [43] (c :: t) with Some s1 => if negb false then (true, s1) else (false, c :: t) | None => (false, c :: t) end = (false, c :: t)).
      { cbn [strip_prefix]. destruct (Z.eqb_spec 43 c); [congruence|reflexivity]. }
      rewrite H2. unfold take_sign. rewrite (proj2 (Z.eqb_neq c 45) N1), (proj2 (Z.eqb_neq c 43) N2). exact (K false false (c :: t)).
Qed.

(** ** Special values *)
Lemma special_none : forall S minus plus c t, c = 46 \/ is_digit 10 c -> special_value S minus plus (c :: t) = None.
Proof.
  intros S minus plus c t Hc.
  assert (H : 46 <= c <= 57) by (destruct Hc as [->|[k [A B]]]; [lia|destruct A; lia]).
  assert (X : forall d u, ~ (46 <= d <= 57) -> str_eqb (c :: t) (d :: u) = false).
  { intros d u Hd. cbn [str_eqb]. destruct (Z.eqb_spec c d); [lia|reflexivity]. }
  unfold special_value. change (bytes "Inf") with t_Inf. change (bytes "inf") with t_inf. change (bytes "INFINITY") with t_INFINITY.
  unfold t_Inf, t_inf, t_INFINITY. rewrite !X by lia. cbn [andb orb]. destruct plus; [reflexivity|]. cbn [negb].
  destruct (parse_nan S (c :: t)) as [f|] eqn:E; [|reflexivity]. exfalso. apply parse_nan_spec in E.
  destruct E as [q [pl [[qt [name [u [E [Hq [Hn _]]]]]] _]]].
  destruct Hq as [[-> _]|[[->| ->] _]]; [destruct Hn as [->| ->]| |]; injection E as -> _; lia.
Qed.
Theorem from_str_inf : forall S s g m, inf_text s g -> from_str_r S s m = Ret (Ok (OK, negate_if (INFINITY S) g)).
Proof. intros S s g m H. destruct H; reflexivity. Qed.
Lemma nan_text_body : forall s g q pl, nan_text s g q pl <->
  exists b, nan_body b q pl /\ (s = b /\ g = false \/ s = 45 :: b /\ g = true).
Proof.
  intros s g q pl. split.
  - intro H. destruct H as [s g qt q name t pl H1 H2 H3 H4]. exists (qt ++ name ++ t). split.
    + exists qt, name, t. repeat split; assumption.
    + destruct H1 as [[-> ->]|[-> ->]]; [left|right]; split; reflexivity.
  - intros [b [[qt [name [t [-> [Hq [Hn Hp]]]]]] [[-> ->]|[-> ->]]]].
    + apply (nan_intro [] false qt q name t pl); try assumption. left. split; reflexivity.
    + apply (nan_intro [45] true qt q name t pl); try assumption. right. split; reflexivity.
Qed.
Lemma nan_special : forall S b q pl minus, nan_body b q pl -> special_value S minus false b = Some (make_nan S q pl) /\
  take_sign b = (false, false, b) /\ b <> [].
Proof.
  intros S b q pl minus H. pose proof (proj2 (parse_nan_spec S b (make_nan S q pl)) (ex_intro _ q (ex_intro _ pl (conj H eq_refl)))) as P.
  assert (Hh : exists c t, b = c :: t /\ (c = 115 \/ c = 83 \/ c = 110 \/ c = 78)).
  { destruct H as [qt [name [t [-> [Hq [Hn _]]]]]].
    destruct Hq as [[-> _]|[[->| ->] _]]; [destruct Hn as [->| ->]| |]; eexists _, _; (split; [reflexivity|]); lia. }
  destruct Hh as [c [t [-> Hc]]].
  assert (X : forall d u, d = 73 \/ d = 105 -> str_eqb (c :: t) (d :: u) = false).
  { intros d u Hd. cbn [str_eqb]. destruct (Z.eqb_spec c d); [lia|reflexivity]. }
  split; [|split; [|discriminate]].
  - unfold special_value. change (bytes "Inf") with t_Inf. change (bytes "inf") with t_inf. change (bytes "INFINITY") with t_INFINITY.
    unfold t_Inf, t_inf, t_INFINITY. rewrite !X by lia. exact P.
  - unfold take_sign. rewrite (proj2 (Z.eqb_neq c 45)), (proj2 (Z.eqb_neq c 43)) by lia. reflexivity.
Qed.
Theorem from_str_nan : forall S s g q pl m, nan_text s g q pl -> from_str_r S s m = Ret (Ok (OK, negate_if (make_nan S q pl) g)).
Proof.
  intros S s g q pl m H. apply nan_text_body in H. destruct H as [b [H [[-> ->]|[-> ->]]]]; rewrite from_str_eq.
  - destruct (nan_special S b q pl false H) as [E1 [E2 N]]. rewrite E2, E1. destruct b; [contradiction|reflexivity].
  - destruct (nan_special S b q pl true H) as [E1 [E2 N]]. cbn [is_empty]. unfold take_sign. rewrite Z.eqb_refl, E1. reflexivity.
Qed.
Lemma special_accepted : forall S s f, s <> [] -> let '(minus, plus, b) := take_sign s in
  special_value S minus plus b = Some f -> accepted s.
Proof.
  intros S s f Ns. destruct (take_sign s) as [[minus plus] b] eqn:E. intro H. unfold special_value in H.
  assert (T : (minus = true /\ plus = false /\ s = 45 :: b) \/ (minus = false /\ plus = true /\ s = 43 :: b) \/ (minus = false /\ plus = false /\ s = b)).
  { unfold take_sign in E. destruct s as [|c t]; [contradiction|]. destruct (Z.eqb_spec c 45) as [->|]; [|destruct (Z.eqb_spec c 43) as [->|]];
      injection E as <- <- <-; tauto. }
  change (bytes "Inf") with t_Inf in H. change (bytes "inf") with t_inf in H. change (bytes "INFINITY") with t_INFINITY in H.
  destruct (str_eqb b t_Inf && (minus || plus)) eqn:E1.
  - apply andb_true_iff in E1. destruct E1 as [E1 E2]. apply str_eqb_spec in E1. subst b. left.
    destruct T as [[-> [-> ->]]|[[-> [-> ->]]|[-> [-> ->]]]]; [exists true; constructor|exists false; constructor|discriminate].
  - destruct ((str_eqb b t_inf || str_eqb b t_INFINITY) && negb plus) eqn:E2.
    + apply andb_true_iff in E2. destruct E2 as [E2 E3]. apply orb_true_iff in E2. left.
      destruct E2 as [E2|E2]; apply str_eqb_spec in E2; subst b.
      * destruct T as [[-> [-> ->]]|[[-> [-> ->]]|[-> [-> ->]]]]; [exists true; constructor|discriminate|exists false; constructor].
      * destruct T as [[-> [-> ->]]|[[-> [-> ->]]|[-> [-> ->]]]]; [exists true; constructor|discriminate|exists false; constructor].
    + destruct plus; [discriminate|]. cbn [negb] in H. apply parse_nan_spec in H. destruct H as [q [pl [H _]]]. right. left.
      exists minus, q, pl. apply nan_text_body. exists b. split; [exact H|].
      destruct T as [[-> [_ ->]]|[[_ [T _]]|[-> [_ ->]]]]; [right; split; reflexivity|discriminate|left; split; reflexivity].
Qed.

(** ** Numbers *)
Lemma hex_body_ne : forall b x, hex_body b x -> b <> [].
Proof. intros b x H. destruct H as [t n k c u e H _ _ _]. destruct t; discriminate. Qed.
Lemma sign_take : forall s g c t, sign_text s g -> c = 46 \/ is_digit 10 c ->
  exists plus, take_sign (s ++ c :: t) = (g, plus, c :: t).
Proof.
  intros s g c t Hs Hc. assert (H : 46 <= c <= 57) by (destruct Hc as [->|[k [A B]]]; [lia|destruct A; lia]).
  destruct Hs; cbn [app]; unfold take_sign.
  - rewrite (proj2 (Z.eqb_neq c 45)), (proj2 (Z.eqb_neq c 43)) by lia. eexists. reflexivity.
  - eexists. reflexivity.
  - eexists. reflexivity.
Qed.
Lemma signed_number : forall S s g c t m, sign_text s g -> c = 46 \/ is_digit 10 c ->
  from_str_r S (s ++ c :: t) m =
  let? '(status, r) := number S (c :: t) (round_negate_if m g) in Ret (Ok (status, negate_if r g)).
Proof.
  intros S s g c t m Hs Hc. rewrite from_str_eq. destruct (sign_take s g c t Hs Hc) as [plus ->].
  rewrite special_none by exact Hc. cbn [is_empty]. destruct s; reflexivity.
Qed.
Lemma cr_signed : forall S m x st f (g : bool), correctly_rounded S (round_negate_if m g) x false (st, f) ->
  correctly_rounded S m (if g then - x else x)%R g (st, negate_if f g).
Proof. intros S m x st f [|] H; [exact (cr_neg S m x false st f H)|exact H]. Qed.
Theorem from_str_hex : forall S s g x m, sem_ok S -> PRECISION S <= 125 -> hex_text s g x -> len s + 2 ^ 20 <= 2 ^ 29 ->
  exists res, from_str_r S s m = Ret (Ok res) /\ correctly_rounded S m x g res.
Proof.
  intros S s g x m HS Hp Ht HL. destruct Ht as [s g c b x Hs Hc Hb].
  rewrite (signed_number S s g); [|exact Hs|right; exists 0; split; [apply (dc_decimal 0)|]; lia].
  assert (Hn : forall r, number S (48 :: c :: b) r = from_hexadecimal_string S b r).
  { intro r. unfold number. assert ((120 =? c) || (88 =? c) = true) as -> by lia. pose proof (hex_body_ne _ _ Hb). destruct b; [contradiction|reflexivity]. }
  rewrite Hn. destruct (from_hex_spec S b x (round_negate_if m g) HS Hp Hb) as [[st f] [E R]].
  { unfold len in *. rewrite app_length in HL. cbn [length] in HL. lia. }
  rewrite E. eexists. split; [reflexivity|]. apply cr_signed. exact R.
Qed.

(** ** Only texts of the grammar are accepted *)
Theorem from_str_rejects : forall S s m, accepted s \/ exists e, from_str_r S s m = Ret (Err e).
Proof.
  intros S s m. rewrite from_str_eq. destruct s as [|c0 t0]; [right; eexists; reflexivity|]. cbn [is_empty].
  pose proof (fun f => special_accepted S (c0 :: t0) f ltac:(discriminate)) as Sp.
  destruct (take_sign (c0 :: t0)) as [[minus plus] b] eqn:E.
  destruct (special_value S minus plus b) as [f|] eqn:Es; [left; exact (Sp f eq_refl)|]. clear Sp.
  destruct b as [|c b]; [right; eexists; reflexivity|]. cbn [is_empty].
  assert (T : exists sg, sign_text sg minus /\ c0 :: t0 = sg ++ c :: b).
  { unfold take_sign in E. destruct (Z.eqb_spec c0 45) as [->|]; [|destruct (Z.eqb_spec c0 43) as [->|]]; injection E as <- <- <-.
    - exists [45]. split; [constructor|reflexivity].
    - exists [43]. split; [constructor|reflexivity].
    - exists []. split; [constructor|]. cbn [app]. congruence. }
  destruct T as [sg [Hsg Et]]. rewrite Et. set (r := round_negate_if m minus).
  assert (Dec : (exists x, dec_body (c :: b) x) \/ exists e, from_decimal_string S (c :: b) r = Ret (Err e)) by apply from_dec_rejects.
  assert (Kd : number S (c :: b) r = from_decimal_string S (c :: b) r -> accepted (sg ++ c :: b) \/
     exists e, (let? '(status, f) := number S (c :: b) r in Ret (Ok (status, negate_if f minus))) = Ret (Err e)).
  { intro En. rewrite En. destruct Dec as [[x Hx]|[e ->]]; [left|right; eexists; reflexivity].
    right. right. right. eexists minus, _. apply dec_text_intro; [exact Hsg|exact Hx]. }
  destruct (Z.eq_dec c 48) as [->|N].
  - destruct b as [|c b]; [apply Kd; reflexivity|].
    destruct ((120 =? c) || (88 =? c)) eqn:Hc.
    + clear Kd. unfold number. rewrite Hc. destruct (is_empty b) eqn:Eb; [right; eexists; reflexivity|].
      destruct (from_hex_rejects S b r) as [[x Hx]|[e ->]]; [left|right; eexists; reflexivity].
      right. right. left. eexists minus, _. apply hex_text_intro; [exact Hsg|lia|exact Hx].
    + apply Kd. unfold number. rewrite Hc. reflexivity.
  - apply Kd. unfold number. clear - N. destruct c as [|q|q]; try reflexivity. repeat (try reflexivity; destruct q as [q|q|]; try reflexivity). contradiction.
Qed.

(** ** What the special texts denote *)
Lemma digits_range : forall r ds n, 0 < r -> digits r ds n -> 0 <= n.
Proof. intros r ds n Hr H. exact (proj1 (digits_bound r ds n Hr H)). Qed.
Lemma payload_range : forall t n, payload_text t n -> 0 <= n < 2 ^ 128.
Proof.
  intros t n H. assert (P : forall r u, 0 < r -> plus_digits r u n -> 0 <= n < 2 ^ 128).
  { intros r u Hr [ds k D _ L|ds k D _ L]; pose proof (digits_range r ds k Hr D); lia. }
  destruct H; [lia| | |]; (eapply P; [|eassumption]; lia).
Qed.
Lemma payload_part_ok : forall t pl, payload_part t pl -> payload_ok pl.
Proof.
  intros t pl [[_ ->]|[n [[H|[u [_ H]]] ->]]]; unfold payload_ok, payload_bits; [lia| |]; exact (payload_range _ _ H).
Qed.
Theorem from_str_inf_value : forall S s g m, sem_ok S -> inf_text s g ->
  exists f, from_str_r S s m = Ret (Ok (OK, f)) /\ is_special S (infinity_of S) g f.
Proof.
  intros S s g m HS H. rewrite (from_str_inf S s g m H). eexists. split; [reflexivity|].
  pose proof (INFINITY_special S g HS) as P. assert (E : sign (INFINITY S) = false) by (unfold INFINITY; destruct (NONFINITE_BEHAVIOR S); reflexivity).
  unfold negate_if. destruct g.
  - unfold neg, is_negative. rewrite E. exact P.
  - destruct (INFINITY S) as [a b c d]. cbn [sign] in E. subst d. exact P.
Qed.
Definition low_payload (S : Semantics) (f : Float) : Z := sig f mod 2 ^ (PRECISION S - 2).
Theorem from_str_nan_value : forall S s g q pl m, sem_ok S -> nan_text s g q pl ->
  exists f, from_str_r S s m = Ret (Ok (OK, f)) /\ is_special S NaN g f /\
    (NONFINITE_BEHAVIOR S = IEEE754 -> signaling S f = q /\
       low_payload S f = (let low := payload_bits pl mod 2 ^ (PRECISION S - 2) in
                          if q && (low =? 0) then 2 ^ (PRECISION S - 3) else low)).
Proof.
  intros S s g q pl m HS H. rewrite (from_str_nan S s g q pl m H). eexists. split; [reflexivity|].
  apply nan_text_body in H. destruct H as [b [[qt [name [t [_ [_ [_ Hp]]]]]] _]]. apply payload_part_ok in Hp.
  pose proof (ok_prec S HS) as Pp.
  assert (M : is_special S NaN false (make_nan S q pl) /\ (NONFINITE_BEHAVIOR S = IEEE754 -> signaling S (make_nan S q pl) = q /\
       low_payload S (make_nan S q pl) = (let low := payload_bits pl mod 2 ^ (PRECISION S - 2) in
                          if q && (low =? 0) then 2 ^ (PRECISION S - 3) else low))).
  { destruct q; cbn [make_nan andb].
    - destruct (snan_spec S pl HS Hp) as [W [C [G B]]]. split; [split; [exact W|split; assumption]|]. intro Nf. destruct (B Nf) as [B1 [B2 B3]].
      split; [exact B1|]. unfold low_payload. cbv zeta. destruct (Z.eqb_spec (payload_bits pl mod 2 ^ (PRECISION S - 2)) 0); [apply B3|apply B2]; assumption.
    - destruct (qnan_spec S pl HS Hp) as [[W [C D]] [G B]]. split; [split; [exact W|split; assumption]|]. intro Nf. split; [exact D|].
      unfold low_payload. cbv zeta. apply Z.bits_inj'. intros n Hn. destruct (Z_lt_le_dec n (PRECISION S - 2)) as [L|L].
      + rewrite !Z.mod_pow2_bits_low by exact L. apply (B Nf). lia.
      + rewrite !Z.mod_pow2_bits_high by lia. reflexivity. }
  destruct g; [|exact M]. destruct M as [[W [C G]] M]. split; [|exact M].
  split; [apply wf_neg; exact W|]. split; [exact C|]. unfold negate_if, neg, is_negative. cbn [sign]. rewrite G. reflexivity.
Qed.
Corollary from_str_not_accepted : forall S s m, ~ accepted s -> exists e, from_str_r S s m = Ret (Err e).
Proof. intros S s m H. destruct (from_str_rejects S s m) as [A|E]; [contradiction|exact E]. Qed.
