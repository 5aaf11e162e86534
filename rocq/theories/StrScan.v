(** * StrScan.v -- the scan of a decimal numeral: what [dec_loop] finds *)
From Coq Require Import ZArith Reals List Bool Lia Lra ZifyBool Ascii String.
From Flocq Require Import Core.
From Verif Require Import Machine Sig SpecSig Limbs SigProofs Ieee Spec Norm Arith Parse SpecStr StrHex.
Import ListNotations.
Local Open Scope Z_scope.
Ltac Zify.zify_post_hook ::= idtac.
Local Notation length := List.length.

(** ** Points *)
Definition nodot (t : list Z) : list Z := filter (fun c => negb (c =? 46)) t.
Definition dots (t : list Z) : Z := len t - len (nodot t).
Lemma len_app : forall (a b : list Z), len (a ++ b) = len a + len b.
Proof. intros. unfold len. rewrite app_length. lia. Qed.
Lemma len_cons : forall (c : Z) a, len (c :: a) = 1 + len a.
Proof. intros. unfold len. cbn [length]. lia. Qed.
Lemma len_nonneg : forall (a : list Z), 0 <= len a.
Proof. intros. unfold len. lia. Qed.
Lemma nodot_app : forall a b, nodot (a ++ b) = nodot a ++ nodot b.
Proof. intros. apply filter_app. Qed.
Lemma nodot_digits : forall r a, Forall (is_digit r) a -> nodot a = a.
Proof.
  intros r a H. induction H as [|c a Hc Ha IH]; [reflexivity|]. unfold nodot. cbn [filter]. fold (nodot a). rewrite IH.
  destruct (Z.eqb_spec c 46) as [->|]; [|reflexivity]. exfalso. destruct Hc as [k [X _]]. exact (digit_not_point k X).
Qed.
Lemma dots_app : forall a b, dots (a ++ b) = dots a + dots b.
Proof. intros. unfold dots. rewrite nodot_app, !len_app. lia. Qed.
Lemma dots_digits : forall r a, Forall (is_digit r) a -> dots a = 0.
Proof. intros r a H. unfold dots. rewrite (nodot_digits r a H). lia. Qed.
Lemma dots_nonneg : forall a, 0 <= dots a.
Proof.
  intro a. unfold dots, nodot, len. induction a as [|c a IH]; cbn [filter]; [cbn; lia|]. destruct (negb (c =? 46)); cbn [length]; lia.
Qed.
(** where the only point lies *)
Lemma dots_split : forall a b u v, a ++ 46 :: b = u ++ v -> dots a = 0 -> dots b = 0 ->
  (len a < len u /\ dots u = 1 /\ dots v = 0) \/ (len u <= len a /\ dots u = 0 /\ dots v = 1).
Proof.
  intros a b u v E Ha Hb. apply app_eq_app in E. destruct E as [l [[-> ->]|[-> E]]].
  - right. rewrite len_app, dots_app in *. pose proof (dots_nonneg u). pose proof (dots_nonneg l). pose proof (len_nonneg l).
    split; [lia|]. split; [lia|]. change (46 :: b) with ([46] ++ b). rewrite !dots_app. change (dots [46]) with 1. lia.
  - destruct l as [|c l].
    + right. rewrite app_nil_r. cbn [app] in E. subst v. change (46 :: b) with ([46] ++ b). rewrite dots_app. change (dots [46]) with 1. lia.
    + left. cbn [app] in E. injection E as <- ->. rewrite dots_app in Hb. pose proof (dots_nonneg l). pose proof (dots_nonneg v).
      rewrite len_app, len_cons, dots_app. change (46 :: l) with ([46] ++ l). rewrite dots_app. change (dots [46]) with 1. pose proof (len_nonneg l). lia.
Qed.

(** ** The state of the scan *)
Definition zchar (c : Z) : Prop := c = 48 \/ c = 46.
Definition nonzero (c : Z) : Prop := exists k, digit_char c k /\ 0 < k < 10.
(** [core]: from the first to the last digit that is not zero *)
Definition is_core (t : list Z) : Prop := (exists c r, t = c :: r /\ nonzero c) /\ (exists c r, t = r ++ [c] /\ nonzero c).
Record dinv (L : Z) (pre : list Z) (st : dec_state) : Prop := {
  di_exp : d_exp st = 0;
  di_any : d_any_digits st = negb (is_empty (nodot pre));
  di_dot : (d_dot st = L /\ dots pre = 0) \/
           (exists ip fp, pre = ip ++ 46 :: fp /\ dots ip = 0 /\ dots fp = 0 /\ d_dot st = len ip);
  di_core : match d_first st with
    | None => Forall zchar pre
    | Some f => exists z1 core z2, pre = z1 ++ core ++ z2 /\ Forall zchar z1 /\ is_core core /\ Forall zchar z2 /\
        f = len z1 /\ d_last st = len z1 + len core - 1
    end }.
Lemma dinv_start : forall L, dinv L [] (mkDec false 0 None 0 L).
Proof. intro L. constructor; try reflexivity; [left; split; reflexivity|constructor]. Qed.
Lemma nodot_snoc : forall r pre c, is_digit r c -> nodot (pre ++ [c]) = nodot pre ++ [c].
Proof. intros r pre c H. rewrite nodot_app, (nodot_digits r [c]); [reflexivity|]. constructor; [exact H|constructor]. Qed.
Lemma dec_digit_step : forall L pre st c r, dinv L pre st -> is_digit 10 c ->
  exists st', dec_loop L (len pre) (c :: r) st = dec_loop L (len (pre ++ [c])) r st' /\ dinv L (pre ++ [c]) st'.
Proof.
  intros L pre st c r H Hc. destruct H as [He Ha Hd Hf].
  assert (N : c <> 46) by (intros ->; destruct Hc as [k [X _]]; exact (digit_not_point k X)).
  cbn [dec_loop]. rewrite (proj2 (Z.eqb_neq c (ch "."%string)) N). destruct Hc as [v [Hv Hv10]].
  rewrite (proj2 (to_digit_some 10 c v ltac:(lia)) (conj Hv Hv10)).
  replace (len pre + 1) with (len (pre ++ [c])) by (rewrite len_app; reflexivity).
  pose proof (digit_nonneg _ _ Hv) as Hv0. assert (Hdc : is_digit 10 c) by (exists v; split; assumption).
  eexists. split; [reflexivity|].
  assert (Any : true = negb (is_empty (nodot (pre ++ [c])))) by (rewrite (nodot_snoc 10) by exact Hdc; destruct (nodot pre); reflexivity).
  assert (Dot : (d_dot st = L /\ dots (pre ++ [c]) = 0) \/
           (exists ip fp, pre ++ [c] = ip ++ 46 :: fp /\ dots ip = 0 /\ dots fp = 0 /\ d_dot st = len ip)).
  { assert (D1 : dots [c] = 0) by (apply (dots_digits 10); constructor; [exact Hdc|constructor]).
    destruct Hd as [[E D]|[ip [fp [-> [D1' [D2 E]]]]]].
    - left. split; [exact E|]. rewrite dots_app. lia.
    - right. exists ip, (fp ++ [c]). rewrite <- app_assoc. split; [reflexivity|]. rewrite dots_app. repeat split; lia. }
  destruct (Z.eqb_spec v 0) as [->|Nv]; cbn [negb].
  - assert (c = 48) as ->.
    { remember 0 as z. destruct Hv; lia. }
    constructor; cbn [d_exp d_any_digits d_dot d_first d_last]; try assumption.
    destruct (d_first st) as [f|].
    + destruct Hf as [z1 [core [z2 [-> [F1 [C [F2 [Ef El]]]]]]]]. exists z1, core, (z2 ++ [48]). rewrite <- !app_assoc.
      split; [reflexivity|]. split; [exact F1|]. split; [exact C|]. split; [|split; assumption]. apply Forall_app. split; [exact F2|]. constructor; [left; reflexivity|constructor].
    + apply Forall_app. split; [exact Hf|]. constructor; [left; reflexivity|constructor].
  - assert (Nz : nonzero c) by (exists v; split; [exact Hv|lia]).
    constructor; cbn [d_exp d_any_digits d_dot d_first d_last]; try assumption.
    destruct (d_first st) as [f|].
    + destruct Hf as [z1 [core [z2 [-> [F1 [C [F2 [Ef El]]]]]]]]. exists z1, (core ++ z2 ++ [c]), []. rewrite app_nil_r, <- !app_assoc.
      split; [reflexivity|]. split; [exact F1|]. split; [|split; [constructor|split; [exact Ef|rewrite !len_app; change (len [c]) with 1; lia]]].
      destruct C as [[c0 [t0 [-> C0]]] _]. split; [exists c0, (t0 ++ z2 ++ [c]); split; [reflexivity|exact C0]|].
      exists c, ((c0 :: t0) ++ z2). split; [rewrite app_assoc; reflexivity|exact Nz].
    + exists pre, [c], []. rewrite app_nil_r. split; [reflexivity|]. split; [exact Hf|]. split.
      * split; [exists c, []; split; [reflexivity|exact Nz]|exists c, []; split; [reflexivity|exact Nz]].
      * split; [constructor|]. split; [reflexivity|]. change (len [c]) with 1. lia.
Qed.
Lemma dec_dot_step : forall L pre st r, dinv L pre st -> dots pre = 0 -> len pre < L ->
  exists st', dec_loop L (len pre) (46 :: r) st = dec_loop L (len (pre ++ [46])) r st' /\ dinv L (pre ++ [46]) st'.
Proof.
  intros L pre st r H Hd0 HL. destruct H as [He Ha Hd Hf]. cbn [dec_loop]. change (46 =? ch "."%string) with true. cbn [negb].
  assert (d_dot st = L) as HdL.
  { destruct Hd as [[E _]|[ip [fp [-> [D1 [D2 E]]]]]]; [exact E|]. exfalso. rewrite dots_app in Hd0. change (46 :: fp) with ([46] ++ fp) in Hd0.
    rewrite dots_app in Hd0. change (dots [46]) with 1 in Hd0. pose proof (dots_nonneg fp). pose proof (dots_nonneg ip). lia. }
  rewrite HdL, Z.eqb_refl. cbn [negb].
  replace (len pre + 1) with (len (pre ++ [46])) by (rewrite len_app; reflexivity). eexists. split; [reflexivity|].
  constructor; cbn [d_exp d_any_digits d_dot d_first d_last].
  - exact He.
  - rewrite nodot_app. change (nodot [46]) with (@nil Z). rewrite app_nil_r. exact Ha.
  - right. exists pre, []. repeat split. exact Hd0.
  - destruct (d_first st) as [f|].
    + destruct Hf as [z1 [core [z2 [-> [F1 [C [F2 [Ef El]]]]]]]]. exists z1, core, (z2 ++ [46]). rewrite <- !app_assoc.
      split; [reflexivity|]. split; [exact F1|]. split; [exact C|]. split; [|split; assumption]. apply Forall_app. split; [exact F2|]. constructor; [right; reflexivity|constructor].
    + apply Forall_app. split; [exact Hf|]. constructor; [right; reflexivity|constructor].
Qed.
Lemma dec_second_dot : forall L pre st r, dinv L pre st -> dots pre <> 0 -> len pre < L ->
  dec_loop L (len pre) (46 :: r) st = Ret (Err StringContainsMultipleDots).
Proof.
  intros L pre st r H Hd0 HL. destruct H as [He Ha Hd Hf]. cbn [dec_loop]. change (46 =? ch "."%string) with true.
  destruct Hd as [[_ E]|[ip [fp [-> [D1 [D2 E]]]]]]; [contradiction|]. rewrite len_app, len_cons in HL. pose proof (len_nonneg fp).
  destruct (Z.eqb_spec (d_dot st) L); [lia|]. reflexivity.
Qed.
(** the scan of the mantissa *)
Lemma dec_prefix : forall u pre rest st L, Forall (mchar 10) u -> dinv L pre st -> L = len (pre ++ u ++ rest) ->
  (exists e, dec_loop L (len pre) (u ++ rest) st = Ret (Err e) /\ 1 < dots (pre ++ u)) \/
  exists st', dec_loop L (len pre) (u ++ rest) st = dec_loop L (len (pre ++ u)) rest st' /\ dinv L (pre ++ u) st' /\ dots (pre ++ u) <= Z.max 1 (dots pre).
Proof.
  induction u as [|c u IH]; intros pre rest st L F H HL.
  - right. exists st. rewrite app_nil_r. split; [reflexivity|]. split; [exact H|]. lia.
  - pose proof (Forall_inv F) as Hc. pose proof (Forall_inv_tail F) as Fu. cbn [app] in HL |- *.
    assert (HL2 : L = len ((pre ++ [c]) ++ u ++ rest)) by (rewrite <- app_assoc; exact HL).
    assert (Hlen : len pre < L) by (rewrite HL, len_app, len_cons; pose proof (len_nonneg (u ++ rest)); lia).
    assert (Ea : pre ++ c :: u = (pre ++ [c]) ++ u) by (rewrite <- app_assoc; reflexivity). rewrite Ea.
    destruct Hc as [->|Hc].
    + destruct (Z.eq_dec (dots pre) 0) as [D0|D0].
      * destruct (dec_dot_step L pre st (u ++ rest) H D0 Hlen) as [st1 [E1 H1]]. rewrite E1.
        destruct (IH (pre ++ [46]) rest st1 L Fu H1 HL2) as [[e [E G]]|[st' [E [I G]]]]; [left; exists e; split; assumption|right].
        exists st'. split; [exact E|]. split; [exact I|]. rewrite (dots_app pre [46]) in G. change (dots [46]) with 1 in G. lia.
      * left. exists StringContainsMultipleDots. split; [apply dec_second_dot; assumption|].
        rewrite !dots_app. change (dots [46]) with 1. pose proof (dots_nonneg u). pose proof (dots_nonneg pre). lia.
    + destruct (dec_digit_step L pre st c (u ++ rest) H Hc) as [st1 [E1 H1]]. rewrite E1.
      destruct (IH (pre ++ [c]) rest st1 L Fu H1 HL2) as [[e [E G]]|[st' [E [I G]]]]; [left; exists e; split; assumption|right].
      exists st'. split; [exact E|]. split; [exact I|]. rewrite (dots_app pre [c]), (dots_digits 10 [c]) in G; [lia|]. constructor; [exact Hc|constructor].
Qed.

(** ** What the scan finds *)
Lemma zchar_nodot : forall z, Forall zchar z -> digits 10 (nodot z) 0.
Proof.
  induction z as [|c z IH] using rev_ind; intro F; [constructor|]. apply Forall_app in F. destruct F as [F Fc]. rewrite nodot_app.
  pose proof (Forall_inv Fc) as [->| ->].
  - change (nodot [48]) with [48]. replace 0 with (0 * 10 + 0) by reflexivity. apply digits_snoc; [exact (IH F)|apply (dc_decimal 0); lia|lia].
  - change (nodot [46]) with (@nil Z). rewrite app_nil_r. exact (IH F).
Qed.
Lemma mantissa_nodot : forall t n k, mantissa 10 t n k -> digits 10 (nodot t) n /\ Forall (mchar 10) t /\ nodot t <> [] /\
  ((dots t = 0 /\ k = 0) \/ exists ip fp, t = ip ++ 46 :: fp /\ dots ip = 0 /\ dots fp = 0 /\ k = len fp).
Proof.
  intros t n k H. destruct H as [ds n H N|ip fp n H N].
  - pose proof (digits_forall _ _ _ H) as F. rewrite (nodot_digits 10 ds F). split; [exact H|]. split.
    + eapply Forall_impl; [|exact F]. intros c Hc. right. exact Hc.
    + split; [exact N|]. left. split; [exact (dots_digits 10 ds F)|reflexivity].
  - pose proof (digits_forall _ _ _ H) as F. apply Forall_app in F. destruct F as [F1 F2].
    assert (E : nodot (ip ++ 46 :: fp) = ip ++ fp).
    { rewrite nodot_app. change (46 :: fp) with ([46] ++ fp). rewrite nodot_app. change (nodot [46]) with (@nil Z).
      rewrite (nodot_digits 10 ip F1), (nodot_digits 10 fp F2). reflexivity. }
    rewrite E. split; [exact H|]. split.
    + apply Forall_app. split; [eapply Forall_impl; [|exact F1]; intros c Hc; right; exact Hc|]. constructor; [left; reflexivity|].
      eapply Forall_impl; [|exact F2]. intros c Hc. right. exact Hc.
    + split; [exact N|]. right. exists ip, fp. split; [reflexivity|]. split; [exact (dots_digits 10 ip F1)|]. split; [exact (dots_digits 10 fp F2)|reflexivity].
Qed.
Lemma core_pos : forall core m, is_core core -> digits 10 (nodot core) m -> 10 ^ (len (nodot core) - 1) <= m < 10 ^ len (nodot core).
Proof.
  intros core m [[c [r [-> [k [Hc Hk]]]]] _] D. split; [|exact (proj2 (digits_bound 10 _ m ltac:(lia) D))].
  assert (Ed : is_digit 10 c) by (exists k; split; [exact Hc|lia]).
  assert (E : nodot (c :: r) = c :: nodot r).
  { change (c :: r) with ([c] ++ r). rewrite nodot_app, (nodot_digits 10 [c]); [reflexivity|]. constructor; [exact Ed|constructor]. }
  rewrite E in *. destruct (digits_cons_inv 10 c _ m ltac:(lia) D) as [k' [m' [Hc' [_ [D' ->]]]]].
  rewrite (digit_unique _ _ _ Hc' Hc). pose proof (digits_bound 10 _ m' ltac:(lia) D'). rewrite len_cons. replace (1 + len (nodot r) - 1) with (len (nodot r)) by lia.
  assert (0 < 10 ^ len (nodot r)) by (apply Z.pow_pos_nonneg; [lia|apply len_nonneg]). nia.
Qed.
Lemma core_ends : forall core, is_core core -> dots core = 0 \/ 2 < len core.
Proof.
  intros core [[c [r [-> [k [Hc Hk]]]]] [c' [r' [E [k' [Hc' Hk']]]]]].
  assert (D1 : dots [c] = 0) by (apply (dots_digits 10); constructor; [exists k; split; [exact Hc|lia]|constructor]).
  assert (D2 : dots [c'] = 0) by (apply (dots_digits 10); constructor; [exists k'; split; [exact Hc'|lia]|constructor]).
  destruct r' as [|c1 r'].
  - left. rewrite E. exact D2.
  - injection E as <- ->. change (c :: r' ++ [c']) with ([c] ++ r' ++ [c']). rewrite !dots_app, !len_app. change (len [c]) with 1. change (len [c']) with 1.
    destruct r' as [|c2 r']; [left; cbn in *; lia|]. right. rewrite len_cons. pose proof (len_nonneg r'). lia.
Qed.
Lemma core_dot : forall ip fp z1 core z2, ip ++ 46 :: fp = z1 ++ core ++ z2 -> dots ip = 0 -> dots fp = 0 -> is_core core ->
  (len ip < len z1 /\ dots z1 = 1 /\ dots core = 0 /\ dots z2 = 0) \/
  (len z1 < len ip < len z1 + len core - 1 /\ dots z1 = 0 /\ dots core = 1 /\ dots z2 = 0) \/
  (len z1 + len core - 1 < len ip /\ dots z1 = 0 /\ dots core = 0 /\ dots z2 = 1).
Proof.
  intros ip fp z1 core z2 E D1 D2 C. pose proof (dots_split ip fp z1 (core ++ z2) E D1 D2) as P1.
  assert (E2 : ip ++ 46 :: fp = (z1 ++ core) ++ z2) by (rewrite <- app_assoc; exact E).
  pose proof (dots_split ip fp (z1 ++ core) z2 E2 D1 D2) as P2.
  destruct C as [[c [r [Ec [k [Hc Hk]]]]] [c' [r' [Ec' [k' [Hc' Hk']]]]]].
  assert (E3 : ip ++ 46 :: fp = (z1 ++ [c]) ++ r ++ z2) by (rewrite <- app_assoc, E, Ec; reflexivity).
  pose proof (dots_split ip fp (z1 ++ [c]) (r ++ z2) E3 D1 D2) as P3.
  assert (E4 : ip ++ 46 :: fp = (z1 ++ r') ++ [c'] ++ z2) by (rewrite E, Ec', <- !app_assoc; reflexivity).
  pose proof (dots_split ip fp (z1 ++ r') ([c'] ++ z2) E4 D1 D2) as P4.
  assert (X1 : dots [c] = 0) by (apply (dots_digits 10); constructor; [exists k; split; [exact Hc|lia]|constructor]).
  assert (X2 : dots [c'] = 0) by (apply (dots_digits 10); constructor; [exists k'; split; [exact Hc'|lia]|constructor]).
  assert (L1 : len core = len r' + 1) by (rewrite Ec', len_app; reflexivity).
  rewrite !len_app, !dots_app in *. change (len [c]) with 1 in *. pose proof (dots_nonneg z1). pose proof (dots_nonneg core). pose proof (dots_nonneg z2).
  clear - P1 P2 P3 P4 X1 X2 L1 H H0 H1. lia.
Qed.
Lemma core_found : forall t n k z1 core z2 dot, mantissa 10 t n k -> t = z1 ++ core ++ z2 -> Forall zchar z1 -> is_core core -> Forall zchar z2 ->
  (dots t = 0 /\ dot = len t) \/ (exists ip fp, t = ip ++ 46 :: fp /\ dots ip = 0 /\ dots fp = 0 /\ dot = len ip) ->
  let first := len z1 in let last := len z1 + len core - 1 in
  dot <> last /\
  (exists m, digits 10 (nodot core) m /\ IZR n * bpow r10 (- k) = IZR m * bpow r10 (if last <? dot then dot - last - 1 else dot - last))%R /\
  last - first + 1 - b2z ((first <? dot) && (dot <? last)) = len (nodot core).
Proof.
  intros t n k z1 core z2 dot M Et F1 C F2 Hdot first last.
  destruct (mantissa_nodot t n k M) as [Dn [_ [_ Hk]]]. rewrite Et, !nodot_app in Dn.
  destruct (digits_app_inv 10 _ _ _ ltac:(lia) Dn) as [n1 [n2 [Dz1 [Dn2 E1]]]].
  destruct (digits_app_inv 10 _ _ _ ltac:(lia) Dn2) as [m [n3 [Dm [Dz2 E2]]]].
  rewrite (digits_unique 10 _ _ _ ltac:(lia) Dz1 (zchar_nodot z1 F1)) in E1. rewrite (digits_unique 10 _ _ _ ltac:(lia) Dz2 (zchar_nodot z2 F2)) in E2.
  assert (En : n = m * 10 ^ len (nodot z2)) by lia. clear E1 E2 n1 n2 n3 Dz1 Dn2 Dz2.
  assert (Eb : forall a, len (nodot z2) - k = a -> (IZR n * bpow r10 (- k) = IZR m * bpow r10 a)%R).
  { intros a <-. rewrite En, mult_IZR. change 10 with (radix_val r10) at 1. rewrite IZR_Zpower by apply len_nonneg. rewrite Rmult_assoc, <- bpow_plus. reflexivity. }
  pose proof (core_ends core C) as Ce. assert (Lc : 1 <= len core) by (destruct C as [[c [r [-> _]]] _]; rewrite len_cons; pose proof (len_nonneg r); lia).
  pose proof (len_nonneg z1). pose proof (len_nonneg z2).
  assert (Lt : len t = len z1 + len core + len z2) by (rewrite Et, !len_app; lia).
  assert (Edots : dots t = dots z1 + dots core + dots z2) by (rewrite Et, !dots_app; lia).
  pose proof (dots_nonneg z1). pose proof (dots_nonneg core). pose proof (dots_nonneg z2).
  assert (Ln : len (nodot z2) = len z2 - dots z2) by (unfold dots; lia).
  assert (Lcn : len (nodot core) = len core - dots core) by (unfold dots; lia). rewrite Lcn.
  destruct Hdot as [[D0 ->]|[ip [fp [Et2 [D1 [D2 ->]]]]]].
  - split; [unfold last; lia|]. split.
    + exists m. split; [exact Dm|]. apply Eb. destruct Hk as [[_ ->]|[ip [fp [-> [Z1 [Z2 ->]]]]]].
      * unfold last. destruct (Z.ltb_spec (len z1 + len core - 1) (len t)); lia.
      * exfalso. rewrite dots_app in D0. change (46 :: fp) with ([46] ++ fp) in D0. rewrite dots_app in D0. change (dots [46]) with 1 in D0. lia.
    + unfold first, last. destruct (Z.ltb_spec (len t) (len z1 + len core - 1)); [lia|]. rewrite andb_false_r. change (b2z false) with 0. lia.
  - assert (E : ip ++ 46 :: fp = z1 ++ core ++ z2) by (rewrite <- Et2; exact Et).
    assert (Lt2 : len t = len ip + 1 + len fp) by (rewrite Et2, len_app, len_cons; lia).
    assert (k = len fp) as ->.
    { destruct Hk as [[Z0 _]|[ip' [fp' [Et3 [Z1 [Z2 ->]]]]]].
      - exfalso. rewrite Et2, dots_app in Z0. change (46 :: fp) with ([46] ++ fp) in Z0. rewrite dots_app in Z0. change (dots [46]) with 1 in Z0. lia.
      - assert (X : ip ++ 46 :: fp = ip' ++ 46 :: fp') by congruence.
        assert (Lt3 : len t = len ip' + 1 + len fp') by (rewrite Et3, len_app, len_cons; lia).
        pose proof (dots_split ip fp ip' (46 :: fp') X D1 D2) as Q1.
        pose proof (dots_split ip' fp' ip (46 :: fp) (eq_sym X) Z1 Z2) as Q2. lia. }
    pose proof (core_dot ip fp z1 core z2 E D1 D2 C) as P.
    unfold first, last. split; [lia|]. split.
    + exists m. split; [exact Dm|]. apply Eb. destruct (Z.ltb_spec (len z1 + len core - 1) (len ip)); lia.
    + destruct (Z.ltb_spec (len z1) (len ip)), (Z.ltb_spec (len ip) (len z1 + len core - 1)); cbn [andb b2z]; lia.
Qed.

(** the result of the scan of a text that denotes [x] *)
Record scan_result (s : list Z) (x : R) (st : dec_state) : Prop := {
  sr_any : d_any_digits st = true;
  sr_value : match d_first st with
    | None => x = 0%R
    | Some first => exists z core rest m e, s = z ++ core ++ rest /\ is_core core /\ Forall (mchar 10) core /\ digits 10 (nodot core) m /\
        first = len z /\ d_last st = len z + len core - 1 /\ d_last st <> d_dot st /\ 0 <= d_dot st <= len s /\
        d_last st - first + 1 - b2z ((first <? d_dot st) && (d_dot st <? d_last st)) = len (nodot core) /\
        d_exp st = Z.max (- I32_MAX) (Z.min I32_MAX e) /\
        (x = IZR m * bpow r10 (e + (if (d_last st <? d_dot st)%Z then d_dot st - d_last st - 1 else d_dot st - d_last st)))%R
    end }.
Lemma mantissa_scan : forall t n k rest, mantissa 10 t n k ->
  exists st, dec_loop (len (t ++ rest)) 0 (t ++ rest) (mkDec false 0 None 0 (len (t ++ rest))) = dec_loop (len (t ++ rest)) (len t) rest st /\
    dinv (len (t ++ rest)) t st.
Proof.
  intros t n k rest M. destruct (mantissa_nodot t n k M) as [_ [F [_ Hk]]].
  destruct (dec_prefix t [] rest _ _ F (dinv_start (len (t ++ rest))) eq_refl) as [[e [_ G]]|[st [E [I _]]]].
  - exfalso. cbn [app] in G. destruct Hk as [[Z0 _]|[ip' [fp' [-> [Z1 [Z2 _]]]]]]; [lia|].
    rewrite dots_app in G. change (46 :: fp') with ([46] ++ fp') in G. rewrite dots_app in G. change (dots [46]) with 1 in G. lia.
  - exists st. split; [exact E|exact I].
Qed.
Lemma mantissa_zero : forall t n k, mantissa 10 t n k -> Forall zchar t -> n = 0.
Proof.
  intros t n k M F. destruct (mantissa_nodot t n k M) as [D _]. exact (digits_unique 10 _ _ _ ltac:(lia) D (zchar_nodot t F)).
Qed.
Lemma core_mchar : forall t n k z1 core z2, mantissa 10 t n k -> t = z1 ++ core ++ z2 -> Forall (mchar 10) core.
Proof.
  intros t n k z1 core z2 M E. destruct (mantissa_nodot t n k M) as [_ [F _]]. rewrite E in F. apply Forall_app in F. destruct F as [_ F].
  apply Forall_app in F. tauto.
Qed.
Lemma scan_common : forall t n k rest st e st' dot, mantissa 10 t n k -> dinv (len (t ++ rest)) t st ->
  dot = (if d_dot st =? len (t ++ rest) then len t else d_dot st) ->
  d_any_digits st' = d_any_digits st -> d_first st' = d_first st -> d_last st' = d_last st -> d_dot st' = dot ->
  d_exp st' = Z.max (- I32_MAX) (Z.min I32_MAX e) ->
  scan_result (t ++ rest) (IZR n * bpow r10 (e - k)) st'.
Proof.
  intros t n k rest st e st' dot M I Hdot Ea Ef El Ed Ee. destruct I as [_ Ha Hd Hc]. destruct (mantissa_nodot t n k M) as [_ [_ [Nn _]]].
  constructor.
  - rewrite Ea, Ha. destruct (nodot t); [contradiction|reflexivity].
  - rewrite Ef. destruct (d_first st) as [first|].
    + destruct Hc as [z1 [core [z2 [Et [F1 [C [F2 [E1 E2]]]]]]]].
      assert (Hdot2 : (dots t = 0 /\ dot = len t) \/ (exists ip fp, t = ip ++ 46 :: fp /\ dots ip = 0 /\ dots fp = 0 /\ dot = len ip)).
      { destruct Hd as [[X D]|[ip [fp [X [D1 [D2 D]]]]]].
        - left. split; [exact D|]. rewrite Hdot, X, Z.eqb_refl. reflexivity.
        - right. exists ip, fp. repeat split; try assumption. rewrite Hdot, D.
          destruct (Z.eqb_spec (len ip) (len (t ++ rest))) as [Y|]; [|reflexivity]. exfalso. rewrite len_app, X, len_app, len_cons in Y.
          pose proof (len_nonneg fp). pose proof (len_nonneg rest). lia. }
      assert (Hdr : 0 <= dot <= len (t ++ rest)).
      { rewrite len_app. pose proof (len_nonneg rest). pose proof (len_nonneg t). destruct Hdot2 as [[_ ->]|[ip [fp [-> [_ [_ ->]]]]]]; [lia|].
        rewrite len_app, len_cons in *. pose proof (len_nonneg fp). pose proof (len_nonneg ip). lia. }
      pose proof (core_found t n k z1 core z2 dot M Et F1 C F2 Hdot2) as P. cbv zeta in P. destruct P as [P1 [[m [P2 P3]] P4]].
      exists z1, core, (z2 ++ rest), m, e. rewrite El, Ed, E2. split; [rewrite Et, <- !app_assoc; reflexivity|].
      split; [exact C|]. split; [exact (core_mchar t n k z1 core z2 M Et)|]. split; [exact P2|]. split; [exact E1|]. split; [reflexivity|].
      split; [congruence|]. split; [exact Hdr|]. split; [rewrite E1; exact P4|]. split; [exact Ee|].
      replace (e - k) with (- k + e) by lia. rewrite bpow_plus, <- Rmult_assoc, P3. rewrite Rmult_assoc, <- bpow_plus. f_equal. f_equal. lia.
    + rewrite (mantissa_zero t n k M Hc). apply Rmult_0_l.
Qed.
Theorem dec_scan : forall s x, dec_body s x -> exists st, dec_loop (len s) 0 s (mkDec false 0 None 0 (len s)) = Ret (Ok st) /\ scan_result s x st.
Proof.
  intros s x H. destruct H as [t n k M|t n k c u e M Hc He].
  - destruct (mantissa_scan t n k [] M) as [st [E I]]. rewrite app_nil_r in E, I. exists st. split; [exact E|].
    assert (X : scan_result (t ++ []) (IZR n * bpow r10 (0 - k)) st).
    { eapply (scan_common t n k [] st 0 st); try reflexivity; [exact M|rewrite app_nil_r; exact I| |exact (di_exp _ _ _ I)].
      rewrite app_nil_r. destruct (Z.eqb_spec (d_dot st) (len t)) as [Y|]; [exact Y|reflexivity]. }
    rewrite app_nil_r in X. exact X.
  - destruct (mantissa_scan t n k (c :: u) M) as [st [E I]]. rewrite E. cbn [dec_loop].
    assert (N1 : (c =? ch "."%string) = false) by (change (ch "."%string) with 46; lia).
    assert (N2 : to_digit 10 c = None) by (destruct Hc as [->| ->]; reflexivity).
    assert (N3 : (c =? ch "e"%string) || (c =? ch "E"%string) = true) by (destruct Hc as [->| ->]; reflexivity).
    rewrite N1, N2, N3. destruct (mantissa_nodot t n k M) as [_ [_ [Nn _]]].
    rewrite (di_any _ _ _ I). assert (negb (is_empty (nodot t)) = true) as -> by (destruct (nodot t); [contradiction|reflexivity]). cbn [negb].
    destruct (exp_sign_spec u e He) as [minus [ds [ne [Es [De [Ee _]]]]]]. rewrite Es.
    rewrite (di_exp _ _ _ I). assert (Hi : 0 <= 0 <= I32_MAX) by (unfold I32_MAX; lia).
    destruct (exp_digits_spec ds false 0 (digits_forall _ _ _ De) Hi) as [n' [De' Ex]]. rewrite (digits_unique 10 _ _ _ ltac:(lia) De' De) in Ex. rewrite Ex, Z.mul_0_l, Z.add_0_l.
    pose proof (digits_bound 10 ds ne ltac:(lia) De) as Bn.
    assert (HA : (false || negb (is_empty ds)) || (Z.min I32_MAX ne =? 0) = true).
    { destruct ds; [|reflexivity]. assert (ne = 0) as -> by (unfold len in Bn; cbn in Bn; lia). reflexivity. }
    rewrite HA. cbn [assertb].
    assert (Hchk : (if minus then chk32 (- Z.min I32_MAX ne) else Ret (Z.min I32_MAX ne)) = Ret (Z.max (- I32_MAX) (Z.min I32_MAX e))).
    { rewrite Ee. unfold I32_MAX in *. destruct minus.
      - rewrite chk32_ret by (unfold I32_MIN, I32_MAX; lia). f_equal. lia.
      - f_equal. lia. }
    rewrite Hchk. cbn [bind]. eexists. split; [reflexivity|].
    eapply (scan_common t n k (c :: u) st e _ _ M I eq_refl); try reflexivity. cbn [d_any_digits].
    rewrite (di_any _ _ _ I). destruct (nodot t); [contradiction|reflexivity].
Qed.

(** ** Everything else is rejected *)
Lemma digits_mantissa : forall pre, Forall (mchar 10) pre -> dots pre <= 1 -> nodot pre <> [] -> exists n k, mantissa 10 pre n k.
Proof.
  intros pre F D N. destruct (classify_prefix 10 pre ltac:(lia) F) as [Fd|[ip [fp [Fi [[E Ff]|[u [E Ff]]]]]]].
  - destruct (digits_exist 10 pre ltac:(lia) Fd) as [n Hn]. exists n, 0. constructor; [exact Hn|]. intros ->. contradiction.
  - destruct (digits_exist 10 (ip ++ fp) ltac:(lia)) as [n Hn]; [apply Forall_app; split; assumption|].
    exists n. eexists. subst pre. apply mantissa_point; [exact Hn|]. intro X. apply N. rewrite nodot_app. change (46 :: fp) with ([46] ++ fp).
    rewrite nodot_app, (nodot_digits 10 ip Fi), (nodot_digits 10 fp Ff). exact X.
  - exfalso. subst pre. rewrite dots_app in D. change (46 :: fp ++ 46 :: u) with ([46] ++ fp ++ [46] ++ u) in D. rewrite !dots_app in D.
    change (dots [46]) with 1 in D. pose proof (dots_nonneg ip). pose proof (dots_nonneg fp). pose proof (dots_nonneg u). lia.
Qed.
Theorem from_dec_rejects : forall S s m, (exists x, dec_body s x) \/ exists e, from_decimal_string S s m = Ret (Err e).
Proof.
  intros S s m. destruct (split_text 10 s ltac:(lia)) as [pre [rest [-> [F R]]]].
  assert (Herr : forall e, dec_loop (len (pre ++ rest)) 0 (pre ++ rest) (mkDec false 0 None 0 (len (pre ++ rest))) = Ret (Err e) ->
    exists e, from_decimal_string S (pre ++ rest) m = Ret (Err e)).
  { intros e E. unfold from_decimal_string. rewrite E. eexists. reflexivity. }
  assert (Hok : forall st, dec_loop (len (pre ++ rest)) 0 (pre ++ rest) (mkDec false 0 None 0 (len (pre ++ rest))) = Ret (Ok st) -> d_any_digits st = false ->
    exists e, from_decimal_string S (pre ++ rest) m = Ret (Err e)).
  { intros st E A. unfold from_decimal_string. rewrite E. cbn [rbind bind]. rewrite A. eexists. reflexivity. }
  destruct (dec_prefix pre [] rest _ _ F (dinv_start (len (pre ++ rest))) eq_refl) as [[e [E _]]|[st [E [I D]]]]; [right; exact (Herr e E)|].
  cbn [app] in E, I, D. change (len []) with 0 in E. assert (D1 : dots pre <= 1) by (change (dots []) with 0 in D; lia). clear D.
  destruct (is_empty (nodot pre)) eqn:En.
  - destruct R as [->|[c [u [-> [C1 C2]]]]].
    + right. eapply Hok; [exact E|]. rewrite (di_any _ _ _ I), En. reflexivity.
    + destruct (is_digit_dec 10 c ltac:(lia)) as [X|[_ X]]; [contradiction|].
      cbn [dec_loop] in E. rewrite (proj2 (Z.eqb_neq c (ch "."%string)) C1), X in E. right.
      rewrite (di_any _ _ _ I), En in E. cbn [negb] in E. destruct ((c =? ch "e"%string) || (c =? ch "E"%string)); exact (Herr _ E).
  - destruct (digits_mantissa pre F D1) as [n [k M]]; [intros X; rewrite X in En; discriminate|].
    destruct R as [->|[c [u [-> [C1 C2]]]]].
    + left. rewrite app_nil_r. eexists. constructor. exact M.
    + destruct (is_digit_dec 10 c ltac:(lia)) as [X|[_ X]]; [contradiction|].
      cbn [dec_loop] in E. rewrite (proj2 (Z.eqb_neq c (ch "."%string)) C1), X in E.
      destruct ((c =? ch "e"%string) || (c =? ch "E"%string)) eqn:Hp; [|right; exact (Herr _ E)].
      rewrite (di_any _ _ _ I), En in E. cbn [negb] in E.
      destruct (exp_sign u) as [minus ds] eqn:Es.
      assert (Fd : Forall (is_digit 10) ds \/ ~ Forall (is_digit 10) ds).
      { clear. induction ds as [|c ds [H|H]]; [left; constructor| |].
        - destruct (is_digit_dec 10 c ltac:(lia)) as [X|[X _]]; [left; constructor; assumption|right; intro Y; inversion Y; contradiction].
        - right. intro Y. inversion Y. contradiction. }
      destruct Fd as [Fd|Fd]; [|rewrite (exp_digits_err _ _ _ Fd) in E; right; exact (Herr _ E)].
      destruct (digits_exist 10 ds ltac:(lia) Fd) as [ne De]. left. eexists. apply (dec_exp pre n k c u (if minus then - ne else ne) M); [|exact (exp_sign_inv _ _ _ _ Es De)].
      change (ch "e"%string) with 101 in Hp. change (ch "E"%string) with 69 in Hp. lia.
Qed.
