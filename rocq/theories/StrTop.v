(** * StrTop.v -- decimal texts and all texts *)
From Coq Require Import ZArith Reals List Bool Lia Lra ZifyBool.
From Flocq Require Import Core Bracket Round.
From Verif Require Import Machine Ieee Spec Norm Arith Int Formats Parse SpecStr StrHex StrScan StrSyntax StrAtt StrDecimal.
Import ListNotations.
Local Open Scope Z_scope.
Ltac Zify.zify_post_hook ::= idtac.
Local Notation length := List.length.

Lemma mchar_range : forall c, mchar 10 c -> 46 <= c <= 57.
Proof. intros c [->|[k [A B]]]; [lia|destruct A; lia]. Qed.
Lemma dec_body_chars : forall b x, dec_body b x -> exists c t, b = c :: t /\ (c = 46 \/ is_digit 10 c) /\
  (forall c' t', t = c' :: t' -> c' <> 120 /\ c' <> 88).
Proof.
  assert (K : forall t n k u, mantissa 10 t n k -> (forall c u', u = c :: u' -> c <> 120 /\ c <> 88) ->
    exists c t1, t ++ u = c :: t1 /\ (c = 46 \/ is_digit 10 c) /\ (forall c' t', t1 = c' :: t' -> c' <> 120 /\ c' <> 88)).
  { intros t n k u M Hu. destruct (mantissa_nodot t n k M) as [_ [F [N _]]]. destruct F as [|c t Hc F]; [contradiction|].
    exists c, (t ++ u). split; [reflexivity|]. split; [exact Hc|]. intros c' t' E. destruct F as [|d t Hd F]; cbn [app] in E.
    - exact (Hu c' t' E).
    - injection E as -> _. pose proof (mchar_range _ Hd). lia. }
  intros b x [t n k M|t n k c u e M Hc He].
  - rewrite <- (app_nil_r t). apply (K t n k [] M). discriminate.
  - apply (K t n k (c :: u) M). intros d u' E. injection E as <- _. lia.
Qed.
Lemma number_dec : forall S b x r, dec_body b x -> number S b r = from_decimal_string S b r.
Proof.
  intros S b x r H. destruct (dec_body_chars b x H) as [c [t [-> [_ Ht]]]]. destruct (Z.eq_dec c 48) as [->|N].
  - destruct t as [|c' t']; [reflexivity|]. destruct (Ht c' t' eq_refl). unfold number. destruct ((120 =? c') || (88 =? c')) eqn:E; [lia|reflexivity].
  - unfold number. clear - N. destruct c as [|q|q]; try reflexivity. repeat (try reflexivity; destruct q as [q|q|]; try reflexivity). contradiction.
Qed.
Lemma nearest_negate : forall m g, nearest (round_negate_if m g) = nearest m.
Proof. intros [] []; reflexivity. Qed.
Lemma short_abs : forall (g : bool) x, short (Rabs (if g then - x else x)) -> (0 <= x)%R -> short x.
Proof. intros [|] x H Hx; [rewrite Rabs_Ropp in H|]; rewrite Rabs_pos_eq in H by lra; exact H. Qed.
Lemma dec_body_nonneg : forall b x, dec_body b x -> (0 <= x)%R.
Proof.
  assert (K : forall t n k, mantissa 10 t n k -> 0 <= n) by (intros t n k [ds m D _|ip fp m D _]; exact (proj1 (digits_bound 10 _ m ltac:(lia) D))).
  intros b x [t n k M|t n k c u e M _ _]; apply Rmult_le_pos; try apply bpow_ge_0; apply IZR_le; exact (K _ _ _ M).
Qed.

Theorem from_str_dec : forall S s g x m, sem_ok S -> dec_ok S -> dec_text s g x -> len s < 2 ^ 25 ->
  exists st f, from_str_r S s m = Ret (Ok (st, f)) /\
    (exists y, (Rabs (x - y) <= Rabs y * bpow r2 (-124))%R /\ correctly_rounded S m y g (st, f)) /\
    (nearest m = true -> exists st', correctly_rounded S m x g (st', f) /\ (st = st' \/ st = OK \/ st' = OK)) /\
    (short (Rabs x) -> nearest m = false -> correctly_rounded S m x g (st, f)) /\
    (short (Rabs x) -> generic_format r2 (FLX_exp 127) x -> correctly_rounded S m x g (st, f)).
Proof.
  intros S s g x m HS HD [sg g' b x' Hs Hb] HL. pose proof (dec_body_nonneg b x' Hb) as X0.
  destruct (from_dec_spec S b x' (round_negate_if m g') HS HD Hb) as [[st f] [E [R1 R2 R3 R4]]].
  { unfold len in *. rewrite app_length in HL. lia. }
  assert (En : from_str_r S (sg ++ b) m = Ret (Ok (st, negate_if f g'))).
  { pose proof (number_dec S b x' (round_negate_if m g') Hb) as Nd. destruct (dec_body_chars b x' Hb) as [c [t [Eb [Hc _]]]]. rewrite Eb in *.
    rewrite (signed_number S sg g' c t m Hs Hc), Nd, E. reflexivity. }
  exists st, (negate_if f g'). split; [exact En|]. cbn [fst snd] in *. split; [|split; [|split]].
  - destruct R1 as [y [Y1 Y2]]. exists (if g' then - y else y)%R. split.
    + destruct g'; [|exact Y1]. rewrite Rabs_Ropp. replace (- x' - - y)%R with (- (x' - y))%R by ring. rewrite Rabs_Ropp. exact Y1.
    + apply cr_signed. exact Y2.
  - intro Hm. destruct R2 as [st' [R2 A]]; [rewrite nearest_negate; exact Hm|]. exists st'. split; [|exact A]. apply cr_signed. exact R2.
  - intros H1 H2. apply cr_signed. apply R3; [exact (short_abs g' x' H1 X0)|]. rewrite nearest_negate. exact H2.
  - intros H1 H2. apply cr_signed. apply R4; [exact (short_abs g' x' H1 X0)|]. destruct g'; [|exact H2].
    rewrite <- (Ropp_involutive x'). apply generic_format_opp. exact H2.
Qed.

(** ** The crate's formats *)
Lemma crate_dec_ok : forall S, In S crate_formats -> dec_ok S.
Proof. intros S H. repeat (destruct H as [<-|H]; [constructor; vm_compute; (discriminate || reflexivity)|]). destruct H. Qed.

Theorem from_str_dec_nearest : forall S s g x m, sem_ok S -> dec_ok S -> dec_text s g x -> len s < 2 ^ 25 ->
  m = NearestTiesToEven \/ m = NearestTiesToAway ->
  exists st f, from_str_r S s m = Ret (Ok (st, f)) /\
    exists st', correctly_rounded S m x g (st', f) /\ (st = st' \/ st = OK \/ st' = OK).
Proof.
  intros S s g x m HS HD Ht HL Hm. destruct (from_str_dec S s g x m HS HD Ht HL) as [st [f [E [_ [H _]]]]].
  exists st, f. split; [exact E|]. apply H. destruct Hm as [->| ->]; reflexivity.
Qed.
Theorem from_str_dec_backward : forall S s g x m, sem_ok S -> dec_ok S -> dec_text s g x -> len s < 2 ^ 25 ->
  exists res y, from_str_r S s m = Ret (Ok res) /\ (Rabs (x - y) <= Rabs y * bpow r2 (-124))%R /\ correctly_rounded S m y g res.
Proof.
  intros S s g x m HS HD Ht HL. destruct (from_str_dec S s g x m HS HD Ht HL) as [st [f [E [[y [H1 H2]] _]]]].
  exists (st, f), y. repeat (split; [assumption|]). assumption.
Qed.
Theorem from_str_dec_directed : forall S s g x m, sem_ok S -> dec_ok S -> dec_text s g x -> len s < 2 ^ 25 -> short (Rabs x) ->
  m = TowardPositive \/ m = TowardNegative \/ m = TowardZero ->
  exists res, from_str_r S s m = Ret (Ok res) /\ correctly_rounded S m x g res.
Proof.
  intros S s g x m HS HD Ht HL Hx Hm. destruct (from_str_dec S s g x m HS HD Ht HL) as [st [f [E [_ [_ [H _]]]]]].
  exists (st, f). split; [exact E|]. apply H; [exact Hx|]. destruct Hm as [->|[->| ->]]; reflexivity.
Qed.
Theorem from_str_dec_exact : forall S s g x m, sem_ok S -> dec_ok S -> dec_text s g x -> len s < 2 ^ 25 -> short (Rabs x) ->
  (exists n e, Z.abs n < 2 ^ 127 /\ x = (IZR n * bpow r2 e)%R) ->
  exists res, from_str_r S s m = Ret (Ok res) /\ correctly_rounded S m x g res.
Proof.
  intros S s g x m HS HD Ht HL Hx [n [e [Hn Hv]]]. destruct (from_str_dec S s g x m HS HD Ht HL) as [st [f [E [_ [_ [_ H]]]]]].
  exists (st, f). split; [exact E|]. apply H; [exact Hx|]. apply generic_format_FLX. exists (Defs.Float r2 n e); [exact Hv|exact Hn].
Qed.

(** ** All texts *)
Theorem from_str_accepts : forall S s m, sem_ok S -> dec_ok S -> accepted s -> len s < 2 ^ 25 ->
  exists st f, from_str_r S s m = Ret (Ok (st, f)) /\ wf S f.
Proof.
  intros S s m HS HD [[g H]|[[g [q [pl H]]]|[[g [x H]]|[g [x H]]]]] HL.
  - destruct (from_str_inf_value S s g m HS H) as [f [E [W _]]]. exists OK, f. split; assumption.
  - destruct (from_str_nan_value S s g q pl m HS H) as [f [E [[W _] _]]]. exists OK, f. split; assumption.
  - destruct (from_str_hex S s g x m HS) as [[st f] [E [W _]]]; try assumption; [pose proof (dec_prec S HD); lia|lia|]. exists st, f. split; assumption.
  - destruct (from_str_dec S s g x m HS HD H HL) as [st [f [E [[y [_ [W _]]] _]]]]. exists st, f. split; assumption.
Qed.
Theorem from_str_total : forall S s m, sem_ok S -> dec_ok S -> len s < 2 ^ 25 ->
  (exists st f, from_str_r S s m = Ret (Ok (st, f)) /\ wf S f /\ accepted s) \/
  (exists e, from_str_r S s m = Ret (Err e)).
Proof.
  intros S s m HS HD HL. destruct (from_str_rejects S s m) as [A|R]; [left|right; exact R].
  destruct (from_str_accepts S s m HS HD A HL) as [st [f [E W]]]. exists st, f. split; [exact E|]. split; [exact W|exact A].
Qed.

(** ** Texts that are computed with *)
Definition digits_value (t : list Z) : Z := fold_left (fun n c => n * 10 + (c - 48)) t 0.
Lemma digits_all : forall t, forallb (fun c => (48 <=? c) && (c <=? 57)) t = true -> digits 10 t (digits_value t).
Proof.
  intro t. induction t as [|c t IH] using rev_ind; intro H; [constructor|].
  rewrite forallb_app in H. apply andb_true_iff in H. destruct H as [H1 H2]. cbn [forallb] in H2.
  unfold digits_value. rewrite fold_left_app. cbn [fold_left]. apply digits_snoc; [exact (IH H1)| |lia].
  replace c with (48 + (c - 48)) at 1 by lia. apply dc_decimal. lia.
Qed.
Lemma whole_text : forall t u, t <> [] -> forallb (fun c => (48 <=? c) && (c <=? 57)) (t ++ u) = true ->
  dec_text (t ++ 101 :: 45 :: u) false (IZR (digits_value t) * bpow r10 (- digits_value u)).
Proof.
  intros t u Nt H. rewrite forallb_app in H. apply andb_true_iff in H. destruct H as [H1 H2].
  apply (dec_text_intro [] false); [constructor|]. replace (- digits_value u) with (- digits_value u - 0) by lia.
  apply dec_exp; [|left; reflexivity|apply exponent_minus; exact (digits_all u H2)].
  apply mantissa_int; [exact (digits_all t H1)|exact Nt].
Qed.
