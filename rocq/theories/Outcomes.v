(** * Outcomes.v -- statuses as sets of flags, and the comparison of results together with their statuses
    (src/lib.rs:46-74) *)
From Coq Require Import ZArith Reals List Bool Lia Lra.
From Flocq Require Import Core.
From Verif Require Import Machine Ieee Spec SpecPrograms SpecExpr Norm Arith Total Eft Expr Order Orderx Rem Next Ppc SpecPair PairBase.
Import ListNotations.
Local Open Scope Z_scope.
Ltac Zify.zify_post_hook ::= idtac.

(** ** What [bitflags!] (version 2) generates for [Status], a [u8] *)
(** src/lib.rs:46-66 [Status::all] *)
Definition flags_all : Z := Z.lor INVALID_OP (Z.lor DIV_BY_ZERO (Z.lor OVERFLOW (Z.lor UNDERFLOW INEXACT))).
(** src/lib.rs:46-66 [from_bits_truncate], [from_bits] *)
Definition flags_truncate (b : Z) : Z := Z.land b flags_all.
Definition flags_from_bits (b : Z) : option Z := if flags_truncate b =? b then Some b else None.
(** src/lib.rs:46-66 [|], [&], [-], [!], [^] *)
Definition flags_union (a b : Z) : Z := Z.lor a b.
Definition flags_intersection (a b : Z) : Z := Z.land a b.
Definition flags_difference (a b : Z) : Z := Z.land a (Z.lxor b 255).
Definition flags_complement (a : Z) : Z := flags_truncate (Z.lxor a 255).
Definition flags_symmetric (a b : Z) : Z := Z.lxor a b.
(** src/lib.rs:46-66 [contains], [intersects], [is_empty] *)
Definition flags_contains (a b : Z) : bool := Z.land a b =? b.
Definition flags_intersects (a b : Z) : bool := negb (Z.land a b =? 0).
Definition flags_is_empty (a : Z) : bool := a =? 0.
(** src/lib.rs:57 derived [Ord] of [Status]: that of the bits *)
Definition status_cmp (a b : Z) : comparison := a ?= b.
(** ** src/lib.rs:68-74 [StatusAnd], for values of type [IeeeFloat] *)
(** src/lib.rs:70 derived [PartialEq]: fields in order, the second is looked at only if the first agree *)
Definition outcome_eq (x y : Z * Float) : outcome bool :=
  if fst x =? fst y then eq_f (snd x) (snd y) else Ret false.
(** src/lib.rs:70 derived [PartialOrd]: lexicographic *)
Definition outcome_cmp (x y : Z * Float) : outcome (option comparison) :=
  match status_cmp (fst x) (fst y) with
  | Eq => partial_cmp (snd x) (snd y)
  | c => Ret (Some c)
  end.
(** src/lib.rs:70, for values of type [DoubleFloat] *)
Definition dd_outcome_eq (x y : Z * DFloat) : outcome bool :=
  if fst x =? fst y then dd_eq (snd x) (snd y) else Ret false.
Definition dd_outcome_cmp (x y : Z * DFloat) : outcome (option comparison) :=
  match status_cmp (fst x) (fst y) with
  | Eq => dd_partial_cmp (snd x) (snd y)
  | c => Ret (Some c)
  end.
(** src/lib.rs:102-110 [unpack!(status |=, e)], for one result after the other *)
Definition accumulate (st : Z) (es : list (Z * Float)) : Z := fold_left (fun st e => flags_union st (fst e)) es st.

(** ** The flags of a status *)
Definition flag (f : Z) : Prop := In f [INVALID_OP; DIV_BY_ZERO; OVERFLOW; UNDERFLOW; INEXACT].
(** a set of those five flags *)
Definition is_status (a : Z) : Prop := 0 <= a < 32.

Lemma flag_power : forall f, flag f -> exists k, 0 <= k < 5 /\ f = 2 ^ k.
Proof.
  intros f [<-|[<-|[<-|[<-|[<-|[]]]]]]; [exists 0|exists 1|exists 2|exists 3|exists 4]; (split; [lia|reflexivity]).
Qed.
Lemma power_flag : forall k, 0 <= k < 5 -> flag (2 ^ k).
Proof.
  intros k H. assert (C : k = 0 \/ k = 1 \/ k = 2 \/ k = 3 \/ k = 4) by lia.
  destruct C as [->|[->|[->|[->| ->]]]]; vm_compute; tauto.
Qed.
Lemma raised_bit : forall k a, 0 <= k -> (raised (2 ^ k) a <-> Z.testbit a k = true).
Proof.
  intros k a Hk. unfold raised. split; intros H.
  - destruct (Z.testbit a k) eqn:T; [reflexivity|]. destruct H. apply Z.bits_inj'. intros n Hn. rewrite Z.land_spec, Z.pow2_bits_eqb, Z.bits_0 by exact Hk.
    destruct (Z.eqb_spec k n) as [<-|N]; [rewrite T; reflexivity|apply andb_false_r].
  - intros E. pose proof (Z.land_spec a (2 ^ k) k) as L. rewrite E, Z.bits_0, H, Z.pow2_bits_true in L by exact Hk. discriminate L.
Qed.
Lemma status_bits : forall a, is_status a <-> (forall n, 0 <= n -> Z.testbit a n = true -> n < 5) /\ 0 <= a.
Proof.
  intros a. unfold is_status. split.
  - intros [A B]. split; [|exact A]. intros n Hn T. destruct (Z_lt_le_dec n 5) as [L|L]; [exact L|].
    destruct (Z.eq_dec a 0) as [->|N0]; [rewrite Z.bits_0 in T; discriminate T|].
    rewrite (Z.bits_above_log2 a n A) in T; [discriminate T|]. apply Z.lt_le_trans with 5; [|exact L]. apply Z.log2_lt_pow2; [lia|exact B].
  - intros [T A]. split; [exact A|]. destruct (Z_lt_le_dec a 32) as [L|L]; [exact L|]. exfalso.
    assert (P : 0 < a) by lia. assert (5 <= Z.log2 a) by (apply Z.log2_le_pow2; [exact P|exact L]).
    pose proof (T (Z.log2 a) (Z.log2_nonneg a) (Z.bit_log2 a P)). lia.
Qed.
(** a status is determined by its flags *)
Theorem flags_determine : forall a b, is_status a -> is_status b -> (forall f, flag f -> (raised f a <-> raised f b)) -> a = b.
Proof.
  intros a b Ha Hb H. apply Z.bits_inj'. intros n Hn. apply status_bits in Ha, Hb. destruct Ha as [Ha _], Hb as [Hb _].
  apply eq_true_iff_eq. split; intros T.
  - pose proof (Ha n Hn T) as L. apply (raised_bit n b Hn), (H _ (power_flag n (conj Hn L))), (raised_bit n a Hn), T.
  - pose proof (Hb n Hn T) as L. apply (raised_bit n a Hn), (H _ (power_flag n (conj Hn L))), (raised_bit n b Hn), T.
Qed.
Lemma bit255 : forall n, 0 <= n < 5 -> Z.testbit 255 n = true.
Proof.
  intros n H. assert (C : n = 0 \/ n = 1 \/ n = 2 \/ n = 3 \/ n = 4) by lia. destruct C as [->|[->|[->|[->| ->]]]]; reflexivity.
Qed.
Lemma bit31 : forall n, 0 <= n < 5 -> Z.testbit flags_all n = true.
Proof.
  intros n H. assert (C : n = 0 \/ n = 1 \/ n = 2 \/ n = 3 \/ n = 4) by lia. destruct C as [->|[->|[->|[->| ->]]]]; reflexivity.
Qed.
Theorem flags_operations : forall a b f, is_status a -> is_status b -> flag f ->
  (raised f (flags_union a b) <-> raised f a \/ raised f b) /\
  (raised f (flags_intersection a b) <-> raised f a /\ raised f b) /\
  (raised f (flags_difference a b) <-> raised f a /\ ~ raised f b) /\
  (raised f (flags_symmetric a b) <-> (raised f a <-> ~ raised f b)) /\
  (raised f (flags_complement a) <-> ~ raised f a) /\ raised f flags_all.
Proof.
  intros a b f Ha Hb Hf. destruct (flag_power f Hf) as [k [Hk ->]]. assert (K : 0 <= k) by lia.
  rewrite !raised_bit by exact K. unfold flags_union, flags_intersection, flags_difference, flags_symmetric, flags_complement, flags_truncate.
  rewrite Z.lor_spec, !Z.land_spec, !Z.lxor_spec, (bit255 k Hk), (bit31 k Hk).
  destruct (Z.testbit a k), (Z.testbit b k); cbn; repeat split; try tauto; try discriminate; intros; try discriminate; try tauto; intuition discriminate.
Qed.
Theorem flags_closed : forall a b, is_status a -> is_status b ->
  is_status (flags_union a b) /\ is_status (flags_intersection a b) /\ is_status (flags_difference a b) /\
  is_status (flags_symmetric a b) /\ is_status (flags_complement a) /\ is_status flags_all.
Proof.
  intros a b Ha Hb. pose proof (proj1 (status_bits a) Ha) as [Ta Pa]. pose proof (proj1 (status_bits b) Hb) as [Tb Pb].
  rewrite !status_bits. unfold flags_union, flags_intersection, flags_difference, flags_symmetric, flags_complement, flags_truncate.
  assert (X : 0 <= Z.lxor b 255) by (apply Z.lxor_nonneg; lia). assert (Y : 0 <= Z.lxor a b) by (apply Z.lxor_nonneg; lia).
  assert (A0 : is_status flags_all) by (vm_compute; split; [discriminate|reflexivity]). apply status_bits in A0. destruct A0 as [TA PA].
  repeat split; try exact TA; try exact PA; try (intros n Hn; rewrite ?Z.lor_spec, ?Z.land_spec, ?Z.lxor_spec; intros T).
  - apply orb_true_iff in T. destruct T as [T|T]; auto.
  - apply Z.lor_nonneg. auto.
  - apply andb_true_iff in T. apply Ta; tauto.
  - apply Z.land_nonneg. auto.
  - apply andb_true_iff in T. apply Ta; tauto.
  - apply Z.land_nonneg. auto.
  - destruct (Z.testbit a n) eqn:E; [apply Ta; assumption|]. rewrite xorb_false_l in T. apply Tb; assumption.
  - exact Y.
  - apply andb_true_iff in T. apply TA; tauto.
  - apply Z.land_nonneg. auto.
Qed.
Theorem flags_queries : forall a b, is_status a -> is_status b ->
  (flags_contains a b = true <-> forall f, flag f -> raised f b -> raised f a) /\
  (flags_intersects a b = true <-> exists f, flag f /\ raised f a /\ raised f b) /\
  (flags_is_empty a = true <-> forall f, flag f -> ~ raised f a) /\
  (flags_contains a b = true -> status_cmp b a <> Gt).
Proof.
  intros a b Ha Hb. pose proof (flags_closed a b Ha Hb) as [_ [CI _]].
  assert (FI : forall f, flag f -> (raised f (Z.land a b) <-> raised f a /\ raised f b)) by (intros f Hf; apply (flags_operations a b f Ha Hb Hf)).
  assert (Z0 : is_status 0) by (unfold is_status; lia). assert (NR : forall f, ~ raised f 0) by (intros f; unfold raised; rewrite Z.land_0_l; tauto).
  assert (E1 : flags_contains a b = true <-> forall f, flag f -> raised f b -> raised f a).
  { unfold flags_contains. rewrite Z.eqb_eq. split.
    - intros E f Hf R. apply (FI f Hf). rewrite E. exact R.
    - intros H. apply flags_determine; [exact CI|exact Hb|]. intros f Hf. rewrite (FI f Hf). split; [tauto|]. intros R. split; [exact (H f Hf R)|exact R]. }
  assert (SOME : forall c, is_status c -> c <> 0 -> exists f, flag f /\ raised f c).
  { intros c Hc N. assert (P : 0 < c) by (unfold is_status in Hc; lia). pose proof (Z.bit_log2 c P) as B. pose proof (Z.log2_nonneg c) as L.
    pose proof (proj1 (proj1 (status_bits c) Hc) _ L B) as L5. exists (2 ^ Z.log2 c). split; [apply power_flag; lia|]. apply raised_bit; assumption. }
  split; [exact E1|]. split; [|split].
  - unfold flags_intersects. rewrite negb_true_iff, Z.eqb_neq. split.
    + intros N. destruct (SOME _ CI N) as [f [Hf R]]. exists f. split; [exact Hf|]. apply (FI f Hf), R.
    + intros [f [Hf R]] E. apply (FI f Hf) in R. rewrite E in R. exact (NR f R).
  - unfold flags_is_empty. rewrite Z.eqb_eq. split.
    + intros -> f _. apply NR.
    + intros H. destruct (Z.eq_dec a 0) as [E|N]; [exact E|]. destruct (SOME a Ha N) as [f [Hf R]]. destruct (H f Hf R).
  - unfold flags_contains, status_cmp. rewrite Z.eqb_eq. intros E G. apply Z.compare_gt_iff in G. unfold is_status in Ha, Hb.
    assert (Z.land a b <= a); [|lia]. rewrite <- (Z.add_0_r (Z.land a b)). pose proof (Z.land_nonneg a (Z.lnot b)) as LN.
    rewrite <- (Z.lor_ldiff_and a b) at 2. rewrite <- Z.lxor_lor, <- Z.add_nocarry_lxor.
    + assert (0 <= Z.ldiff a b) by (apply Z.ldiff_nonneg; lia). lia.
    + apply Z.bits_inj'. intros n Hn. rewrite Z.land_spec, Z.ldiff_spec, Z.land_spec, Z.bits_0. destruct (Z.testbit a n), (Z.testbit b n); reflexivity.
    + apply Z.bits_inj'. intros n Hn. rewrite Z.land_spec, Z.ldiff_spec, Z.land_spec, Z.bits_0. destruct (Z.testbit a n), (Z.testbit b n); reflexivity.
Qed.
(** flags are never lost, and only those of some result are there *)
Theorem accumulate_spec : forall es st, is_status st -> (forall e, In e es -> is_status (fst e)) ->
  is_status (accumulate st es) /\
  forall f, flag f -> (raised f (accumulate st es) <-> raised f st \/ exists e, In e es /\ raised f (fst e)).
Proof.
  induction es as [|e es IH]; intros st Hs He; unfold accumulate; cbn [fold_left].
  - split; [exact Hs|]. intros f _. split; [tauto|]. intros [R|[e [[] _]]]. exact R.
  - assert (H1 : is_status (fst e)) by (apply He; left; reflexivity).
    destruct (IH (flags_union st (fst e)) (proj1 (flags_closed _ _ Hs H1)) (fun e' I => He e' (or_intror I))) as [A B]. split; [exact A|].
    intros f Hf. fold (accumulate (flags_union st (fst e)) es). rewrite (B f Hf), (proj1 (flags_operations st (fst e) f Hs H1 Hf)). split.
    + intros [[R|R]|[e' [I R]]]; [left; exact R|right; exists e; split; [left; reflexivity|exact R]|right; exists e'; split; [right; exact I|exact R]].
    + intros [R|[e' [[<-|I] R]]]; [tauto|tauto|right; exists e'; auto].
Qed.
Theorem from_bits_spec : forall b, 0 <= b < 256 -> flags_from_bits b = if b <? 32 then Some b else None.
Proof.
  intros b Hb. unfold flags_from_bits, flags_truncate. change flags_all with (Z.ones 5). rewrite Z.land_ones by lia. change (2 ^ 5) with 32.
  destruct (Z.ltb_spec b 32) as [L|L].
  - rewrite Z.mod_small by lia. rewrite Z.eqb_refl. reflexivity.
  - pose proof (Z.mod_pos_bound b 32). destruct (Z.eqb_spec (b mod 32) b) as [E|E]; [lia|reflexivity].
Qed.

(** ** Comparing results together with their statuses *)
Theorem outcome_eq_spec : forall S s t x y, sem_ok S -> wf S x -> wf S y ->
  exists b, outcome_eq (s, x) (t, y) = Ret b /\ (b = true <-> s = t /\ exists a, ext_of S x = Some a /\ ext_of S y = Some a).
Proof.
  intros S s t x y HS Wx Wy. unfold outcome_eq. cbn [fst snd]. destruct (Z.eqb_spec s t) as [E|N].
  - destruct (eq_f_spec S x y HS Wx Wy) as [b [Eb H]]. exists b. split; [exact Eb|]. rewrite H. tauto.
  - exists false. split; [reflexivity|]. split; [discriminate|tauto].
Qed.
Theorem outcome_cmp_total : forall S s t x y, sem_ok S -> wf S x -> wf S y ->
  exists r, outcome_cmp (s, x) (t, y) = Ret r /\ (r = None <-> s = t /\ (category x = NaN \/ category y = NaN)) /\
    (r = Some Eq <-> outcome_eq (s, x) (t, y) = Ret true) /\
    (r = Some Lt <-> s < t \/ s = t /\ exists a b, ext_of S x = Some a /\ ext_of S y = Some b /\ ext_lt a b).
Proof.
  intros S s t x y HS Wx Wy. unfold outcome_cmp, outcome_eq, status_cmp. cbn [fst snd]. destruct (Z.compare_spec s t) as [E|L|L].
  - subst t. rewrite Z.eqb_refl. destruct (partial_cmp_spec S x y HS Wx Wy) as [r [Er H]]. exists r. split; [exact Er|]. unfold eq_f. rewrite Er. cbn [bind]. split; [|split].
    + pose proof (ext_of_none S x) as Nx. pose proof (ext_of_none S y) as Ny. destruct (ext_of S x) as [a|], (ext_of S y) as [b|], r as [c|]; try contradiction;
        (split; [intros Q|intros [_ Q]]); try discriminate Q; try reflexivity; try (split; [reflexivity|]; tauto).
      destruct Q as [Q|Q]; [apply Nx in Q|apply Ny in Q]; discriminate Q.
    + destruct r as [[]|]; split; intros Q; try discriminate Q; reflexivity.
    + destruct (lt_f_spec S x y HS Wx Wy) as [b [Eb Hb]]. unfold lt_f in Eb. rewrite Er in Eb. cbn [bind] in Eb. injection Eb as Eb.
      transitivity (b = true); [rewrite <- Eb; destruct r as [[]|]; split; intros Q; try discriminate Q; reflexivity|]. rewrite Hb. split; [intros Q; right; split; [reflexivity|exact Q]|].
      intros [Q|[_ Q]]; [lia|exact Q].
  - exists (Some Lt). split; [reflexivity|]. replace (s =? t) with false by (symmetry; apply Z.eqb_neq; lia). split; [|split; [|tauto]]; (split; [discriminate|]); [intros [Q _]; lia|discriminate].
  - exists (Some Gt). split; [reflexivity|]. replace (s =? t) with false by (symmetry; apply Z.eqb_neq; lia). split; [|split]; (split; [discriminate|]); [intros [Q _]; lia|discriminate|intros [Q|[Q _]]; lia].
Qed.
Theorem outcome_cmp_dual : forall S s t x y c, sem_ok S -> wf S x -> wf S y ->
  outcome_cmp (s, x) (t, y) = Ret (Some c) -> outcome_cmp (t, y) (s, x) = Ret (Some (CompOpp c)).
Proof.
  intros S s t x y c HS Wx Wy. unfold outcome_cmp, status_cmp. cbn [fst snd]. rewrite (Z.compare_antisym s t).
  destruct (s ?= t); cbn [CompOpp]; intros E; [exact (partial_cmp_antisym S x y c HS Wx Wy E)| |]; injection E as <-; reflexivity.
Qed.
Theorem outcome_cmp_trans : forall S s t u x y z c d, sem_ok S -> wf S x -> wf S y -> wf S z ->
  outcome_cmp (s, x) (t, y) = Ret (Some c) -> outcome_cmp (t, y) (u, z) = Ret (Some d) -> c <> Gt -> d <> Gt ->
  exists e, outcome_cmp (s, x) (u, z) = Ret (Some e) /\ e <> Gt /\ (e = Eq <-> c = Eq /\ d = Eq).
Proof.
  intros S s t u x y z c d HS Wx Wy Wz. unfold outcome_cmp, status_cmp. cbn [fst snd]. destruct (Z.compare_spec s t) as [E|L|L], (Z.compare_spec t u) as [E'|L'|L']; intros E1 E2 N1 N2;
    try (exfalso; congruence).
  - subst. rewrite Z.compare_refl. exact (partial_cmp_trans S x y z c d HS Wx Wy Wz E1 E2 N1 N2).
  - assert (d = Lt) by congruence. subst s d. rewrite (proj2 (Z.compare_lt_iff t u) L'). exists Lt. repeat split; try discriminate. intros [_ Q]; discriminate Q.
  - assert (c = Lt) by congruence. subst u c. rewrite (proj2 (Z.compare_lt_iff s t) L). exists Lt. repeat split; try discriminate. intros [Q _]; discriminate Q.
  - assert (c = Lt) by congruence. subst c. rewrite (proj2 (Z.compare_lt_iff s u) (Z.lt_trans _ _ _ L L')). exists Lt. repeat split; try discriminate. intros [Q _]; discriminate Q.
Qed.
(** [x.add_r(y, m) == Status::OK.and(z)], as a test would write it: true if and only if z is the exact result *)
Theorem expected_exact : forall S o m x y z, sem_ok S -> wf S x -> wf S y -> wf S z -> finite x -> finite y -> finite z -> (o = Div -> category y = Normal) ->
  exists b, (let! r := op_r o S m x y in outcome_eq r (OK, z)) = Ret b /\ (b = true <-> real_op o (value S x) (value S y) = value S z).
Proof.
  intros S o m x y z HS Wx Wy Wz Fx Fy Fz Hd. set (v := real_op o (value S x) (value S y)).
  assert (C : exists zs res, op_r o S m x y = Ret res /\ crate_rounded S m v zs res).
  { destruct o; cbn [op_r real_op] in *; subst v; eexists; [apply add_r_crate|apply sub_r_crate|apply mul_r_crate|apply div_r_crate]; auto. }
  destruct C as [zs [[st f] [E D]]]. rewrite E. cbn [bind]. assert (Wf : wf S f) by apply D.
  destruct (outcome_eq_spec S st OK f z HS Wf Wz) as [b [Eb H]]. exists b. split; [exact Eb|]. rewrite H. split.
  - intros [-> [a [Xf Xz]]]. rewrite (ext_of_finite S z Fz) in Xz.
    destruct D as [_ [_ [D1 D2]]]. destruct (Rle_lt_dec (Rabs (rounded S m v)) (max_finite S)) as [L|L].
    + destruct (D1 L) as [Ff [Vf [_ [D3 D4]]]]. rewrite (ext_of_finite S f Ff) in Xf. assert (Q : value S f = value S z) by congruence. rewrite <- Q, Vf.
      destruct (Req_dec (rounded S m v) v) as [G|G]; [symmetry; exact G|]. destruct (Rle_lt_dec (min_normal S) (Rabs (rounded S m v))) as [A|A]; [pose proof (D3 G A) as B|pose proof (D4 G A) as B]; discriminate B.
    + specialize (D2 L). destruct (crate_to_infinity S m v (sign f)); destruct D2 as [B _]; discriminate B.
  - intros Q. assert (RP : representable S v) by (rewrite Q; split; [apply value_format; assumption|apply value_le_max; assumption]).
    destruct (Eft.exactly S m v zs (Ret (st, f)) HS RP) as [f' [E' [_ [Ff V]]]]; [exists (st, f); auto|]. assert (Q1 : st = OK /\ f' = f) by (split; congruence). destruct Q1 as [-> ->].
    split; [reflexivity|]. exists (Fin (value S z)). rewrite (ext_of_finite S f Ff), (ext_of_finite S z Fz), V, Q. auto.
Qed.

(** ** The same for pairs *)
Theorem dd_outcome_eq_spec : forall F, pair_ok F -> forall s t x y, proper_pair F x -> proper_pair F y ->
  exists b, dd_outcome_eq (s, x) (t, y) = Ret b /\ (b = true <-> s = t /\ exists a, pair_number F x = Some a /\ pair_number F y = Some a).
Proof.
  intros F HF s t x y Wx Wy. unfold dd_outcome_eq. cbn [fst snd]. destruct (Z.eqb_spec s t) as [E|N].
  - destruct (dd_eq_spec F HF x y Wx Wy) as [b [Eb H]]. exists b. split; [exact Eb|]. rewrite H. tauto.
  - exists false. split; [reflexivity|]. split; [discriminate|tauto].
Qed.
Theorem dd_outcome_cmp_spec : forall F, pair_ok F -> forall s t x y, proper_pair F x -> proper_pair F y ->
  exists r, dd_outcome_cmp (s, x) (t, y) = Ret r /\
    (r = None <-> s = t /\ (pair_number F x = None \/ pair_number F y = None)) /\
    (r = Some Eq <-> dd_outcome_eq (s, x) (t, y) = Ret true) /\
    (r = Some Lt <-> s < t \/ s = t /\ exists a b, pair_number F x = Some a /\ pair_number F y = Some b /\ ext_lt a b) /\
    (r = Some Gt <-> t < s \/ s = t /\ exists a b, pair_number F x = Some a /\ pair_number F y = Some b /\ ext_lt b a).
Proof.
  intros F HF s t x y Wx Wy. destruct (dd_outcome_eq_spec F HF s t x y Wx Wy) as [b [Eb Hb]]. rewrite Eb.
  assert (RB : Ret b = Ret true <-> b = true) by (split; [intros Q; congruence|intros ->; reflexivity]). setoid_rewrite RB. setoid_rewrite Hb. clear RB Eb Hb.
  unfold dd_outcome_cmp, status_cmp. cbn [fst snd]. destruct (Z.compare_spec s t) as [E|L|L].
  - subst t. destruct (dd_partial_cmp_spec F HF x y Wx Wy) as [r [Er H]]. exists r. split; [exact Er|].
    destruct (pair_number F x) as [a|], (pair_number F y) as [c|], r as [d|]; try contradiction.
    + assert (U : forall e, ext_compare a c e -> d = e) by (intros e K; exact (ext_compare_unique a c d e H K)).
      repeat split; try discriminate; try (intros [_ [Q|Q]]; discriminate Q).
      * assert (d = Eq) by congruence. subst d. cbn in H. subst c. exists a. auto.
      * intros [_ [e [Q1 Q2]]]. f_equal. apply U. cbn. congruence.
      * intros Q. assert (d = Lt) by congruence. subst d. right. split; [reflexivity|]. exists a, c. auto.
      * intros [Q|[_ [e [g [Q1 [Q2 Q3]]]]]]; [lia|]. f_equal. apply U. cbn. congruence.
      * intros Q. assert (d = Gt) by congruence. subst d. right. split; [reflexivity|]. exists a, c. auto.
      * intros [Q|[_ [e [g [Q1 [Q2 Q3]]]]]]; [lia|]. f_equal. apply U. cbn. congruence.
    + repeat split; try discriminate; auto; try (intros [_ [e [Q1 Q2]]]; discriminate); intros [Q|[_ [e [g [Q1 [Q2 Q3]]]]]]; try lia; discriminate.
    + repeat split; try discriminate; auto; try (intros [_ [e [Q1 Q2]]]; discriminate); intros [Q|[_ [e [g [Q1 [Q2 Q3]]]]]]; try lia; discriminate.
    + repeat split; try discriminate; auto; try (intros [_ [e [Q1 Q2]]]; discriminate); intros [Q|[_ [e [g [Q1 [Q2 Q3]]]]]]; try lia; discriminate.
  - exists (Some Lt). split; [reflexivity|]. repeat split; try discriminate; auto; try (intros [Q _]; lia). intros [Q|[Q _]]; lia.
  - exists (Some Gt). split; [reflexivity|]. repeat split; try discriminate; auto; try (intros [Q _]; lia). intros [Q|[Q _]]; lia.
Qed.
