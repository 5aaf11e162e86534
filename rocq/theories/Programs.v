(** * Programs.v -- the machine of SpecPrograms.v on the crate's numbers, and the simulation

    The machine is a client of the crate: every instruction calls one public
    operation (cited below) and throws its status away. *)
From Coq Require Import ZArith List.
From Flocq Require Import Core.
From Flocq Require BinarySingleNaN.
From Verif Require Import Machine Ieee Spec Flocq754 FlocqSamples SpecPrograms.
Import ListNotations.
Local Open Scope Z_scope.
Ltac Zify.zify_post_hook ::= idtac.

(** src/ieee.rs:1009 [add_r], 1070 [sub_r], 1080 [mul_r], 1234 [div_r]: the value of the [StatusAnd] *)
Definition c_binary (op : binary) (F : Semantics) (m : Round) (x y : Float) : outcome Float :=
  let! '(_, r) := match op with
                  | Add => add_r F x y m | Sub => sub_r F x y m | Mul => mul_r F x y m | Div => div_r F x y m
                  end in
  Ret r.
(** src/ieee.rs:493 [neg], src/lib.rs:328 [abs], src/ieee.rs:1853 [scalbn_r], 1409 [round_to_integral],
    1462 [next_up], src/lib.rs:324 [next_down] *)
Definition c_unary (op : unary) (F : Semantics) (x : Float) : outcome Float :=
  match op with
  | Neg => Ret (neg x)
  | Abs => Ret (abs x)
  | Scale n m => scalbn_r F x n m
  | Integral m => let! '(_, r) := round_to_integral F x m in Ret r
  | Up => let! '(_, r) := next_up F x in Ret r
  | Down => let! '(_, r) := next_down F x in Ret r
  end.
Record c_state := { c_pc : nat; c_regs : nat -> format * Float }.
(** besides, src/lib.rs:345 [from_i128_r], src/ieee.rs:1898 [convert_r] and 458 [partial_cmp]; where the generic types of Rust
    forbid an operation (operands of two formats) the machine stops *)
Definition c_step (prog : list instruction) (s : c_state) : outcome (option c_state) :=
  let r := c_regs s in
  let next dst f v := Ret (Some {| c_pc := S (c_pc s); c_regs := update r dst (f, v) |}) in
  match nth_error prog (c_pc s) with
  | None => Ret None
  | Some (Set_ dst f n m) => let! '(_, v) := from_i128_r (semantics_of f) n m in next dst f v
  | Some (Binary op dst a b m) =>
    if format_eq_dec (fst (r a)) (fst (r b))
    then let! v := c_binary op (semantics_of (fst (r b))) m (snd (r a)) (snd (r b)) in next dst (fst (r b)) v
    else Ret None
  | Some (Unary op dst a) => let! v := c_unary op (semantics_of (fst (r a))) (snd (r a)) in next dst (fst (r a)) v
  | Some (Convert dst f a m) =>
    let! '(_, v, _) := convert_r (semantics_of (fst (r a))) (semantics_of f) (snd (r a)) m in next dst f v
  | Some (Branch test a b target) =>
    if format_eq_dec (fst (r a)) (fst (r b))
    then let! c := partial_cmp (snd (r a)) (snd (r b)) in
         Ret (Some {| c_pc := if test c then target else S (c_pc s); c_regs := r |})
    else Ret None
  end.
Fixpoint c_run (n : nat) (prog : list instruction) (s : c_state) : outcome c_state :=
  match n with
  | O => Ret s
  | S n => let! o := c_step prog s in match o with Some s' => c_run n prog s' | None => Ret s end
  end.

(** ** The simulation *)
Definition same_any (x : format * Float) (b : any_number) : Prop :=
  fst x = projT1 b /\ same (semantics_of (projT1 b)) (snd x) (projT2 b).
Definition same_state (s : c_state) (t : b_state) : Prop :=
  c_pc s = b_pc t /\ forall i, same_any (c_regs s i) (b_regs t i).

Lemma format_ok : forall f, ieee_format (semantics_of f).
Proof. destruct flocq_formats as [A [B [C [D [E [G H]]]]]]. intros []; assumption. Qed.
Lemma update_same : forall (r : nat -> format * Float) (q : nat -> any_number) k v w,
  (forall i, same_any (r i) (q i)) -> same_any v w -> forall i, same_any (update r k v i) (update q k w i).
Proof. intros r q k v w H V i. unfold update. destruct (Nat.eqb i k); [exact V|apply H]. Qed.
Lemma binary_same : forall op f m x y (a b : number f), same (semantics_of f) x a -> same (semantics_of f) y b ->
  exists r, c_binary op (semantics_of f) m x y = Ret r /\ same (semantics_of f) r (b_binary op m a b).
Proof.
  intros op f m x y a b A B. pose proof (format_ok f) as HF. unfold c_binary.
  destruct op; [edestruct (@add_same _ HF (format_prec f) (format_emax f) x y a b m A B) as [st [r [E D]]]
    |edestruct (@sub_same _ HF (format_prec f) (format_emax f) x y a b m A B) as [st [r [E D]]]
    |edestruct (@mul_same _ HF (format_prec f) (format_emax f) x y a b m A B) as [st [r [E D]]]
    |edestruct (@div_same _ HF (format_prec f) (format_emax f) x y a b m A B) as [st [r [E D]]]];
    rewrite E; exists r; exact (conj eq_refl D).
Qed.
Lemma unary_same : forall op f x (a : number f), same (semantics_of f) x a ->
  exists r, c_unary op (semantics_of f) x = Ret r /\ same (semantics_of f) r (b_unary op a).
Proof.
  intros op f x a A. pose proof (format_ok f) as HF. destruct op as [| |n m|m| |]; unfold c_unary, b_unary.
  - exists (neg x). split; [reflexivity|]. apply neg_same; assumption.
  - exists (abs x). split; [reflexivity|]. apply abs_same; assumption.
  - apply scalbn_same; assumption.
  - destruct (@integral_same _ HF (format_emax f) x a m A) as [st [r [E D]]]. rewrite E. exists r. exact (conj eq_refl D).
  - destruct (@next_up_same _ HF (format_prec f) (format_emax f) x a A) as [st [r [E D]]]. rewrite E. exists r. exact (conj eq_refl D).
  - destruct (@next_down_same _ HF (format_prec f) (format_emax f) x a A) as [st [r [E D]]]. rewrite E. exists r. exact (conj eq_refl D).
Qed.

Lemma step_same : forall prog s t, (forall i, In i prog -> in_range i) -> same_state s t ->
  match b_step prog t with
  | Some t' => exists s', c_step prog s = Ret (Some s') /\ same_state s' t'
  | None => c_step prog s = Ret None
  end.
Proof.
  intros prog s t R [PC H]. unfold b_step, c_step. rewrite <- PC.
  destruct (nth_error prog (c_pc s)) as [i|] eqn:N; [|reflexivity].
  specialize (R i (nth_error_In _ _ N)). destruct i as [dst f n m|op dst a b m|op dst a|dst f a m|test a b target].
  - destruct (@from_i128_same _ (format_ok f) (format_prec f) (format_emax f) n m R) as [st [r [E D]]]. rewrite E. cbn [bind].
    eexists. split; [reflexivity|]. split; [reflexivity|]. cbn [c_regs b_regs]. apply update_same; [exact H|]. exact (conj eq_refl D).
  - destruct (H a) as [Fa Sa], (H b) as [Fb Sb]. rewrite Fa, Fb.
    destruct (c_regs s a) as [fx x], (c_regs s b) as [fy y], (b_regs t a) as [ga u], (b_regs t b) as [gb v]. cbn [fst snd projT1 projT2] in *.
    subst fx fy. destruct (format_eq_dec ga gb) as [e|ne]; [|reflexivity]. destruct e. cbn [cast eq_rect].
    destruct (binary_same op ga m x y u v Sa Sb) as [r [E D]]. rewrite E. cbn [bind].
    eexists. split; [reflexivity|]. split; [reflexivity|]. cbn [c_regs b_regs]. apply update_same; [exact H|]. exact (conj eq_refl D).
  - destruct (H a) as [Fa Sa]. rewrite Fa. destruct (unary_same op _ _ _ Sa) as [r [E D]]. rewrite E. cbn [bind].
    eexists. split; [reflexivity|]. split; [reflexivity|]. cbn [c_regs b_regs]. apply update_same; [exact H|]. exact (conj eq_refl D).
  - destruct (H a) as [Fa Sa]. rewrite Fa.
    destruct (convert_same _ _ (format_ok (projT1 (b_regs t a))) (format_ok f) (format_prec f) (format_emax f) _ _ m Sa) as [st [r [l [E D]]]].
    rewrite E. cbn [bind].
    eexists. split; [reflexivity|]. split; [reflexivity|]. cbn [c_regs b_regs]. apply update_same; [exact H|]. exact (conj eq_refl D).
  - destruct (H a) as [Fa Sa], (H b) as [Fb Sb].
    assert (G : forall (x y : format * Float) (u v : any_number), same_any x u -> same_any y v ->
      match format_eq_dec (projT1 u) (projT1 v) with
      | left e => exists k, format_eq_dec (fst x) (fst y) = left k /\
          partial_cmp (snd x) (snd y) = Ret (BinarySingleNaN.Bcompare (cast e (projT2 u)) (projT2 v))
      | right _ => exists k, format_eq_dec (fst x) (fst y) = right k
      end).
    { intros [fx x] [fy y] [ga u] [gb v] [A1 A2] [B1 B2]. cbn [fst snd projT1 projT2] in *. subst fx fy.
      destruct (format_eq_dec ga gb) as [e|ne]; [|exists ne; reflexivity]. exists e. split; [reflexivity|]. destruct e. cbn [cast eq_rect].
      apply (cmp_same _ (format_ok ga)); assumption. }
    specialize (G _ _ _ _ (H a) (H b)).
    destruct (format_eq_dec (projT1 (b_regs t a)) (projT1 (b_regs t b))) as [e|ne]; destruct G as [k G].
    + destruct G as [G C]. rewrite G, C. cbn [bind]. eexists. split; [reflexivity|]. split; [reflexivity|exact H].
    + rewrite G. reflexivity.
Qed.
Lemma run_same : forall n prog s t, (forall i, In i prog -> in_range i) -> same_state s t ->
  exists s', c_run n prog s = Ret s' /\ same_state s' (b_run n prog t).
Proof.
  induction n as [|n IH]; intros prog s t R H; cbn [c_run b_run].
  - exists s. exact (conj eq_refl H).
  - pose proof (step_same prog s t R H) as D. destruct (b_step prog t) as [t'|].
    + destruct D as [s' [E D]]. rewrite E. cbn [bind]. apply IH; assumption.
    + rewrite D. cbn [bind]. exists s. exact (conj eq_refl H).
Qed.
(** registers holding floats, whatever they are *)
Definition good_state (s : c_state) : Prop := forall i, wf (semantics_of (fst (c_regs s i))) (snd (c_regs s i)).
Lemma good_same : forall s, good_state s -> exists t, same_state s t.
Proof.
  intros s W.
  exists {| b_pc := c_pc s; b_regs := fun i => existT number (fst (c_regs s i)) (to_b _ (format_ok (fst (c_regs s i))) (snd (c_regs s i)) (W i)) |}.
  split; [reflexivity|]. intros i. split; [reflexivity|]. apply (same_to_b _ (format_ok _)).
Qed.
Lemma same_good : forall s t, same_state s t -> good_state s.
Proof. intros s t [_ H] i. destruct (H i) as [E [W _]]. rewrite E. exact W. Qed.
Lemma same_reached : forall t, exists s, same_state s t.
Proof.
  intros t. exists {| c_pc := b_pc t; c_regs := fun i => (projT1 (b_regs t i), of_b _ (projT2 (b_regs t i))) |}.
  split; [reflexivity|]. intros i. split; [reflexivity|]. apply (same_of_b _ (format_ok _)).
Qed.
Lemma run_total : forall n prog s, (forall i, In i prog -> in_range i) -> good_state s ->
  exists s', c_run n prog s = Ret s' /\ good_state s'.
Proof.
  intros n prog s R W. destruct (good_same s W) as [t H]. destruct (run_same n prog s t R H) as [s' [E D]].
  exists s'. split; [exact E|]. exact (same_good _ _ D).
Qed.
Lemma run_stops : forall n prog s t s', (forall i, In i prog -> in_range i) -> same_state s t ->
  c_run n prog s = Ret s' -> (c_step prog s' = Ret None <-> b_step prog (b_run n prog t) = None).
Proof.
  intros n prog s t s' R H E. destruct (run_same n prog s t R H) as [q [E' D]]. assert (q = s') by congruence. subst q.
  pose proof (step_same prog s' _ R D) as P. destruct (b_step prog (b_run n prog t)) as [u|].
  - destruct P as [q [P _]]. rewrite P. split; discriminate.
  - split; [reflexivity|]. intros _. exact P.
Qed.
(** states that differ at most in NaN payloads and signs of NaNs *)
Definition alike (s q : c_state) : Prop := c_pc s = c_pc q /\ forall i,
  let x := snd (c_regs s i) in let y := snd (c_regs q i) in
  fst (c_regs s i) = fst (c_regs q i) /\ category x = category y /\ (category x <> NaN -> sign x = sign y) /\ (category x = Normal -> x = y).
Lemma same_alike : forall s q t, same_state s t -> same_state q t -> alike s q.
Proof.
  intros s q t [P H] [P' H']. split; [congruence|]. intros i. destruct (H i) as [E D], (H' i) as [E' D'].
  split; [congruence|]. exact (same_injective _ _ _ _ D D').
Qed.
Lemma alike_same : forall s q t, good_state s -> good_state q -> alike s q -> same_state s t -> same_state q t.
Proof.
  intros s q t Ws Wq [P A] [Q H]. split; [congruence|]. intros i. destruct (A i) as [F [C [G E]]]. destruct (H i) as [E1 [W1 V1]].
  split; [congruence|]. pose proof (Wq i) as Wi. rewrite <- F, E1 in Wi. split; [exact Wi|]. rewrite <- V1. clear V1.
  unfold view. rewrite <- C. destruct (category (snd (c_regs s i))) eqn:K.
  - rewrite G; [reflexivity|discriminate].
  - reflexivity.
  - rewrite (E eq_refl). reflexivity.
  - rewrite G; [reflexivity|discriminate].
Qed.
Lemma run_alike : forall n prog s q, (forall i, In i prog -> in_range i) -> good_state s -> good_state q -> alike s q ->
  exists s' q', c_run n prog s = Ret s' /\ c_run n prog q = Ret q' /\ alike s' q'.
Proof.
  intros n prog s q R Ws Wq A. destruct (good_same s Ws) as [t H]. pose proof (alike_same s q t Ws Wq A H) as H'.
  destruct (run_same n prog s t R H) as [s' [E D]], (run_same n prog q t R H') as [q' [E' D']].
  exists s', q'. exact (conj E (conj E' (same_alike _ _ _ D D'))).
Qed.

(** ** A program: the root of 2 by Newton's method, in double precision, until the iterates stop
    falling; then narrowed to single precision.  Register 0: 2; 1: the iterate; 2: the next one. *)
Definition falls (c : option comparison) : bool := match c with Some Lt => true | _ => false end.
Definition newton : list instruction :=
  [Set_ 0 FDouble 2 NearestTiesToEven; Set_ 1 FDouble 2 NearestTiesToEven;
   Binary Div 2 0 1 NearestTiesToEven; Binary Add 2 1 2 NearestTiesToEven; Unary (Scale (-1) NearestTiesToEven) 2 2;
   Branch falls 2 1 7; Branch (fun _ => true) 1 1 9;
   Convert 1 FDouble 2 NearestTiesToEven; Branch (fun _ => true) 1 1 2;
   Convert 3 FSingle 1 TowardZero].
Definition start : c_state := {| c_pc := 0; c_regs := fun _ => (FHalf, ZERO HalfS) |}.
Definition b_start : b_state := {| b_pc := 0; b_regs := fun _ => existT number FHalf (BinarySingleNaN.B754_zero false) |}.
(** the same with NaNs in all registers, of two payloads *)
Definition start_nan (payload : Z) (sg : bool) : c_state := {| c_pc := 2; c_regs := fun _ => (FDouble, mkFloat payload 1024 NaN sg) |}.
