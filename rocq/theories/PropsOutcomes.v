(** * PropsOutcomes.v -- statuses as sets, results compared with their statuses (C92) *)
From Coq Require Import ZArith Reals List Bool Lra Lia.
From Flocq Require Import Core.
From Verif Require Import Machine Ieee Spec SpecPrograms SpecExpr Expr Ppc SpecPair Samples PairBase PairSamples Outcomes.
Import ListNotations.
Local Open Scope Z_scope.

(** ** C92: a status is a set of five flags; a result compares with its status first *)
Theorem C92_flags_determine : forall a b, is_status a -> is_status b -> (forall f, flag f -> (raised f a <-> raised f b)) -> a = b.
Proof. exact flags_determine. Qed.
Print Assumptions C92_flags_determine.
Theorem C92_operations : forall a b f, is_status a -> is_status b -> flag f ->
  (raised f (flags_union a b) <-> raised f a \/ raised f b) /\
  (raised f (flags_intersection a b) <-> raised f a /\ raised f b) /\
  (raised f (flags_difference a b) <-> raised f a /\ ~ raised f b) /\
  (raised f (flags_symmetric a b) <-> (raised f a <-> ~ raised f b)) /\
  (raised f (flags_complement a) <-> ~ raised f a) /\ raised f flags_all.
Proof. exact flags_operations. Qed.
Print Assumptions C92_operations.
Theorem C92_closed : forall a b, is_status a -> is_status b ->
  is_status (flags_union a b) /\ is_status (flags_intersection a b) /\ is_status (flags_difference a b) /\
  is_status (flags_symmetric a b) /\ is_status (flags_complement a) /\ is_status flags_all.
Proof. exact flags_closed. Qed.
Print Assumptions C92_closed.
Theorem C92_queries : forall a b, is_status a -> is_status b ->
  (flags_contains a b = true <-> forall f, flag f -> raised f b -> raised f a) /\
  (flags_intersects a b = true <-> exists f, flag f /\ raised f a /\ raised f b) /\
  (flags_is_empty a = true <-> forall f, flag f -> ~ raised f a) /\
  (flags_contains a b = true -> status_cmp b a <> Gt).
Proof. exact flags_queries. Qed.
Print Assumptions C92_queries.
Theorem C92_from_bits : forall b, 0 <= b < 256 -> flags_from_bits b = if b <? 32 then Some b else None.
Proof. exact from_bits_spec. Qed.
Print Assumptions C92_from_bits.
Theorem C92_accumulate : forall es st, is_status st -> (forall e, In e es -> is_status (fst e)) ->
  is_status (accumulate st es) /\
  forall f, flag f -> (raised f (accumulate st es) <-> raised f st \/ exists e, In e es /\ raised f (fst e)).
Proof. exact accumulate_spec. Qed.
Print Assumptions C92_accumulate.
Example C92_flags_example : is_status (Z.lor OVERFLOW INEXACT) /\ is_status (Z.lor UNDERFLOW INEXACT) /\ flag INEXACT /\
  flags_contains (Z.lor OVERFLOW INEXACT) INEXACT = true /\ flags_contains INEXACT (Z.lor OVERFLOW INEXACT) = false /\
  flags_intersects (Z.lor OVERFLOW INEXACT) (Z.lor UNDERFLOW INEXACT) = true /\ flags_complement (Z.lor OVERFLOW INEXACT) = 11 /\
  flags_from_bits 31 = Some 31 /\ flags_from_bits 32 = None /\
  accumulate OK [(INEXACT, h_one); (OK, h_one); (DIV_BY_ZERO, h_inf)] = Z.lor DIV_BY_ZERO INEXACT.
Proof. repeat split; try (vm_compute; congruence). right; right; right; right; left; reflexivity. Qed.

(** equality and order of [StatusAnd] *)
Theorem C92_eq : forall S s t x y, sem_ok S -> wf S x -> wf S y ->
  exists b, outcome_eq (s, x) (t, y) = Ret b /\ (b = true <-> s = t /\ exists a, ext_of S x = Some a /\ ext_of S y = Some a).
Proof. exact outcome_eq_spec. Qed.
Print Assumptions C92_eq.
Theorem C92_cmp : forall S s t x y, sem_ok S -> wf S x -> wf S y ->
  exists r, outcome_cmp (s, x) (t, y) = Ret r /\ (r = None <-> s = t /\ (category x = NaN \/ category y = NaN)) /\
    (r = Some Eq <-> outcome_eq (s, x) (t, y) = Ret true) /\
    (r = Some Lt <-> s < t \/ s = t /\ exists a b, ext_of S x = Some a /\ ext_of S y = Some b /\ ext_lt a b).
Proof. exact outcome_cmp_total. Qed.
Print Assumptions C92_cmp.
Theorem C92_cmp_dual : forall S s t x y c, sem_ok S -> wf S x -> wf S y ->
  outcome_cmp (s, x) (t, y) = Ret (Some c) -> outcome_cmp (t, y) (s, x) = Ret (Some (CompOpp c)).
Proof. exact outcome_cmp_dual. Qed.
Print Assumptions C92_cmp_dual.
Theorem C92_cmp_transitive : forall S s t u x y z c d, sem_ok S -> wf S x -> wf S y -> wf S z ->
  outcome_cmp (s, x) (t, y) = Ret (Some c) -> outcome_cmp (t, y) (u, z) = Ret (Some d) -> c <> Gt -> d <> Gt ->
  exists e, outcome_cmp (s, x) (u, z) = Ret (Some e) /\ e <> Gt /\ (e = Eq <-> c = Eq /\ d = Eq).
Proof. exact outcome_cmp_trans. Qed.
Print Assumptions C92_cmp_transitive.
(** comparing a result with [Status::OK.and(z)] tells exactly whether z is the exact result *)
Theorem C92_expected : forall S o m x y z, sem_ok S -> wf S x -> wf S y -> wf S z -> finite x -> finite y -> finite z -> (o = Div -> category y = Normal) ->
  exists b, (let! r := op_r o S m x y in outcome_eq r (OK, z)) = Ret b /\ (b = true <-> real_op o (value S x) (value S y) = value S z).
Proof. exact expected_exact. Qed.
Print Assumptions C92_expected.
(** 1 + 1 = 2 exactly; 1 / 3 is none of the numbers; a NaN is unordered only if the statuses agree; a larger number with a smaller status comes first *)
Example C92_example : wf HalfS h_one /\ wf HalfS h_qnan /\ wf HalfS h_max /\ finite h_one /\ category h_one = Normal /\
  (let! r := op_r Add HalfS NearestTiesToEven h_one h_one in outcome_eq r (OK, mkFloat 1024 1 Normal false)) = Ret true /\
  (let! r := op_r Add HalfS NearestTiesToEven h_one h_min in outcome_eq r (OK, h_one)) = Ret false /\
  outcome_eq (OK, h_zero) (OK, h_nzero) = Ret true /\ outcome_eq (OK, h_qnan) (OK, h_qnan) = Ret false /\
  outcome_cmp (OK, h_qnan) (INEXACT, h_qnan) = Ret (Some Lt) /\ outcome_cmp (OK, h_qnan) (OK, h_one) = Ret None /\
  outcome_cmp (OK, h_max) (INEXACT, h_one) = Ret (Some Lt) /\ outcome_cmp (OK, h_max) (OK, h_one) = Ret (Some Gt).
Proof.
  split; [exact h_one_wf|]. split; [sample_wf|]. split; [sample_wf|]. split; [left; reflexivity|]. vm_compute. repeat split.
Qed.

(** pairs *)
Theorem C92_pair_eq : forall F, pair_ok F -> forall s t x y, proper_pair F x -> proper_pair F y ->
  exists b, dd_outcome_eq (s, x) (t, y) = Ret b /\ (b = true <-> s = t /\ exists a, pair_number F x = Some a /\ pair_number F y = Some a).
Proof. exact dd_outcome_eq_spec. Qed.
Print Assumptions C92_pair_eq.
Theorem C92_pair_cmp : forall F, pair_ok F -> forall s t x y, proper_pair F x -> proper_pair F y ->
  exists r, dd_outcome_cmp (s, x) (t, y) = Ret r /\
    (r = None <-> s = t /\ (pair_number F x = None \/ pair_number F y = None)) /\
    (r = Some Eq <-> dd_outcome_eq (s, x) (t, y) = Ret true) /\
    (r = Some Lt <-> s < t \/ s = t /\ exists a b, pair_number F x = Some a /\ pair_number F y = Some b /\ ext_lt a b) /\
    (r = Some Gt <-> t < s \/ s = t /\ exists a b, pair_number F x = Some a /\ pair_number F y = Some b /\ ext_lt b a).
Proof. exact dd_outcome_cmp_spec. Qed.
Print Assumptions C92_pair_cmp.
Example C92_pair_example : pair_ok DoubleS /\ proper_pair DoubleS p_below /\ proper_pair DoubleS p_above /\ proper_pair DoubleS p_qnan /\
  dd_outcome_cmp (OK, p_below) (OK, p_above) = Ret (Some Lt) /\ dd_outcome_cmp (INEXACT, p_below) (OK, p_above) = Ret (Some Gt) /\
  dd_outcome_eq (OK, p_below) (INEXACT, p_below) = Ret false /\ dd_outcome_eq (OK, p_below) (OK, p_below) = Ret true /\
  dd_outcome_cmp (OK, p_qnan) (OK, p_above) = Ret None /\ dd_outcome_cmp (OK, p_qnan) (INEXACT, p_above) = Ret (Some Lt).
Proof.
  split; [exact double_pair|]. split; [apply canonical_proper, p_below_canonical|]. split; [apply canonical_proper, p_above_canonical|]. split; [exact p_qnan_proper|].
  vm_compute. repeat split.
Qed.
