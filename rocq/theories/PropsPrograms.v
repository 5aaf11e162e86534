(** * PropsPrograms.v -- whole programs, on the crate and on Flocq (C69) *)
From Coq Require Import ZArith List Bool.
From Flocq Require BinarySingleNaN.
From Verif Require Import Machine Ieee Spec Flocq754 SpecPrograms Programs.
Import ListNotations.
Local Open Scope Z_scope.

(** A program of any length, run for any number of steps from equal states, reaches equal
    states: the crate never panics, takes the same branches and leaves the same numbers. *)
Theorem C69_run : forall n prog s t, (forall i, In i prog -> in_range i) -> same_state s t ->
  exists s', c_run n prog s = Ret s' /\ same_state s' (b_run n prog t).
Proof. exact run_same. Qed.
Print Assumptions C69_run.
(** the two runs stop at the same time *)
Theorem C69_stops : forall n prog s t s', (forall i, In i prog -> in_range i) -> same_state s t ->
  c_run n prog s = Ret s' -> (c_step prog s' = Ret None <-> b_step prog (b_run n prog t) = None).
Proof. exact run_stops. Qed.
Print Assumptions C69_stops.
(** every state of the crate's machine has an equal one on the other side, and the other way round *)
Theorem C69_total : forall s, good_state s -> exists t, same_state s t.
Proof. exact good_same. Qed.
Print Assumptions C69_total.
Theorem C69_onto : forall t, exists s, same_state s t.
Proof. exact same_reached. Qed.
Print Assumptions C69_onto.
(** no program makes the crate panic, loop or leave an ill-formed float *)
Theorem C69_safe : forall n prog s, (forall i, In i prog -> in_range i) -> good_state s ->
  exists s', c_run n prog s = Ret s' /\ good_state s'.
Proof. exact run_total. Qed.
Print Assumptions C69_safe.
(** payloads and signs of NaNs never reach a number or a branch *)
Theorem C69_payload_blind : forall n prog s q, (forall i, In i prog -> in_range i) -> good_state s -> good_state q -> alike s q ->
  exists s' q', c_run n prog s = Ret s' /\ c_run n prog q = Ret q' /\ alike s' q'.
Proof. exact run_alike. Qed.
Print Assumptions C69_payload_blind.

(** Newton's method for the root of 2 ([newton] in Programs.v), with the crate and with Flocq *)
Example C69_newton_ok : (forall i, In i newton -> in_range i) /\ same_state start b_start.
Proof.
  split.
  - apply Forall_forall. repeat constructor; discriminate.
  - split; [reflexivity|]. intros i. split; [reflexivity|]. split; [|reflexivity]. vm_compute. repeat split; discriminate.
Qed.
Example C69_newton_crate : match c_run 60 newton start with
  | Ret s => c_pc s = 10%nat /\ c_regs s 1 = (FDouble, mkFloat 0x16A09E667F3BCC 0 Normal false) /\ c_regs s 3 = (FSingle, mkFloat 0xB504F3 0 Normal false)
  | _ => False end.
Proof. vm_compute. repeat split. Qed.
Example C69_newton_flocq : b_pc (b_run 60 newton b_start) = 10%nat /\
  BinarySingleNaN.B2SF (projT2 (b_regs (b_run 60 newton b_start) 1)) = SpecFloat.S754_finite false 0x16A09E667F3BCC (-52) /\
  BinarySingleNaN.B2SF (projT2 (b_regs (b_run 60 newton b_start) 3)) = SpecFloat.S754_finite false 0xB504F3 (-23).
Proof. vm_compute. repeat split. Qed.
(** with NaNs for numbers the loop is left at once *)
Example C69_nan_ok : good_state (start_nan 0x8000000000000 false) /\ good_state (start_nan 0xC000000000123 true) /\
  alike (start_nan 0x8000000000000 false) (start_nan 0xC000000000123 true).
Proof.
  split; [|split].
  - intros i. vm_compute. repeat split; discriminate.
  - intros i. vm_compute. repeat split; discriminate.
  - split; [reflexivity|]. intros i. split; [reflexivity|]. split; [reflexivity|]. split; [intros H; elim H; reflexivity|discriminate].
Qed.
Example C69_nan_run : match c_run 60 newton (start_nan 0xC000000000123 true) with
  | Ret s => c_pc s = 10%nat /\ c_regs s 3 = (FSingle, mkFloat 0x600000 128 NaN true)
  | _ => False end.
Proof. vm_compute. repeat split. Qed.
