(** * Formats.v -- the formats of the crate satisfy the assumptions of the proofs *)
From Coq Require Import ZArith Reals List Bool Lia.
From Flocq Require Import Core.
From Verif Require Import Machine Sig Ieee Ppc Spec Bits.
Import ListNotations.
Local Open Scope Z_scope.

(** every instance of [Semantics] in src/ieee.rs and src/ppc.rs *)
Definition interchange_formats : list (Z * Z * NonfiniteBehavior) :=
  [(16, 5, IEEE754); (32, 8, IEEE754); (64, 11, IEEE754); (128, 15, IEEE754);
   (16, 8, IEEE754); (8, 5, IEEE754); (8, 4, NanOnly)].
Definition interchange_semantics : list Semantics :=
  [HalfS; SingleS; DoubleS; QuadS; BFloatS; Float8E5M2S; Float8E4M3FNS].

Definition crate_formats : list Semantics :=
  interchange_semantics ++ [X87DoubleExtendedS; FallbackS DoubleS; FallbackExtendedS DoubleS].

Ltac prove_ok := constructor; [vm_compute; split; discriminate|vm_compute; split; discriminate|vm_compute; split; discriminate|vm_compute; repeat split].
Lemma interchange_ok : forall bits eb nf, In (bits, eb, nf) interchange_formats ->
  sem_ok (ieee_semantics bits eb nf) /\ bits <= 128.
Proof.
  intros bits eb nf H. repeat (destruct H as [H|H]; [injection H as <- <- <-; split; [prove_ok|lia]|]). destruct H.
Qed.
Lemma interchange_semantics_eq : interchange_semantics = map (fun '(b, e, nf) => ieee_semantics b e nf) interchange_formats.
Proof. reflexivity. Qed.
Theorem crate_formats_ok : forall S, In S crate_formats -> sem_ok S.
Proof.
  intros S H. repeat (destruct H as [<-|H]; [prove_ok|]). destruct H.
Qed.

(** ** The theorems of Bits.v for the interchange formats *)
Theorem bits_round_trip_crate : forall bits eb nf, In (bits, eb, nf) interchange_formats ->
  forall b, 0 <= b < 2 ^ bits ->
  exists x, from_bits (ieee_semantics bits eb nf) b = Ret x /\ wf (ieee_semantics bits eb nf) x /\
    to_bits (ieee_semantics bits eb nf) x = Ret b.
Proof. intros bits eb nf H. destruct (interchange_ok bits eb nf H). apply bits_roundtrip; assumption. Qed.
Theorem high_bits_crate : forall bits eb nf, In (bits, eb, nf) interchange_formats ->
  forall b, 0 <= b < 2 ^ 128 ->
  from_bits (ieee_semantics bits eb nf) b = from_bits (ieee_semantics bits eb nf) (b mod 2 ^ bits).
Proof. intros bits eb nf H. destruct (interchange_ok bits eb nf H). apply from_bits_high_bits; assumption. Qed.
Theorem value_round_trip_crate : forall bits eb nf, In (bits, eb, nf) interchange_formats ->
  forall x, wf (ieee_semantics bits eb nf) x ->
  exists b y, to_bits (ieee_semantics bits eb nf) x = Ret b /\ 0 <= b < 2 ^ bits /\
    from_bits (ieee_semantics bits eb nf) b = Ret y /\ bitwise_eq x y = true.
Proof. intros bits eb nf H. destruct (interchange_ok bits eb nf H). apply value_roundtrip; assumption. Qed.
Theorem bitwise_eq_crate : forall bits eb nf, In (bits, eb, nf) interchange_formats ->
  forall x y, wf (ieee_semantics bits eb nf) x -> wf (ieee_semantics bits eb nf) y ->
  bitwise_eq x y = true <-> to_bits (ieee_semantics bits eb nf) x = to_bits (ieee_semantics bits eb nf) y.
Proof. intros bits eb nf H. destruct (interchange_ok bits eb nf H). apply bitwise_eq_bits; assumption. Qed.
Theorem from_bits_denotes_crate : forall bits eb nf, In (bits, eb, nf) interchange_formats ->
  forall b, 0 <= b < 2 ^ bits ->
  exists x, from_bits (ieee_semantics bits eb nf) b = Ret x /\ sign x = field_sign bits b /\
    denotes (ieee_semantics bits eb nf) x (decoded nf bits eb b).
Proof. intros bits eb nf H. destruct (interchange_ok bits eb nf H). apply from_bits_denotes; assumption. Qed.
