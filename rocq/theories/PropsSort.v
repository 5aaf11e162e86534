(** * PropsSort.v -- sorting and selecting with the crate's comparisons (C78) *)
From Coq Require Import ZArith Reals List Bool Lra Lia Sorting.Permutation Sorting.Sorted.
From Flocq Require Import Core.
From Verif Require Import Machine Ieee Spec Samples Sort.
Import ListNotations.
Local Open Scope Z_scope.

(** ** C78: sorting *)
(** the same numbers, in order, those that compare equal in the order they had *)
Theorem C78_sort : forall S, sem_ok S -> forall xs, no_nans S xs ->
  exists ys, c_sort xs = Ret ys /\ Permutation xs ys /\ StronglySorted (le_ext S) ys /\
    forall z, wf S z -> filter (same S z) ys = filter (same S z) xs.
Proof. exact sort_spec. Qed.
Print Assumptions C78_sort.
Theorem C78_sort_nan_refuted : exists x n y ys, wf HalfS x /\ wf HalfS n /\ wf HalfS y /\ category n = NaN /\
  c_sort [x; n; y] = Ret ys /\ ys = [x; n; y] /\ (value HalfS y < value HalfS x)%R /\ finite x /\ finite y.
Proof. exact sort_nan_refuted. Qed.
Print Assumptions C78_sort_nan_refuted.
(** ** the extreme of a list *)
(** max and min pass over NaNs *)
Theorem C78_max : forall S, sem_ok S -> forall xs acc, wf S acc -> (forall x, In x xs -> wf S x) ->
  exists r, c_fold max acc xs = Ret r /\ In r (acc :: xs) /\ forall x, In x (acc :: xs) ->
    match ext_of S x, ext_of S r with None, _ => True | Some a, Some b => ext_le a b | Some _, None => False end.
Proof. exact max_fold. Qed.
Print Assumptions C78_max.
Theorem C78_min : forall S, sem_ok S -> forall xs acc, wf S acc -> (forall x, In x xs -> wf S x) ->
  exists r, c_fold min acc xs = Ret r /\ In r (acc :: xs) /\ forall x, In x (acc :: xs) ->
    match ext_of S x, ext_of S r with None, _ => True | Some a, Some b => ext_le b a | Some _, None => False end.
Proof. exact min_fold. Qed.
Print Assumptions C78_min.
(** maximum and minimum deliver NaN if there is one, and tell zeros apart *)
Theorem C78_maximum : forall S, sem_ok S -> forall xs acc, wf S acc -> (forall x, In x xs -> wf S x) ->
  exists r, c_fold maximum acc xs = Ret r /\ In r (acc :: xs) /\ forall x, In x (acc :: xs) ->
    match ext_of S r, ext_of S x with
    | None, _ => True
    | Some b, Some a => ext_le a b /\ (category r = Zero -> category x = Zero -> sign r = true -> sign x = true)
    | Some _, None => False
    end.
Proof. exact maximum_fold. Qed.
Print Assumptions C78_maximum.
Theorem C78_minimum : forall S, sem_ok S -> forall xs acc, wf S acc -> (forall x, In x xs -> wf S x) ->
  exists r, c_fold minimum acc xs = Ret r /\ In r (acc :: xs) /\ forall x, In x (acc :: xs) ->
    match ext_of S r, ext_of S x with
    | None, _ => True
    | Some b, Some a => ext_le b a /\ (category r = Zero -> category x = Zero -> sign r = false -> sign x = false)
    | Some _, None => False
    end.
Proof. exact minimum_fold. Qed.
Print Assumptions C78_minimum.

(** zeros keep their order *)
Example C78_example : no_nans HalfS [h_three; h_inf; h_zero; h_neg; h_nzero; h_min; h_zero] /\
  c_sort [h_three; h_inf; h_zero; h_neg; h_nzero; h_min; h_zero] = Ret [h_neg; h_zero; h_nzero; h_zero; h_min; h_three; h_inf] /\
  filter (same HalfS h_zero) [h_three; h_inf; h_zero; h_neg; h_nzero; h_min; h_zero] = [h_zero; h_nzero; h_zero] /\
  wf HalfS h_qnan /\
  c_fold max h_qnan [h_one; h_qnan; h_three; h_neg] = Ret h_three /\ c_fold min h_one [h_qnan; h_neg; h_three] = Ret h_neg /\
  c_fold maximum h_one [h_qnan; h_three] = Ret h_qnan /\ c_fold maximum h_nzero [h_neg; h_zero; h_nzero] = Ret h_zero /\
  c_fold minimum h_zero [h_three; h_nzero; h_zero] = Ret h_nzero /\ c_fold minimum h_one [h_ninf; h_three] = Ret h_ninf.
Proof.
  split; [|split; [vm_compute; reflexivity|split; [vm_compute; reflexivity|split; [unfold h_qnan; sample_wf|vm_compute; repeat split]]]].
  intros x H. repeat (destruct H as [<-|H]; [split; [sample_wf|discriminate]|]). destruct H.
Qed.
