(** * Machine.v -- Rust run-time primitives used by the model.

    The model follows a build of the crate with overflow checks enabled
    (Rust's debug profile): every panic is the explicit value [Panic].
    A theorem that an operation returns [Ret _] therefore says that no
    assertion, index, shift amount or machine integer overflowed, and then
    the release profile computes the same result.

    [Diverge] is the value of a loop whose (explicit) fuel ran out. *)
From Coq Require Import ZArith List Bool.
Import ListNotations.
Local Open Scope Z_scope.

Inductive outcome (A : Type) : Type :=
| Ret (a : A)
| Panic
| Diverge.
Arguments Ret {A} a.
Arguments Panic {A}.
Arguments Diverge {A}.

Definition bind {A B} (m : outcome A) (k : A -> outcome B) : outcome B :=
  match m with
  | Ret a => k a
  | Panic => Panic
  | Diverge => Diverge
  end.

Declare Scope outcome_scope.
Delimit Scope outcome_scope with outcome.
Notation "'let!' x := e 'in' k" := (bind e (fun x => k))
  (at level 200, x name, e at level 100, k at level 200, right associativity) : outcome_scope.
Notation "'let!' ' p := e 'in' k" := (bind e (fun x => match x with p => k end))
  (at level 200, p strict pattern, e at level 100, k at level 200, right associativity) : outcome_scope.
Open Scope outcome_scope.

(** [assert!(b)] followed by [k]. *)
Definition assertb {A} (b : bool) (k : outcome A) : outcome A := if b then k else Panic.

(** ** u128 (the crate's [Limb], src/ieee.rs:46-49) *)
Definition LIMB_BITS : Z := 128.
Definition LIMB_MOD : Z := 2 ^ 128.
Definition LIMB_MAX : Z := 2 ^ 128 - 1.

Definition wrap128 (x : Z) : Z := x mod LIMB_MOD.

(** [x << n], [x >> n]: the shift amount must be below 128; bits shifted out
    on the left are discarded. *)
Definition shl128 (x n : Z) : outcome Z :=
  if (0 <=? n) && (n <? 128) then Ret (wrap128 (Z.shiftl x n)) else Panic.
Definition shr128 (x n : Z) : outcome Z :=
  if (0 <=? n) && (n <? 128) then Ret (Z.shiftr x n) else Panic.

(** Checked [+], [-], [*] on u128. *)
Definition chk128 (x : Z) : outcome Z :=
  if (0 <=? x) && (x <? LIMB_MOD) then Ret x else Panic.
(** [!x] *)
Definition not128 (x : Z) : Z := LIMB_MAX - x.
(** [a.overflowing_add(b)], [a.overflowing_sub(b)] *)
Definition overflowing_add128 (a b : Z) : Z * bool := (wrap128 (a + b), LIMB_MOD <=? a + b).
Definition overflowing_sub128 (a b : Z) : Z * bool := (wrap128 (a - b), a <? b).

(** [x.trailing_zeros()], [x.leading_zeros()] *)
Fixpoint pos_tz (p : positive) : Z :=
  match p with
  | xO q => 1 + pos_tz q
  | _ => 0
  end.
Definition trailing_zeros128 (x : Z) : Z :=
  match x with
  | Zpos p => pos_tz p
  | _ => 128
  end.
Definition leading_zeros128 (x : Z) : Z :=
  if 0 <? x then 127 - Z.log2 x else 128.

Definition b2z (b : bool) : Z := if b then 1 else 0.

(** ** i32 (the crate's [ExpInt], src/lib.rs:152-158) *)
Definition I32_MAX : Z := 2 ^ 31 - 1.
Definition I32_MIN : Z := - 2 ^ 31.
(** checked arithmetic: the mathematical result, or a panic *)
Definition chk32 (x : Z) : outcome Z :=
  if (I32_MIN <=? x) && (x <=? I32_MAX) then Ret x else Panic.
(** saturating arithmetic *)
Definition sat32 (x : Z) : Z := Z.max I32_MIN (Z.min I32_MAX x).
(** [x as i32] from a wider integer *)
Definition as_i32 (x : Z) : Z := (x + 2 ^ 31) mod 2 ^ 32 - 2 ^ 31.

(** ** usize
    Additions and multiplications on [usize] are lengths, indices and bit
    counts; they are modelled without an upper bound.  Subtractions are
    checked. *)
Definition usub (a b : Z) : outcome Z := if b <=? a then Ret (a - b) else Panic.
Definition saturating_usub (a b : Z) : Z := Z.max 0 (a - b).

(** ** Slices *)
Definition len {A} (l : list A) : Z := Z.of_nat (length l).

Definition get (l : list Z) (i : Z) : outcome Z :=
  if (0 <=? i) && (i <? len l) then Ret (nth (Z.to_nat i) l 0) else Panic.

Fixpoint set_nth (l : list Z) (n : nat) (v : Z) : list Z :=
  match l, n with
  | [], _ => []
  | _ :: r, O => v :: r
  | x :: r, S n' => x :: set_nth r n' v
  end.
Definition set (l : list Z) (i v : Z) : outcome (list Z) :=
  if (0 <=? i) && (i <? len l) then Ret (set_nth l (Z.to_nat i) v) else Panic.

(** [&l[..n]] and [&l[n..]] *)
Definition slice_to (l : list Z) (n : Z) : outcome (list Z) :=
  if (0 <=? n) && (n <=? len l) then Ret (firstn (Z.to_nat n) l) else Panic.
Definition slice_from (l : list Z) (n : Z) : outcome (list Z) :=
  if (0 <=? n) && (n <=? len l) then Ret (skipn (Z.to_nat n) l) else Panic.

(** [v.resize(n, 0)] *)
Definition resize (l : list Z) (n : Z) : list Z :=
  firstn (Z.to_nat n) l ++ repeat 0 (Z.to_nat n - length l).

(** [while v.last() == Some(&0) { v.pop(); }] *)
Fixpoint drop_zeros (l : list Z) : list Z :=
  match l with
  | [] => []
  | x :: r => if x =? 0 then drop_zeros r else l
  end.
Definition pop_zeros (l : list Z) : list Z := rev (drop_zeros (rev l)).

(** [lo..hi] *)
Definition zrange (lo hi : Z) : list Z :=
  map (fun k => lo + Z.of_nat k) (seq 0 (Z.to_nat (hi - lo))).

(** [for i in is { body }] over a mutable state *)
Fixpoint for_each {A S} (is : list A) (body : A -> S -> outcome S) (s : S) : outcome S :=
  match is with
  | [] => Ret s
  | i :: r => let! s' := body i s in for_each r body s'
  end.
