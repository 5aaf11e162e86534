(** * SpecExpr.v -- arithmetic expressions and the real numbers they denote

    Nothing here mentions the code of the crate; a rounding mode is attached to
    every operation, so that expressions may mix them. *)
From Coq Require Import ZArith Reals.
From Flocq Require Import Core.
From Verif Require Import Machine Ieee Spec SpecPrograms.

Inductive expr :=
| Var (i : nat)
| Num (n : Z) (m : Round)
| Opp (e : expr)
| Op (o : binary) (m : Round) (a b : expr).
(** the numerals fit into an i128 *)
Fixpoint numerals_ok (e : expr) : Prop :=
  match e with
  | Var _ => True
  | Num n _ => (- 2 ^ 127 <= n < 2 ^ 127)%Z
  | Opp e => numerals_ok e
  | Op _ _ a b => numerals_ok a /\ numerals_ok b
  end.

Definition real_op (o : binary) (x y : R) : R :=
  match o with Add => x + y | Sub => x - y | Mul => x * y | Div => x / y end%R.
(** what the expression denotes without any rounding *)
Fixpoint exact (env : nat -> R) (e : expr) : R :=
  match e with
  | Var i => env i
  | Num n _ => IZR n
  | Opp e => (- exact env e)%R
  | Op o _ a b => real_op o (exact env a) (exact env b)
  end.
(** every intermediate result is a number of the format, and no denominator is zero *)
Fixpoint needs_no_rounding (S : Semantics) (env : nat -> R) (e : expr) : Prop :=
  match e with
  | Var _ => True
  | Num n _ => representable S (IZR n)
  | Opp e => needs_no_rounding S env e
  | Op o _ a b => needs_no_rounding S env a /\ needs_no_rounding S env b /\
      (o = Div -> exact env b <> 0%R) /\ representable S (exact env e)
  end.

(** ** Rounding errors *)
(** the unit roundoff of the mode *)
Definition roundoff (S : Semantics) (m : Round) : R :=
  match m with NearestTiesToEven | NearestTiesToAway => bpow r2 (- PRECISION S) | _ => bpow r2 (1 - PRECISION S) end.

(** and the error of results below the normal range *)
Definition slack (S : Semantics) (m : Round) : R :=
  match m with NearestTiesToEven | NearestTiesToAway => (min_positive S / 2)%R | _ => min_positive S end.
(** How far apart the number the expression denotes and the number computed can be: the errors
    of the operands, carried through the operation, and one rounding.  Sums have no error of
    their own below the normal range. *)
Definition carried (o : binary) (x y ex ey : R) : R :=
  match o with
  | Add | Sub => ex + ey
  | Mul => Rabs x * ey + Rabs y * ex + ex * ey
  | Div => (Rabs x * ey + Rabs y * ex) / (Rabs y * (Rabs y - ey))
  end%R.
Definition own_slack (S : Semantics) (o : binary) (m : Round) : R := match o with Add | Sub => 0%R | _ => slack S m end.
Fixpoint error (S : Semantics) (env : nat -> R) (e : expr) : R :=
  match e with
  | Var _ => 0%R
  | Num n m => (roundoff S m * Rabs (IZR n))%R
  | Opp e => error S env e
  | Op o m a b =>
    let d := carried o (exact env a) (exact env b) (error S env a) (error S env b) in
    (d + (roundoff S m * (Rabs (exact env e) + d) + own_slack S o m))%R
  end.
(** denominators are safely away from zero and all results safely below the largest number *)
Fixpoint in_bounds (S : Semantics) (env : nat -> R) (e : expr) : Prop :=
  match e with
  | Var _ => True
  | Num n m => (Rabs (IZR n) + error S env e <= max_finite S)%R
  | Opp e => in_bounds S env e
  | Op o m a b => in_bounds S env a /\ in_bounds S env b /\
      (o = Div -> error S env b < Rabs (exact env b))%R /\ (Rabs (exact env e) + error S env e <= max_finite S)%R
  end.

(** ** Two expressions everyone computes *)
(** acc + x0 * y0 + x1 * y1 + ... *)
Fixpoint dot (m : Round) (acc : expr) (xs : list (nat * nat)) : expr :=
  match xs with
  | nil => acc
  | cons (i, j) xs => dot m (Op Add m acc (Op Mul m (Var i) (Var j))) xs
  end.
Fixpoint products (env : nat -> R) (xs : list (nat * nat)) : R :=
  match xs with nil => 0%R | cons (i, j) xs => (env i * env j + products env xs)%R end.
Definition absolute (env : nat -> R) (i : nat) : R := Rabs (env i).
(** ((acc * x + c0) * x + c1) * x + ... *)
Fixpoint horner (m : Round) (x : nat) (acc : expr) (cs : list nat) : expr :=
  match cs with
  | nil => acc
  | cons c cs => horner m x (Op Add m (Op Mul m acc (Var x)) (Var c)) cs
  end.
Fixpoint polynomial (env : nat -> R) (x : nat) (acc : R) (cs : list nat) : R :=
  match cs with
  | nil => acc
  | cons c cs => (acc * env x ^ length (cons c cs) + polynomial env x (env c) cs)%R
  end.
(** h + h q + ... (n terms) *)
Fixpoint geometric (h q : R) (n : nat) : R := match n with O => 0%R | Datatypes.S n => (h + q * geometric h q n)%R end.
