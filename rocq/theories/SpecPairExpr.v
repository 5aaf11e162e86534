(** * SpecPairExpr.v -- how accurate expressions evaluated with pairs must be

    About real numbers and the width of the half format only. *)
From Coq Require Import ZArith Reals List.
From Flocq Require Import Core.
From Verif Require Import Machine Ieee Spec SpecPrograms SpecExpr.
Local Open Scope Z_scope.

(** 48 times the square of the half format's 2^-p *)
Definition pair_unit (F : Semantics) : R := (48 * bpow r2 (- (2 * PRECISION F)))%R.
Fixpoint pair_error (F : Semantics) (env : nat -> R) (e : expr) : R :=
  match e with
  | Var _ => 0%R
  | Num n _ => (pair_unit F * Rabs (IZR n))%R
  | Opp e => pair_error F env e
  | Op o _ a b =>
    let A := Rabs (exact env a) in let B := Rabs (exact env b) in
    let ea := pair_error F env a in let eb := pair_error F env b in
    (carried o (exact env a) (exact env b) ea eb +
     match o with
     | Add | Sub => pair_unit F * ((A + ea) + (B + eb))
     | Mul => pair_unit F * ((A + ea) * (B + eb)) + 4 * min_positive F
     | Div => pair_unit F * ((A + ea) / (B - eb)) + 4 * min_positive F
     end)%R
  end.
(** no result is near the largest number; the products are zero or not below the smallest normal
    number; denominators are safely away from zero *)
Fixpoint pair_in_bounds (F : Semantics) (env : nat -> R) (e : expr) : Prop :=
  match e with
  | Var _ => True
  | Num n _ => (Rabs (IZR n) <= bpow r2 (MAX_EXP F - 5))%R
  | Opp e => pair_in_bounds F env e
  | Op o _ a b =>
    let A := Rabs (exact env a) in let B := Rabs (exact env b) in
    let ea := pair_error F env a in let eb := pair_error F env b in
    pair_in_bounds F env a /\ pair_in_bounds F env b /\
    match o with
    | Add | Sub => ((A + ea) + (B + eb) <= bpow r2 (MAX_EXP F - 5))%R
    | Div => (eb < B /\ A + ea <= bpow r2 (MAX_EXP F - 5) /\ B + eb <= bpow r2 (MAX_EXP F - 5) /\ (A + ea) / (B - eb) <= bpow r2 (MAX_EXP F - 5))%R
    | Mul => (A + ea = 0)%R \/ (B + eb = 0)%R \/
           ((0 <= A - ea) /\ (0 <= B - eb) /\ 2 * min_normal F <= (A - ea) * (B - eb) /\ (A + ea) * (B + eb) <= bpow r2 (MAX_EXP F - 5))%R
    end
  end.
(** acc + x0 + x1 + ... *)
Fixpoint chain (m : Round) (acc : expr) (xs : list nat) : expr :=
  match xs with nil => acc | cons i xs => chain m (Op Add m acc (Var i)) xs end.
Fixpoint sum (env : nat -> R) (xs : list nat) : R := match xs with nil => 0%R | cons i xs => (env i + sum env xs)%R end.
(** the terms of a dot product are zero or at least twice the smallest normal number *)
Definition terms_ok (F : Semantics) (env : nat -> R) (xs : list (nat * nat)) : Prop :=
  forall i j, In (i, j) xs -> env i = 0%R \/ env j = 0%R \/ (2 * min_normal F <= Rabs (env i * env j))%R.
