(** * SpecInteger.v -- integer expressions and the integers they denote

    Nothing here mentions the code of the crate. *)
From Coq Require Import ZArith.
Local Open Scope Z_scope.

(** sum, difference, product; the quotient rounded toward zero, down and up; the
    remainder with the sign of the dividend *)
Inductive iop := IAdd | ISub | IMul | IQuot | IFloor | ICeil | IRem.
Inductive iexpr :=
| INum (n : Z)
| INeg (e : iexpr)
| IOp (o : iop) (a b : iexpr).
Definition int_op (o : iop) (a b : Z) : Z :=
  match o with
  | IAdd => a + b
  | ISub => a - b
  | IMul => a * b
  | IQuot => Z.quot a b
  | IFloor => a / b
  | ICeil => - (- a / b)
  | IRem => Z.rem a b
  end.
Fixpoint denotes (e : iexpr) : Z :=
  match e with
  | INum n => n
  | INeg e => - denotes e
  | IOp o a b => int_op o (denotes a) (denotes b)
  end.
Definition divides (o : iop) : bool := match o with IAdd | ISub | IMul => false | _ => true end.
(** no intermediate result exceeds [M], no divisor is zero *)
Fixpoint fits (M : Z) (e : iexpr) : Prop :=
  Z.abs (denotes e) <= M /\
  match e with
  | INum _ => True
  | INeg e => fits M e
  | IOp o a b => fits M a /\ fits M b /\ (divides o = true -> denotes b <> 0)
  end.
(** all quotients are integers *)
Fixpoint divisible (e : iexpr) : Prop :=
  match e with
  | INum _ => True
  | INeg e => divisible e
  | IOp o a b => divisible a /\ divisible b /\
      match o with IQuot | IFloor | ICeil => Z.rem (denotes a) (denotes b) = 0 | _ => True end
  end.
