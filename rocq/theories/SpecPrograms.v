(** * SpecPrograms.v -- programs of floating-point instructions, run on Flocq's numbers

    What a client of the crate (an interpreter, say) does with it: registers that
    hold numbers of several formats, arithmetic between them, and branches that
    depend on comparisons.  Nothing here mentions the code of the crate: the only
    things taken from the model are the parameters of its formats and the names of
    the rounding modes. *)
From Coq Require Import ZArith List.
From Flocq Require Import Core.
From Flocq Require BinarySingleNaN.
From Verif Require Import Machine Ieee Spec Flocq754.
Local Open Scope Z_scope.

(** the formats of the crate with infinities *)
Inductive format := FHalf | FBFloat | FSingle | FDouble | FQuad | FX87 | FE5M2.
Definition semantics_of (f : format) : Semantics :=
  match f with
  | FHalf => HalfS | FBFloat => BFloatS | FSingle => SingleS | FDouble => DoubleS | FQuad => QuadS
  | FX87 => X87DoubleExtendedS | FE5M2 => Float8E5M2S
  end.
Definition format_eq_dec (f g : format) : {f = g} + {f <> g}.
Proof. decide equality. Defined.

Inductive binary := Add | Sub | Mul | Div.
Inductive unary := Neg | Abs | Scale (n : Z) (m : Round) | Integral (m : Round) | Up | Down.
(** Registers and places in the program are numbered.  [Branch] goes to [target] if
    the outcome of comparing two registers ([None]: unordered) passes the test. *)
Inductive instruction :=
| Set_ (dst : nat) (f : format) (n : Z) (m : Round)
| Binary (op : binary) (dst a b : nat) (m : Round)
| Unary (op : unary) (dst a : nat)
| Convert (dst : nat) (f : format) (a : nat) (m : Round)
| Branch (test : option comparison -> bool) (a b : nat) (target : nat).
(** integers that instructions may mention *)
Definition in_range (i : instruction) : Prop :=
  match i with Set_ _ _ n _ => - 2 ^ 127 <= n < 2 ^ 127 | _ => True end.

Definition update {A : Type} (r : nat -> A) (k : nat) (v : A) : nat -> A := fun i => if Nat.eqb i k then v else r i.

(** ** The machine on Flocq's numbers *)
Definition number (f : format) : Type := bfloat (semantics_of f).
Definition any_number : Type := {f : format & number f}.
#[export] Instance format_prec (f : format) : Prec_gt_0 (PRECISION (semantics_of f)).
Proof. destruct f; reflexivity. Qed.
#[export] Instance format_emax (f : format) : BinarySingleNaN.Prec_lt_emax (PRECISION (semantics_of f)) (MAX_EXP (semantics_of f) + 1).
Proof. destruct f; reflexivity. Qed.

Definition b_binary (op : binary) (m : Round) {f : format} (a b : number f) : number f :=
  match op with
  | Add => BinarySingleNaN.Bplus (mode_of m) a b
  | Sub => BinarySingleNaN.Bminus (mode_of m) a b
  | Mul => BinarySingleNaN.Bmult (mode_of m) a b
  | Div => BinarySingleNaN.Bdiv (mode_of m) a b
  end.
Definition b_unary (op : unary) {f : format} (a : number f) : number f :=
  match op with
  | Neg => BinarySingleNaN.Bopp a
  | Abs => BinarySingleNaN.Babs a
  | Scale n m => BinarySingleNaN.Bldexp (mode_of m) a n
  | Integral m => BinarySingleNaN.Bnearbyint (mode_of m) a
  | Up => BinarySingleNaN.Bsucc a
  | Down => BinarySingleNaN.Bpred a
  end.
Definition cast {f g : format} (E : f = g) (a : number f) : number g := eq_rect f number a g E.

Record b_state := { b_pc : nat; b_regs : nat -> any_number }.
(** [None]: the program is over, or operands of different formats meet *)
Definition b_step (prog : list instruction) (s : b_state) : option b_state :=
  let r := b_regs s in
  let next dst v := Some {| b_pc := S (b_pc s); b_regs := update r dst v |} in
  match nth_error prog (b_pc s) with
  | None => None
  | Some (Set_ dst f n m) =>
    next dst (existT number f (BinarySingleNaN.binary_normalize (PRECISION (semantics_of f)) (MAX_EXP (semantics_of f) + 1) (format_prec f) (format_emax f) (mode_of m) n 0 false))
  | Some (Binary op dst a b m) =>
    match format_eq_dec (projT1 (r a)) (projT1 (r b)) with
    | left E => next dst (existT number _ (b_binary op m (cast E (projT2 (r a))) (projT2 (r b))))
    | right _ => None
    end
  | Some (Unary op dst a) => next dst (existT number _ (b_unary op (projT2 (r a))))
  | Some (Convert dst f a m) =>
    next dst (existT number f (b_convert (semantics_of f) (format_prec f) (format_emax f) (mode_of m) (projT2 (r a))))
  | Some (Branch test a b target) =>
    match format_eq_dec (projT1 (r a)) (projT1 (r b)) with
    | left E =>
      Some {| b_pc := if test (BinarySingleNaN.Bcompare (cast E (projT2 (r a))) (projT2 (r b))) then target else S (b_pc s); b_regs := r |}
    | right _ => None
    end
  end.
(** the state after at most [n] steps *)
Fixpoint b_run (n : nat) (prog : list instruction) (s : b_state) : b_state :=
  match n with
  | O => s
  | S n => match b_step prog s with Some s' => b_run n prog s' | None => s end
  end.
