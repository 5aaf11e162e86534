(** * SpecSig.v -- what the limb layer is supposed to compute.

    Plain integer arithmetic; nothing here mentions the model's functions. *)
From Coq Require Import ZArith List.
From Verif Require Import Sig.
Import ListNotations.
Local Open Scope Z_scope.

(** A limb is a 128-bit unsigned integer. *)
Definition limb (x : Z) : Prop := 0 <= x < 2 ^ 128.
Definition limbs (l : list Z) : Prop := Forall limb l.

(** The number a little-endian limb list denotes. *)
Fixpoint lval (l : list Z) : Z :=
  match l with
  | [] => 0
  | x :: r => x + 2 ^ 128 * lval r
  end.

(** Number of limbs and number of bits of a limb list. *)
Definition nlimbs (l : list Z) : Z := Z.of_nat (length l).
Definition nbits (l : list Z) : Z := 128 * nlimbs l.

(** The fraction [r / d] (with [0 <= r < d]) compared with zero and with a half. *)
Definition loss_of (r d : Z) : Loss :=
  if r =? 0 then ExactlyZero
  else match 2 * r ?= d with
       | Lt => LessThanHalf
       | Eq => ExactlyHalf
       | Gt => MoreThanHalf
       end.

(** The one-based position of the most significant bit: the number of bits. *)
Definition bitlen (v : Z) : Z := if v =? 0 then 0 else Z.log2 v + 1.
