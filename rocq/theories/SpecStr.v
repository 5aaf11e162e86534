(** * SpecStr.v -- the texts [from_str_r] accepts and what they denote.

    A string is the list of its UTF-8 bytes.  Nothing here mentions the parser. *)
From Coq Require Import ZArith Reals List.
From Flocq Require Import Core.
From Verif Require Import Ieee Spec.
Import ListNotations.
Local Open Scope Z_scope.

(** ** Numerals *)

(** the byte [c] is the digit [k]: 0-9, a-f, A-F *)
Inductive digit_char : Z -> Z -> Prop :=
| dc_decimal k : 0 <= k <= 9 -> digit_char (48 + k) k
| dc_lower k : 10 <= k <= 15 -> digit_char (87 + k) k
| dc_upper k : 10 <= k <= 15 -> digit_char (55 + k) k.
(** the text is a (possibly empty) sequence of digits and denotes [n] *)
Inductive digits (radix : Z) : list Z -> Z -> Prop :=
| digits_nil : digits radix [] 0
| digits_snoc ds n c k : digits radix ds n -> digit_char c k -> k < radix -> digits radix (ds ++ [c]) (n * radix + k).
(** digits with at most one point (byte 46), at least one digit: the text
    denotes [n / radix^k] *)
Inductive mantissa (radix : Z) : list Z -> Z -> Z -> Prop :=
| mantissa_int ds n : digits radix ds n -> ds <> [] -> mantissa radix ds n 0
| mantissa_point ip fp n : digits radix (ip ++ fp) n -> ip ++ fp <> [] ->
    mantissa radix (ip ++ 46 :: fp) n (Z.of_nat (length fp)).
(** an optional sign (bytes 43 and 45) and a decimal number *)
Inductive exponent : list Z -> Z -> Prop :=
| exponent_plain ds e : digits 10 ds e -> exponent ds e
| exponent_plus ds e : digits 10 ds e -> exponent (43 :: ds) e
| exponent_minus ds e : digits 10 ds e -> exponent (45 :: ds) (- e).
Definition has_digit (t : list Z) : Prop := exists c k, In c t /\ digit_char c k.

Definition r10 : radix := Build_radix 10 eq_refl.

(** a hexadecimal number after its prefix: [1.8p-3]; the exponent is required *)
Inductive hex_body : list Z -> R -> Prop :=
| hex_intro t n k c u e : mantissa 16 t n k -> c = 112 \/ c = 80 -> exponent u e -> has_digit u ->
    hex_body (t ++ c :: u) (IZR n * bpow r2 (e - 4 * k)).
(** a decimal number: [1.5e-3]; the exponent is optional and, oddly, may lack
    its digits: [1.5e+] is accepted and means 1.5 *)
Inductive dec_body : list Z -> R -> Prop :=
| dec_plain t n k : mantissa 10 t n k -> dec_body t (IZR n * bpow r10 (- k))
| dec_exp t n k c u e : mantissa 10 t n k -> c = 101 \/ c = 69 -> exponent u e ->
    dec_body (t ++ c :: u) (IZR n * bpow r10 (e - k)).

(** ** Whole texts *)
Inductive sign_text : list Z -> bool -> Prop :=
| sign_none : sign_text [] false
| sign_plus : sign_text [43] false
| sign_minus : sign_text [45] true.
(** the text denotes the number [x]; [g] tells whether it has a minus sign *)
Inductive hex_text : list Z -> bool -> R -> Prop :=
| hex_text_intro s g c b x : sign_text s g -> c = 120 \/ c = 88 -> hex_body b x ->
    hex_text (s ++ 48 :: c :: b) g (if g then - x else x)%R.
Inductive dec_text : list Z -> bool -> R -> Prop :=
| dec_text_intro s g b x : sign_text s g -> dec_body b x -> dec_text (s ++ b) g (if g then - x else x)%R.

(** [+Inf], [-Inf], [inf], [-inf], [INFINITY], [-INFINITY] *)
Definition t_Inf := [73; 110; 102].
Definition t_inf := [105; 110; 102].
Definition t_INFINITY := [73; 78; 70; 73; 78; 73; 84; 89].
Inductive inf_text : list Z -> bool -> Prop :=
| inf_plus : inf_text (43 :: t_Inf) false
| inf_minus : inf_text (45 :: t_Inf) true
| inf_lower : inf_text t_inf false
| inf_lower_minus : inf_text (45 :: t_inf) true
| inf_upper : inf_text t_INFINITY false
| inf_upper_minus : inf_text (45 :: t_INFINITY) true.

(** an unsigned 128-bit number: decimal, octal after 0, hexadecimal after 0x;
    the digits may be preceded by a plus sign *)
Inductive plus_digits (radix : Z) : list Z -> Z -> Prop :=
| pd_plain ds n : digits radix ds n -> ds <> [] -> n < 2 ^ 128 -> plus_digits radix ds n
| pd_plus ds n : digits radix ds n -> ds <> [] -> n < 2 ^ 128 -> plus_digits radix (43 :: ds) n.
Inductive payload_text : list Z -> Z -> Prop :=
| payload_zero : payload_text [48] 0
| payload_dec c t n : plus_digits 10 (c :: t) n -> c <> 48 -> payload_text (c :: t) n
| payload_oct t n : plus_digits 8 t n -> payload_text (48 :: t) n
| payload_hex c t n : c = 120 \/ c = 88 -> plus_digits 16 t n -> payload_text (48 :: c :: t) n.
(** [nan], [NaN], after [s] or [S] a signaling one, with an optional payload
    that may be in parentheses; a minus sign but no plus sign is allowed *)
Inductive nan_text : list Z -> bool -> bool -> option Z -> Prop :=
| nan_intro s g q (signaling : bool) name t pl :
    (s = [] /\ g = false) \/ (s = [45] /\ g = true) ->
    (q = [] /\ signaling = false) \/ ((q = [115] \/ q = [83]) /\ signaling = true) ->
    name = [110; 97; 110] \/ name = [78; 97; 78] ->
    (t = [] /\ pl = None) \/
    (exists n, (payload_text t n \/ exists u, t = 40 :: u ++ [41] /\ payload_text u n) /\ pl = Some n) ->
    nan_text (s ++ q ++ name ++ t) g signaling pl.

(** everything that is accepted *)
Definition accepted (s : list Z) : Prop :=
  (exists g, inf_text s g) \/ (exists g q pl, nan_text s g q pl) \/
  (exists g x, hex_text s g x) \/ (exists g x, dec_text s g x).

(** ** Decimal numbers

    The formats for which decimal literals are claimed to be read correctly: the
    code compares the decimal exponent with [MAX_EXP] and [MIN_EXP] using
    32-bit products and an approximation of log2 10. *)
Record dec_ok (S : Semantics) : Prop := {
  dec_prec : PRECISION S <= 123;
  dec_max : MAX_EXP S <= 2 ^ 17;
  dec_min : PRECISION S - MIN_EXP S < 28738 }.
(** [x] can be written with at most 38 digits and an exponent that is not large *)
Definition short (x : R) : Prop := exists n k, 0 <= n < 10 ^ 38 /\ -54 <= k <= 17 /\ x = (IZR n * bpow r10 k)%R.
