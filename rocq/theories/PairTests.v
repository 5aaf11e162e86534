(** * PairTests.v -- the tables of tests/ppc.rs, run on the model.

    These are tests, not theorems: they check that the model computes what the
    crate's own tests expect of the code. *)
From Coq Require Import ZArith List Bool String.
From Verif Require Import Machine Sig Ieee Parse Fmt Ppc SpecStr.
Import ListNotations.
Local Open Scope Z_scope.

Definition result_bits (o : outcome (Z * DFloat)) : outcome Z := let! '(_, r) := o in dd_to_bits DoubleS r.
Definition result_category (o : outcome (Z * DFloat)) : outcome Category := let! '(_, r) := o in Ret (dd_category r).
Definition on_bits {A} (op : DFloat -> DFloat -> outcome A) (a b : Z) : outcome A :=
  let! x := dd_from_bits DoubleS a in let! y := dd_from_bits DoubleS b in op x y.
Definition NE := NearestTiesToEven.
Definition run (op : DFloat -> DFloat -> outcome (Z * DFloat)) (t : list (Z * Z * Z)) : Prop :=
  map (fun '(a, b, _) => result_bits (on_bits op a b)) t = map (fun '(_, _, r) => Ret r) t.
Definition run_commuted (op : DFloat -> DFloat -> outcome (Z * DFloat)) (t : list (Z * Z * Z)) : Prop :=
  map (fun '(a, b, _) => result_bits (on_bits op b a)) t = map (fun '(_, _, r) => Ret r) t.
Definition run_category (op : DFloat -> DFloat -> outcome (Z * DFloat)) (t : list (Z * Z * Category)) : Prop :=
  map (fun '(a, b, _) => result_category (on_bits op a b)) t = map (fun '(_, _, r) => Ret r) t /\
  map (fun '(a, b, _) => result_category (on_bits op b a)) t = map (fun '(_, _, r) => Ret r) t.

Definition table_add :=
  [(4607182418800017408, 4134304457926115328, 76264456258159548212463112502384787456);
   (4607182418800017408, 4129800858298744832, 76181379508422990970406624561117265920);
   (76181379508422990970406624561117265920, 4129800858298744832, 76264456258159548212463112502384787456);
   (4607182418800017408, 1, 23053926492509569024);
   (331393154699126838572549266153370812415, 8975674057349398528, 165571962224958583390905847235978723327);
   (8975674057349398528, 331393154699126838572549266153370812415, 165571962224958583390905847235978723327)].

Definition table_subtract :=
  [(4607182418800017408, 13357676494780891136, 76264456258159548212463112502384787456);
   (4607182418800017408, 13353172895153520640, 76181379508422990970406624561117265920)].

Definition table_multiply :=
  [(80362909245163038832873507654676600149, 4613937818241073152, 4607182418800017408);
   (23053926492509569024, 4607182418800017408, 23053926492509569024);
   (23053926492509569024, 23053926492509569024, 41500670566219120640);
   (32277298529364344832, 23053926492509569024, 13830554455654793216);
   (4602678819172646912, 41500670566219120640, 23049422892882198528);
   (4602678819172646912, 23053926492509569024, 4602678819172646912);
   (165571962224958583390905847235978723327, 76181379508422990970406624561117265920, 9218868437227405312);
   (165571962224958583390905847235978723327, 76098302758686433728350136619849744384, 165571962224958583409352591309688274943);
   (165571962224958583390905847235978723327, 76015226008949876486293648678582222848, 165571962224958583390905847235978723327)].

Definition table_divide :=
  [(4607182418800017408, 4613937818241073152, 80362909245163038832873507654676600149)].

Definition table_remainder :=
  [(80709062369065360662491972759638245376, 80605216431894664109915733333519630336, 80501370494723967557339493907401015296);
   (80709062369065360662491972759638245376, 80646754806762942730946229103967076352, 250642553955193199298250169660139896832)].

Definition table_mod :=
  [(80709062369065360662491972759638245376, 80605216431894664109915733333519630336, 80501370494723967557339493907401015296);
   (80709062369065360662491972759638245376, 80646754806762942730946229103967076352, 250684092330061477910060671093453094913)].

Definition table_add_special :=
  [(4607182418800017408, 13830554455654793216, Zero);
   (165571962224958583390905847235978723327, 8739235076912447488, Infinity);
   (165571962224958583390905847235978723327, 156765826752883515732438492101306482687, Normal);
   (165571962224958583390905847235978723327, 165571962224958583390905847235978723327, Infinity);
   (9221120237041090560, 4607182418800017408, NaN)].

Definition table_multiply_special :=
  [(9221120237041090560, 9221120237041090560, NaN);
   (9221120237041090560, 0, NaN);
   (9221120237041090560, 9218868437227405312, NaN);
   (9221120237041090560, 4607182418800017408, NaN);
   (9218868437227405312, 9218868437227405312, Infinity);
   (9218868437227405312, 0, NaN);
   (9218868437227405312, 4607182418800017408, Infinity);
   (0, 0, Zero);
   (0, 4607182418800017408, Zero)].

Definition table_compare :=
  [(4607182418800017408, 4607182418800017408, Some Eq);
   (4607182418800017408, 4607182418800017409, Some Lt);
   (4607182418800017409, 4607182418800017408, Some Gt);
   (4607182418800017408, 23053926492509569025, Some Lt);
   (9221120237041090560, 9221120237041090560, None);
   (4607182418800017408, 9221120237041090560, None);
   (9218868437227405312, 9218868437227405312, Some Eq)].

Definition table_bitwise_eq :=
  [(4607182418800017408, 4607182418800017408, true);
   (4607182418800017408, 4607182418800017409, false);
   (9221120237041090560, 9221120237041090560, true);
   (9221120237041090560, 84987514980498058633008284153715621888, false);
   (9218868437227405312, 9218868437227405312, true)].

(** tests/ppc.rs:38-157 *)
Example test_add_special : run_category (fun x y => dd_add_r DoubleS x y NE) table_add_special.
Proof. split; vm_compute; reflexivity. Qed.
Example test_add : run (fun x y => dd_add_r DoubleS x y NE) table_add.
Proof. vm_compute. reflexivity. Qed.
Example test_add_commuted : run_commuted (fun x y => dd_add_r DoubleS x y NE) table_add.
Proof. vm_compute. reflexivity. Qed.
Example test_subtract : run (fun x y => dd_sub_r DoubleS x y NE) table_subtract.
Proof. vm_compute. reflexivity. Qed.
(** tests/ppc.rs:158-330 *)
Example test_multiply_special : run_category (fun x y => dd_mul_r DoubleS x y NE) table_multiply_special.
Proof. split; vm_compute; reflexivity. Qed.
Example test_multiply : run (fun x y => dd_mul_r DoubleS x y NE) table_multiply.
Proof. vm_compute. reflexivity. Qed.
Example test_multiply_commuted : run_commuted (fun x y => dd_mul_r DoubleS x y NE) table_multiply.
Proof. vm_compute. reflexivity. Qed.
Example test_divide : run (fun x y => dd_div_r DoubleS x y NE) table_divide.
Proof. vm_compute. reflexivity. Qed.
Example test_remainder : run (fun x y => dd_ieee_rem DoubleS x y) table_remainder.
Proof. vm_compute. reflexivity. Qed.
Example test_mod : run (fun x y => dd_c_fmod DoubleS x y) table_mod.
Proof. vm_compute. reflexivity. Qed.
(** tests/ppc.rs:355-400 *)
Example test_compare : map (fun '(a, b, _) => on_bits dd_partial_cmp a b) table_compare = map (fun '(_, _, r) => Ret r) table_compare.
Proof. vm_compute. reflexivity. Qed.
Example test_bitwise_eq : map (fun '(a, b, _) => on_bits (fun x y => Ret (dd_bitwise_eq x y)) a b) table_bitwise_eq = map (fun '(_, _, r) => Ret r) table_bitwise_eq.
Proof. vm_compute. reflexivity. Qed.

Definition parsed (s : list Z) : outcome DFloat :=
  let! r := dd_from_str_r DoubleS s NE in match r with Ok (_, x) => Ret x | Err _ => Panic end.
Definition bits_of (o : outcome DFloat) : outcome Z := let! x := o in dd_to_bits DoubleS x.
(** tests/ppc.rs:6-36 *)
Example test_parse : map (fun s => bits_of (parsed (bytes s)))
  ["0x0p+0"; "-0x0p+0"; "1.0"; "1.79769313486231580793728971405301e+308"; "2.00416836000897277799610805135016e-292"]%string =
  map Ret [0; 0x8000000000000000; 0x3ff0000000000000; 0x7c8ffffffffffffe7fefffffffffffff; 0x0360000000000000].
Proof. vm_compute. reflexivity. Qed.
(** tests/ppc.rs:331-353 *)
Example test_fma : (let! a := parsed (bytes "2") in let! b := parsed (bytes "3") in let! c := parsed (bytes "4") in
  let! '(_, r) := dd_mul_add_r DoubleS a b c NE in let! t := parsed (bytes "10") in dd_partial_cmp t r) = Ret (Some Eq).
Proof. vm_compute. reflexivity. Qed.
Example test_round_to_integral : map (fun s => let! a := parsed (bytes s) in let! '(_, r) := dd_round_to_integral DoubleS a NE in
  let! t := parsed (bytes "2") in dd_partial_cmp t r) ["1.5"; "2.5"]%string = [Ret (Some Eq); Ret (Some Eq)].
Proof. vm_compute. reflexivity. Qed.
(** tests/ppc.rs:403-429 *)
Example test_change_sign : map (fun s => let! a := dd_from_bits DoubleS 0xbcb0000000000000400f000000000000 in let! b := parsed (bytes s) in
  dd_to_bits DoubleS (dd_copy_sign a b)) ["1"; "-1"]%string =
  [Ret 0xbcb0000000000000400f000000000000; Ret 0x3cb0000000000000c00f000000000000].
Proof. vm_compute. reflexivity. Qed.
Example test_factories :
  map bits_of [Ret (dd_ZERO DoubleS); dd_largest DoubleS; Ret (dd_SMALLEST DoubleS); dd_smallest_normalized DoubleS;
    Ret (dd_neg (dd_ZERO DoubleS)); (let! x := dd_largest DoubleS in Ret (dd_neg x)); Ret (dd_neg (dd_SMALLEST DoubleS));
    (let! x := dd_smallest_normalized DoubleS in Ret (dd_neg x))] =
  map Ret [0; 0x7c8ffffffffffffe7fefffffffffffff; 1; 0x0360000000000000; 0x8000000000000000;
    0xfc8ffffffffffffeffefffffffffffff; 0x8000000000000001; 0x8360000000000000].
Proof. vm_compute. reflexivity. Qed.
Example test_is_smallest_largest : dd_is_smallest DoubleS (dd_SMALLEST DoubleS) = true /\
  (let! x := dd_largest DoubleS in dd_is_largest DoubleS x) = Ret true.
Proof. split; vm_compute; reflexivity. Qed.
(** tests/ppc.rs:430-475 *)
Example test_is_denormal :
  map (fun o => let! x := o in dd_is_denormal DoubleS x)
    [Ret (dd_SMALLEST DoubleS); dd_largest DoubleS; dd_smallest_normalized DoubleS; dd_from_bits DoubleS 0x40080000000000004010000000000000] =
  map Ret [true; false; false; true].
Proof. vm_compute. reflexivity. Qed.
Example test_exact_inverse : (let! x := parsed (bytes "2.0") in let! r := dd_get_exact_inverse DoubleS x in let! h := parsed (bytes "0.5") in
  match r with Some y => Ret (dd_bitwise_eq y h) | None => Ret false end) = Ret true.
Proof. vm_compute. reflexivity. Qed.
Example test_scalbn : (let! x := dd_from_bits DoubleS 0x3cb80000000000004008000000000000 in let! r := dd_scalbn_r DoubleS x 1 NE in dd_to_bits DoubleS r) =
  Ret 0x3cc80000000000004018000000000000.
Proof. vm_compute. reflexivity. Qed.
Example test_frexp : (let! x := dd_from_bits DoubleS 0x3cb80000000000004008000000000000 in let! '(r, e) := dd_frexp_r DoubleS x NE in
  let! b := dd_to_bits DoubleS r in Ret (b, e)) = Ret (0x3c980000000000003fe8000000000000, 2).
Proof. vm_compute. reflexivity. Qed.
