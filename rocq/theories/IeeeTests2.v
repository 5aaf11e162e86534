(** Tests, not theorems: the assertions of the operand tables of tests/ieee.rs, the exhaustive eight-bit tests and
    tests/downstream.rs, evaluated on the model.  A model that disagrees
    with the crate on any of them fails to compile here.  Floats are written with
    [from_bits]: a Rust [f64] or [f32] literal is the encoding the Rust compiler gives it,
    and [==] of two such values is [eq_f].  The loops of the source are unrolled
    or written as a [forallb]. *)
From Coq Require Import ZArith List Bool String.
From Verif Require Import Machine Sig Ieee Parse Fmt Ops Formats IeeeTests.
Import ListNotations.
Local Open Scope Z_scope.
Local Open Scope bool_scope.

(** ieee.rs:2099 [add] *)
Example test_add_1 : (
   let v0 := INFINITY SingleS in
   let v1 := neg (INFINITY SingleS) in
   let v2 := ZERO SingleS in
   let v3 := neg (ZERO SingleS) in
   let v4 := NAN SingleS in
   let o5 := unwrap_parse (from_str SingleS (bytes "snan123")) in
   let v6 := get junk o5 in
   let o7 := unwrap_parse (from_str SingleS (bytes "0x1p+0")) in
   let v8 := get junk o7 in
   let o9 := unwrap_parse (from_str SingleS (bytes "-0x1p+0")) in
   let v10 := get junk o9 in
   let o11 := op_add SingleS v0 v0 in
   let v12 := get (0, junk) o11 in
   let v13 := fst v12 in
   let v14 := snd v12 in
   let o15 := unwrap_parse (from_str SingleS (bytes "inf")) in
   let v16 := get junk o15 in
   let o17 := op_add SingleS v0 v1 in
   let v18 := get (0, junk) o17 in
   let v19 := fst v18 in
   let v20 := snd v18 in
   let o21 := unwrap_parse (from_str SingleS (bytes "nan")) in
   let v22 := get junk o21 in
   let o23 := op_add SingleS v0 v2 in
   let v24 := get (0, junk) o23 in
   let v25 := fst v24 in
   let v26 := snd v24 in
   let o27 := unwrap_parse (from_str SingleS (bytes "inf")) in
   let v28 := get junk o27 in
   let o29 := op_add SingleS v0 v3 in
   let v30 := get (0, junk) o29 in
   let v31 := fst v30 in
   let v32 := snd v30 in
   let o33 := unwrap_parse (from_str SingleS (bytes "inf")) in
   let v34 := get junk o33 in
   let o35 := op_add SingleS v0 v4 in
   let v36 := get (0, junk) o35 in
   let v37 := fst v36 in
   let v38 := snd v36 in
   let o39 := unwrap_parse (from_str SingleS (bytes "nan")) in
   let v40 := get junk o39 in
   let o41 := op_add SingleS v0 v6 in
   let v42 := get (0, junk) o41 in
   let v43 := fst v42 in
   let v44 := snd v42 in
   let o45 := unwrap_parse (from_str SingleS (bytes "nan123")) in
   let v46 := get junk o45 in
   let o47 := op_add SingleS v0 v8 in
   let v48 := get (0, junk) o47 in
   let v49 := fst v48 in
   let v50 := snd v48 in
   let o51 := unwrap_parse (from_str SingleS (bytes "inf")) in
   let v52 := get junk o51 in
   let o53 := op_add SingleS v0 v10 in
   let v54 := get (0, junk) o53 in
   let v55 := fst v54 in
   all_true [
      returns o5;
      returns o7;
      returns o9;
      returns o11;
      OK =? v13;
      category_eqb Infinity (category v14);
      returns o15;
      bitwise_eq v14 v16;
      returns o17;
      INVALID_OP =? v19;
      category_eqb NaN (category v20);
      returns o21;
      bitwise_eq v20 v22;
      returns o23;
      OK =? v25;
      category_eqb Infinity (category v26);
      returns o27;
      bitwise_eq v26 v28;
      returns o29;
      OK =? v31;
      category_eqb Infinity (category v32);
      returns o33;
      bitwise_eq v32 v34;
      returns o35;
      OK =? v37;
      category_eqb NaN (category v38);
      returns o39;
      bitwise_eq v38 v40;
      returns o41;
      INVALID_OP =? v43;
      category_eqb NaN (category v44);
      returns o45;
      bitwise_eq v44 v46;
      returns o47;
      OK =? v49;
      category_eqb Infinity (category v50);
      returns o51;
      bitwise_eq v50 v52;
      returns o53;
      OK =? v55]) = true.
Proof. vm_compute. reflexivity. Qed.

Example test_add_2 : (
   let v0 := INFINITY SingleS in
   let v1 := neg (INFINITY SingleS) in
   let o2 := unwrap_parse (from_str SingleS (bytes "-0x1p+0")) in
   let v3 := get junk o2 in
   let v4 := largest SingleS in
   let v5 := neg (largest SingleS) in
   let v6 := SMALLEST SingleS in
   let v7 := neg (SMALLEST SingleS) in
   let v8 := smallest_normalized SingleS in
   let v9 := neg (smallest_normalized SingleS) in
   let o10 := op_add SingleS v0 v3 in
   let v11 := get (0, junk) o10 in
   let v12 := snd v11 in
   let o13 := unwrap_parse (from_str SingleS (bytes "inf")) in
   let v14 := get junk o13 in
   let o15 := op_add SingleS v0 v4 in
   let v16 := get (0, junk) o15 in
   let v17 := fst v16 in
   let v18 := snd v16 in
   let o19 := unwrap_parse (from_str SingleS (bytes "inf")) in
   let v20 := get junk o19 in
   let o21 := op_add SingleS v0 v5 in
   let v22 := get (0, junk) o21 in
   let v23 := fst v22 in
   let v24 := snd v22 in
   let o25 := unwrap_parse (from_str SingleS (bytes "inf")) in
   let v26 := get junk o25 in
   let o27 := op_add SingleS v0 v6 in
   let v28 := get (0, junk) o27 in
   let v29 := fst v28 in
   let v30 := snd v28 in
   let o31 := unwrap_parse (from_str SingleS (bytes "inf")) in
   let v32 := get junk o31 in
   let o33 := op_add SingleS v0 v7 in
   let v34 := get (0, junk) o33 in
   let v35 := fst v34 in
   let v36 := snd v34 in
   let o37 := unwrap_parse (from_str SingleS (bytes "inf")) in
   let v38 := get junk o37 in
   let o39 := op_add SingleS v0 v8 in
   let v40 := get (0, junk) o39 in
   let v41 := fst v40 in
   let v42 := snd v40 in
   let o43 := unwrap_parse (from_str SingleS (bytes "inf")) in
   let v44 := get junk o43 in
   let o45 := op_add SingleS v0 v9 in
   let v46 := get (0, junk) o45 in
   let v47 := fst v46 in
   let v48 := snd v46 in
   let o49 := unwrap_parse (from_str SingleS (bytes "inf")) in
   let v50 := get junk o49 in
   let o51 := op_add SingleS v1 v0 in
   let v52 := get (0, junk) o51 in
   let v53 := fst v52 in
   let v54 := snd v52 in
   let o55 := unwrap_parse (from_str SingleS (bytes "nan")) in
   let v56 := get junk o55 in
   let o57 := op_add SingleS v1 v1 in
   let v58 := get (0, junk) o57 in
   let v59 := fst v58 in
   all_true [
      category_eqb Infinity (category v12);
      returns o13;
      bitwise_eq v12 v14;
      returns o15;
      OK =? v17;
      category_eqb Infinity (category v18);
      returns o19;
      bitwise_eq v18 v20;
      returns o21;
      OK =? v23;
      category_eqb Infinity (category v24);
      returns o25;
      bitwise_eq v24 v26;
      returns o27;
      OK =? v29;
      category_eqb Infinity (category v30);
      returns o31;
      bitwise_eq v30 v32;
      returns o33;
      OK =? v35;
      category_eqb Infinity (category v36);
      returns o37;
      bitwise_eq v36 v38;
      returns o39;
      OK =? v41;
      category_eqb Infinity (category v42);
      returns o43;
      bitwise_eq v42 v44;
      returns o45;
      OK =? v47;
      category_eqb Infinity (category v48);
      returns o49;
      bitwise_eq v48 v50;
      returns o51;
      INVALID_OP =? v53;
      category_eqb NaN (category v54);
      returns o55;
      bitwise_eq v54 v56;
      returns o57;
      OK =? v59]) = true.
Proof. vm_compute. reflexivity. Qed.

Example test_add_3 : (
   let v0 := neg (INFINITY SingleS) in
   let v1 := ZERO SingleS in
   let v2 := neg (ZERO SingleS) in
   let v3 := NAN SingleS in
   let o4 := unwrap_parse (from_str SingleS (bytes "snan123")) in
   let v5 := get junk o4 in
   let o6 := unwrap_parse (from_str SingleS (bytes "0x1p+0")) in
   let v7 := get junk o6 in
   let o8 := unwrap_parse (from_str SingleS (bytes "-0x1p+0")) in
   let v9 := get junk o8 in
   let v10 := largest SingleS in
   let v11 := neg (largest SingleS) in
   let o12 := op_add SingleS v0 v0 in
   let v13 := get (0, junk) o12 in
   let v14 := snd v13 in
   let o15 := unwrap_parse (from_str SingleS (bytes "-inf")) in
   let v16 := get junk o15 in
   let o17 := op_add SingleS v0 v1 in
   let v18 := get (0, junk) o17 in
   let v19 := fst v18 in
   let v20 := snd v18 in
   let o21 := unwrap_parse (from_str SingleS (bytes "-inf")) in
   let v22 := get junk o21 in
   let o23 := op_add SingleS v0 v2 in
   let v24 := get (0, junk) o23 in
   let v25 := fst v24 in
   let v26 := snd v24 in
   let o27 := unwrap_parse (from_str SingleS (bytes "-inf")) in
   let v28 := get junk o27 in
   let o29 := op_add SingleS v0 v3 in
   let v30 := get (0, junk) o29 in
   let v31 := fst v30 in
   let v32 := snd v30 in
   let o33 := unwrap_parse (from_str SingleS (bytes "nan")) in
   let v34 := get junk o33 in
   let o35 := op_add SingleS v0 v5 in
   let v36 := get (0, junk) o35 in
   let v37 := fst v36 in
   let v38 := snd v36 in
   let o39 := unwrap_parse (from_str SingleS (bytes "nan123")) in
   let v40 := get junk o39 in
   let o41 := op_add SingleS v0 v7 in
   let v42 := get (0, junk) o41 in
   let v43 := fst v42 in
   let v44 := snd v42 in
   let o45 := unwrap_parse (from_str SingleS (bytes "-inf")) in
   let v46 := get junk o45 in
   let o47 := op_add SingleS v0 v9 in
   let v48 := get (0, junk) o47 in
   let v49 := fst v48 in
   let v50 := snd v48 in
   let o51 := unwrap_parse (from_str SingleS (bytes "-inf")) in
   let v52 := get junk o51 in
   let o53 := op_add SingleS v0 v10 in
   let v54 := get (0, junk) o53 in
   let v55 := fst v54 in
   let v56 := snd v54 in
   let o57 := unwrap_parse (from_str SingleS (bytes "-inf")) in
   let v58 := get junk o57 in
   let o59 := op_add SingleS v0 v11 in
   let v60 := get (0, junk) o59 in
   let v61 := fst v60 in
   all_true [
      category_eqb Infinity (category v14);
      returns o15;
      bitwise_eq v14 v16;
      returns o17;
      OK =? v19;
      category_eqb Infinity (category v20);
      returns o21;
      bitwise_eq v20 v22;
      returns o23;
      OK =? v25;
      category_eqb Infinity (category v26);
      returns o27;
      bitwise_eq v26 v28;
      returns o29;
      OK =? v31;
      category_eqb NaN (category v32);
      returns o33;
      bitwise_eq v32 v34;
      returns o35;
      INVALID_OP =? v37;
      category_eqb NaN (category v38);
      returns o39;
      bitwise_eq v38 v40;
      returns o41;
      OK =? v43;
      category_eqb Infinity (category v44);
      returns o45;
      bitwise_eq v44 v46;
      returns o47;
      OK =? v49;
      category_eqb Infinity (category v50);
      returns o51;
      bitwise_eq v50 v52;
      returns o53;
      OK =? v55;
      category_eqb Infinity (category v56);
      returns o57;
      bitwise_eq v56 v58;
      returns o59;
      OK =? v61]) = true.
Proof. vm_compute. reflexivity. Qed.

Example test_add_4 : (
   let v0 := INFINITY SingleS in
   let v1 := neg (INFINITY SingleS) in
   let v2 := ZERO SingleS in
   let v3 := neg (ZERO SingleS) in
   let v4 := neg (largest SingleS) in
   let v5 := SMALLEST SingleS in
   let v6 := neg (SMALLEST SingleS) in
   let v7 := smallest_normalized SingleS in
   let v8 := neg (smallest_normalized SingleS) in
   let o9 := op_add SingleS v1 v4 in
   let v10 := get (0, junk) o9 in
   let v11 := snd v10 in
   let o12 := unwrap_parse (from_str SingleS (bytes "-inf")) in
   let v13 := get junk o12 in
   let o14 := op_add SingleS v1 v5 in
   let v15 := get (0, junk) o14 in
   let v16 := fst v15 in
   let v17 := snd v15 in
   let o18 := unwrap_parse (from_str SingleS (bytes "-inf")) in
   let v19 := get junk o18 in
   let o20 := op_add SingleS v1 v6 in
   let v21 := get (0, junk) o20 in
   let v22 := fst v21 in
   let v23 := snd v21 in
   let o24 := unwrap_parse (from_str SingleS (bytes "-inf")) in
   let v25 := get junk o24 in
   let o26 := op_add SingleS v1 v7 in
   let v27 := get (0, junk) o26 in
   let v28 := fst v27 in
   let v29 := snd v27 in
   let o30 := unwrap_parse (from_str SingleS (bytes "-inf")) in
   let v31 := get junk o30 in
   let o32 := op_add SingleS v1 v8 in
   let v33 := get (0, junk) o32 in
   let v34 := fst v33 in
   let v35 := snd v33 in
   let o36 := unwrap_parse (from_str SingleS (bytes "-inf")) in
   let v37 := get junk o36 in
   let o38 := op_add SingleS v2 v0 in
   let v39 := get (0, junk) o38 in
   let v40 := fst v39 in
   let v41 := snd v39 in
   let o42 := unwrap_parse (from_str SingleS (bytes "inf")) in
   let v43 := get junk o42 in
   let o44 := op_add SingleS v2 v1 in
   let v45 := get (0, junk) o44 in
   let v46 := fst v45 in
   let v47 := snd v45 in
   let o48 := unwrap_parse (from_str SingleS (bytes "-inf")) in
   let v49 := get junk o48 in
   let o50 := op_add SingleS v2 v2 in
   let v51 := get (0, junk) o50 in
   let v52 := fst v51 in
   let v53 := snd v51 in
   let o54 := unwrap_parse (from_str SingleS (bytes "0x0p+0")) in
   let v55 := get junk o54 in
   let o56 := op_add SingleS v2 v3 in
   let v57 := get (0, junk) o56 in
   let v58 := fst v57 in
   all_true [
      category_eqb Infinity (category v11);
      returns o12;
      bitwise_eq v11 v13;
      returns o14;
      OK =? v16;
      category_eqb Infinity (category v17);
      returns o18;
      bitwise_eq v17 v19;
      returns o20;
      OK =? v22;
      category_eqb Infinity (category v23);
      returns o24;
      bitwise_eq v23 v25;
      returns o26;
      OK =? v28;
      category_eqb Infinity (category v29);
      returns o30;
      bitwise_eq v29 v31;
      returns o32;
      OK =? v34;
      category_eqb Infinity (category v35);
      returns o36;
      bitwise_eq v35 v37;
      returns o38;
      OK =? v40;
      category_eqb Infinity (category v41);
      returns o42;
      bitwise_eq v41 v43;
      returns o44;
      OK =? v46;
      category_eqb Infinity (category v47);
      returns o48;
      bitwise_eq v47 v49;
      returns o50;
      OK =? v52;
      category_eqb Zero (category v53);
      returns o54;
      bitwise_eq v53 v55;
      returns o56;
      OK =? v58]) = true.
Proof. vm_compute. reflexivity. Qed.

Example test_add_5 : (
   let v0 := ZERO SingleS in
   let v1 := neg (ZERO SingleS) in
   let v2 := NAN SingleS in
   let o3 := unwrap_parse (from_str SingleS (bytes "snan123")) in
   let v4 := get junk o3 in
   let o5 := unwrap_parse (from_str SingleS (bytes "0x1p+0")) in
   let v6 := get junk o5 in
   let o7 := unwrap_parse (from_str SingleS (bytes "-0x1p+0")) in
   let v8 := get junk o7 in
   let v9 := largest SingleS in
   let v10 := neg (largest SingleS) in
   let v11 := SMALLEST SingleS in
   let v12 := neg (SMALLEST SingleS) in
   let o13 := op_add SingleS v0 v1 in
   let v14 := get (0, junk) o13 in
   let v15 := snd v14 in
   let o16 := unwrap_parse (from_str SingleS (bytes "0x0p+0")) in
   let v17 := get junk o16 in
   let o18 := op_add SingleS v0 v2 in
   let v19 := get (0, junk) o18 in
   let v20 := fst v19 in
   let v21 := snd v19 in
   let o22 := unwrap_parse (from_str SingleS (bytes "nan")) in
   let v23 := get junk o22 in
   let o24 := op_add SingleS v0 v4 in
   let v25 := get (0, junk) o24 in
   let v26 := fst v25 in
   let v27 := snd v25 in
   let o28 := unwrap_parse (from_str SingleS (bytes "nan123")) in
   let v29 := get junk o28 in
   let o30 := op_add SingleS v0 v6 in
   let v31 := get (0, junk) o30 in
   let v32 := fst v31 in
   let v33 := snd v31 in
   let o34 := unwrap_parse (from_str SingleS (bytes "0x1p+0")) in
   let v35 := get junk o34 in
   let o36 := op_add SingleS v0 v8 in
   let v37 := get (0, junk) o36 in
   let v38 := fst v37 in
   let v39 := snd v37 in
   let o40 := unwrap_parse (from_str SingleS (bytes "-0x1p+0")) in
   let v41 := get junk o40 in
   let o42 := op_add SingleS v0 v9 in
   let v43 := get (0, junk) o42 in
   let v44 := fst v43 in
   let v45 := snd v43 in
   let o46 := unwrap_parse (from_str SingleS (bytes "0x1.fffffep+127")) in
   let v47 := get junk o46 in
   let o48 := op_add SingleS v0 v10 in
   let v49 := get (0, junk) o48 in
   let v50 := fst v49 in
   let v51 := snd v49 in
   let o52 := unwrap_parse (from_str SingleS (bytes "-0x1.fffffep+127")) in
   let v53 := get junk o52 in
   let o54 := op_add SingleS v0 v11 in
   let v55 := get (0, junk) o54 in
   let v56 := fst v55 in
   let v57 := snd v55 in
   let o58 := unwrap_parse (from_str SingleS (bytes "0x1p-149")) in
   let v59 := get junk o58 in
   let o60 := op_add SingleS v0 v12 in
   let v61 := get (0, junk) o60 in
   let v62 := fst v61 in
   all_true [
      category_eqb Zero (category v15);
      returns o16;
      bitwise_eq v15 v17;
      returns o18;
      OK =? v20;
      category_eqb NaN (category v21);
      returns o22;
      bitwise_eq v21 v23;
      returns o24;
      INVALID_OP =? v26;
      category_eqb NaN (category v27);
      returns o28;
      bitwise_eq v27 v29;
      returns o30;
      OK =? v32;
      category_eqb Normal (category v33);
      returns o34;
      bitwise_eq v33 v35;
      returns o36;
      OK =? v38;
      category_eqb Normal (category v39);
      returns o40;
      bitwise_eq v39 v41;
      returns o42;
      OK =? v44;
      category_eqb Normal (category v45);
      returns o46;
      bitwise_eq v45 v47;
      returns o48;
      OK =? v50;
      category_eqb Normal (category v51);
      returns o52;
      bitwise_eq v51 v53;
      returns o54;
      OK =? v56;
      category_eqb Normal (category v57);
      returns o58;
      bitwise_eq v57 v59;
      returns o60;
      OK =? v62]) = true.
Proof. vm_compute. reflexivity. Qed.

Example test_add_6 : (
   let v0 := INFINITY SingleS in
   let v1 := neg (INFINITY SingleS) in
   let v2 := ZERO SingleS in
   let v3 := neg (ZERO SingleS) in
   let v4 := NAN SingleS in
   let o5 := unwrap_parse (from_str SingleS (bytes "snan123")) in
   let v6 := get junk o5 in
   let v7 := neg (SMALLEST SingleS) in
   let v8 := smallest_normalized SingleS in
   let v9 := neg (smallest_normalized SingleS) in
   let o10 := op_add SingleS v2 v7 in
   let v11 := get (0, junk) o10 in
   let v12 := snd v11 in
   let o13 := unwrap_parse (from_str SingleS (bytes "-0x1p-149")) in
   let v14 := get junk o13 in
   let o15 := op_add SingleS v2 v8 in
   let v16 := get (0, junk) o15 in
   let v17 := fst v16 in
   let v18 := snd v16 in
   let o19 := unwrap_parse (from_str SingleS (bytes "0x1p-126")) in
   let v20 := get junk o19 in
   let o21 := op_add SingleS v2 v9 in
   let v22 := get (0, junk) o21 in
   let v23 := fst v22 in
   let v24 := snd v22 in
   let o25 := unwrap_parse (from_str SingleS (bytes "-0x1p-126")) in
   let v26 := get junk o25 in
   let o27 := op_add SingleS v3 v0 in
   let v28 := get (0, junk) o27 in
   let v29 := fst v28 in
   let v30 := snd v28 in
   let o31 := unwrap_parse (from_str SingleS (bytes "inf")) in
   let v32 := get junk o31 in
   let o33 := op_add SingleS v3 v1 in
   let v34 := get (0, junk) o33 in
   let v35 := fst v34 in
   let v36 := snd v34 in
   let o37 := unwrap_parse (from_str SingleS (bytes "-inf")) in
   let v38 := get junk o37 in
   let o39 := op_add SingleS v3 v2 in
   let v40 := get (0, junk) o39 in
   let v41 := fst v40 in
   let v42 := snd v40 in
   let o43 := unwrap_parse (from_str SingleS (bytes "0x0p+0")) in
   let v44 := get junk o43 in
   let o45 := op_add SingleS v3 v3 in
   let v46 := get (0, junk) o45 in
   let v47 := fst v46 in
   let v48 := snd v46 in
   let o49 := unwrap_parse (from_str SingleS (bytes "-0x0p+0")) in
   let v50 := get junk o49 in
   let o51 := op_add SingleS v3 v4 in
   let v52 := get (0, junk) o51 in
   let v53 := fst v52 in
   let v54 := snd v52 in
   let o55 := unwrap_parse (from_str SingleS (bytes "nan")) in
   let v56 := get junk o55 in
   let o57 := op_add SingleS v3 v6 in
   let v58 := get (0, junk) o57 in
   let v59 := fst v58 in
   all_true [
      category_eqb Normal (category v12);
      returns o13;
      bitwise_eq v12 v14;
      returns o15;
      OK =? v17;
      category_eqb Normal (category v18);
      returns o19;
      bitwise_eq v18 v20;
      returns o21;
      OK =? v23;
      category_eqb Normal (category v24);
      returns o25;
      bitwise_eq v24 v26;
      returns o27;
      OK =? v29;
      category_eqb Infinity (category v30);
      returns o31;
      bitwise_eq v30 v32;
      returns o33;
      OK =? v35;
      category_eqb Infinity (category v36);
      returns o37;
      bitwise_eq v36 v38;
      returns o39;
      OK =? v41;
      category_eqb Zero (category v42);
      returns o43;
      bitwise_eq v42 v44;
      returns o45;
      OK =? v47;
      category_eqb Zero (category v48);
      returns o49;
      bitwise_eq v48 v50;
      returns o51;
      OK =? v53;
      category_eqb NaN (category v54);
      returns o55;
      bitwise_eq v54 v56;
      returns o57;
      INVALID_OP =? v59]) = true.
Proof. vm_compute. reflexivity. Qed.

Example test_add_7 : (
   let v0 := neg (ZERO SingleS) in
   let o1 := unwrap_parse (from_str SingleS (bytes "snan123")) in
   let v2 := get junk o1 in
   let o3 := unwrap_parse (from_str SingleS (bytes "0x1p+0")) in
   let v4 := get junk o3 in
   let o5 := unwrap_parse (from_str SingleS (bytes "-0x1p+0")) in
   let v6 := get junk o5 in
   let v7 := largest SingleS in
   let v8 := neg (largest SingleS) in
   let v9 := SMALLEST SingleS in
   let v10 := neg (SMALLEST SingleS) in
   let v11 := smallest_normalized SingleS in
   let v12 := neg (smallest_normalized SingleS) in
   let o13 := op_add SingleS v0 v2 in
   let v14 := get (0, junk) o13 in
   let v15 := snd v14 in
   let o16 := unwrap_parse (from_str SingleS (bytes "nan123")) in
   let v17 := get junk o16 in
   let o18 := op_add SingleS v0 v4 in
   let v19 := get (0, junk) o18 in
   let v20 := fst v19 in
   let v21 := snd v19 in
   let o22 := unwrap_parse (from_str SingleS (bytes "0x1p+0")) in
   let v23 := get junk o22 in
   let o24 := op_add SingleS v0 v6 in
   let v25 := get (0, junk) o24 in
   let v26 := fst v25 in
   let v27 := snd v25 in
   let o28 := unwrap_parse (from_str SingleS (bytes "-0x1p+0")) in
   let v29 := get junk o28 in
   let o30 := op_add SingleS v0 v7 in
   let v31 := get (0, junk) o30 in
   let v32 := fst v31 in
   let v33 := snd v31 in
   let o34 := unwrap_parse (from_str SingleS (bytes "0x1.fffffep+127")) in
   let v35 := get junk o34 in
   let o36 := op_add SingleS v0 v8 in
   let v37 := get (0, junk) o36 in
   let v38 := fst v37 in
   let v39 := snd v37 in
   let o40 := unwrap_parse (from_str SingleS (bytes "-0x1.fffffep+127")) in
   let v41 := get junk o40 in
   let o42 := op_add SingleS v0 v9 in
   let v43 := get (0, junk) o42 in
   let v44 := fst v43 in
   let v45 := snd v43 in
   let o46 := unwrap_parse (from_str SingleS (bytes "0x1p-149")) in
   let v47 := get junk o46 in
   let o48 := op_add SingleS v0 v10 in
   let v49 := get (0, junk) o48 in
   let v50 := fst v49 in
   let v51 := snd v49 in
   let o52 := unwrap_parse (from_str SingleS (bytes "-0x1p-149")) in
   let v53 := get junk o52 in
   let o54 := op_add SingleS v0 v11 in
   let v55 := get (0, junk) o54 in
   let v56 := fst v55 in
   let v57 := snd v55 in
   let o58 := unwrap_parse (from_str SingleS (bytes "0x1p-126")) in
   let v59 := get junk o58 in
   let o60 := op_add SingleS v0 v12 in
   let v61 := get (0, junk) o60 in
   let v62 := fst v61 in
   all_true [
      category_eqb NaN (category v15);
      returns o16;
      bitwise_eq v15 v17;
      returns o18;
      OK =? v20;
      category_eqb Normal (category v21);
      returns o22;
      bitwise_eq v21 v23;
      returns o24;
      OK =? v26;
      category_eqb Normal (category v27);
      returns o28;
      bitwise_eq v27 v29;
      returns o30;
      OK =? v32;
      category_eqb Normal (category v33);
      returns o34;
      bitwise_eq v33 v35;
      returns o36;
      OK =? v38;
      category_eqb Normal (category v39);
      returns o40;
      bitwise_eq v39 v41;
      returns o42;
      OK =? v44;
      category_eqb Normal (category v45);
      returns o46;
      bitwise_eq v45 v47;
      returns o48;
      OK =? v50;
      category_eqb Normal (category v51);
      returns o52;
      bitwise_eq v51 v53;
      returns o54;
      OK =? v56;
      category_eqb Normal (category v57);
      returns o58;
      bitwise_eq v57 v59;
      returns o60;
      OK =? v62]) = true.
Proof. vm_compute. reflexivity. Qed.

Example test_add_8 : (
   let v0 := INFINITY SingleS in
   let v1 := neg (INFINITY SingleS) in
   let v2 := ZERO SingleS in
   let v3 := neg (ZERO SingleS) in
   let v4 := NAN SingleS in
   let o5 := unwrap_parse (from_str SingleS (bytes "snan123")) in
   let v6 := get junk o5 in
   let o7 := unwrap_parse (from_str SingleS (bytes "0x1p+0")) in
   let v8 := get junk o7 in
   let o9 := unwrap_parse (from_str SingleS (bytes "-0x1p+0")) in
   let v10 := get junk o9 in
   let v11 := neg (smallest_normalized SingleS) in
   let o12 := op_add SingleS v3 v11 in
   let v13 := get (0, junk) o12 in
   let v14 := snd v13 in
   let o15 := unwrap_parse (from_str SingleS (bytes "-0x1p-126")) in
   let v16 := get junk o15 in
   let o17 := op_add SingleS v4 v0 in
   let v18 := get (0, junk) o17 in
   let v19 := fst v18 in
   let v20 := snd v18 in
   let o21 := unwrap_parse (from_str SingleS (bytes "nan")) in
   let v22 := get junk o21 in
   let o23 := op_add SingleS v4 v1 in
   let v24 := get (0, junk) o23 in
   let v25 := fst v24 in
   let v26 := snd v24 in
   let o27 := unwrap_parse (from_str SingleS (bytes "nan")) in
   let v28 := get junk o27 in
   let o29 := op_add SingleS v4 v2 in
   let v30 := get (0, junk) o29 in
   let v31 := fst v30 in
   let v32 := snd v30 in
   let o33 := unwrap_parse (from_str SingleS (bytes "nan")) in
   let v34 := get junk o33 in
   let o35 := op_add SingleS v4 v3 in
   let v36 := get (0, junk) o35 in
   let v37 := fst v36 in
   let v38 := snd v36 in
   let o39 := unwrap_parse (from_str SingleS (bytes "nan")) in
   let v40 := get junk o39 in
   let o41 := op_add SingleS v4 v4 in
   let v42 := get (0, junk) o41 in
   let v43 := fst v42 in
   let v44 := snd v42 in
   let o45 := unwrap_parse (from_str SingleS (bytes "nan")) in
   let v46 := get junk o45 in
   let o47 := op_add SingleS v4 v6 in
   let v48 := get (0, junk) o47 in
   let v49 := fst v48 in
   let v50 := snd v48 in
   let o51 := unwrap_parse (from_str SingleS (bytes "nan")) in
   let v52 := get junk o51 in
   let o53 := op_add SingleS v4 v8 in
   let v54 := get (0, junk) o53 in
   let v55 := fst v54 in
   let v56 := snd v54 in
   let o57 := unwrap_parse (from_str SingleS (bytes "nan")) in
   let v58 := get junk o57 in
   let o59 := op_add SingleS v4 v10 in
   let v60 := get (0, junk) o59 in
   let v61 := fst v60 in
   all_true [
      category_eqb Normal (category v14);
      returns o15;
      bitwise_eq v14 v16;
      returns o17;
      OK =? v19;
      category_eqb NaN (category v20);
      returns o21;
      bitwise_eq v20 v22;
      returns o23;
      OK =? v25;
      category_eqb NaN (category v26);
      returns o27;
      bitwise_eq v26 v28;
      returns o29;
      OK =? v31;
      category_eqb NaN (category v32);
      returns o33;
      bitwise_eq v32 v34;
      returns o35;
      OK =? v37;
      category_eqb NaN (category v38);
      returns o39;
      bitwise_eq v38 v40;
      returns o41;
      OK =? v43;
      category_eqb NaN (category v44);
      returns o45;
      bitwise_eq v44 v46;
      returns o47;
      INVALID_OP =? v49;
      category_eqb NaN (category v50);
      returns o51;
      bitwise_eq v50 v52;
      returns o53;
      OK =? v55;
      category_eqb NaN (category v56);
      returns o57;
      bitwise_eq v56 v58;
      returns o59;
      OK =? v61]) = true.
Proof. vm_compute. reflexivity. Qed.

Example test_add_9 : (
   let v0 := INFINITY SingleS in
   let v1 := neg (INFINITY SingleS) in
   let v2 := NAN SingleS in
   let o3 := unwrap_parse (from_str SingleS (bytes "snan123")) in
   let v4 := get junk o3 in
   let o5 := unwrap_parse (from_str SingleS (bytes "-0x1p+0")) in
   let v6 := get junk o5 in
   let v7 := largest SingleS in
   let v8 := neg (largest SingleS) in
   let v9 := SMALLEST SingleS in
   let v10 := neg (SMALLEST SingleS) in
   let v11 := smallest_normalized SingleS in
   let v12 := neg (smallest_normalized SingleS) in
   let o13 := op_add SingleS v2 v6 in
   let v14 := get (0, junk) o13 in
   let v15 := snd v14 in
   let o16 := unwrap_parse (from_str SingleS (bytes "nan")) in
   let v17 := get junk o16 in
   let o18 := op_add SingleS v2 v7 in
   let v19 := get (0, junk) o18 in
   let v20 := fst v19 in
   let v21 := snd v19 in
   let o22 := unwrap_parse (from_str SingleS (bytes "nan")) in
   let v23 := get junk o22 in
   let o24 := op_add SingleS v2 v8 in
   let v25 := get (0, junk) o24 in
   let v26 := fst v25 in
   let v27 := snd v25 in
   let o28 := unwrap_parse (from_str SingleS (bytes "nan")) in
   let v29 := get junk o28 in
   let o30 := op_add SingleS v2 v9 in
   let v31 := get (0, junk) o30 in
   let v32 := fst v31 in
   let v33 := snd v31 in
   let o34 := unwrap_parse (from_str SingleS (bytes "nan")) in
   let v35 := get junk o34 in
   let o36 := op_add SingleS v2 v10 in
   let v37 := get (0, junk) o36 in
   let v38 := fst v37 in
   let v39 := snd v37 in
   let o40 := unwrap_parse (from_str SingleS (bytes "nan")) in
   let v41 := get junk o40 in
   let o42 := op_add SingleS v2 v11 in
   let v43 := get (0, junk) o42 in
   let v44 := fst v43 in
   let v45 := snd v43 in
   let o46 := unwrap_parse (from_str SingleS (bytes "nan")) in
   let v47 := get junk o46 in
   let o48 := op_add SingleS v2 v12 in
   let v49 := get (0, junk) o48 in
   let v50 := fst v49 in
   let v51 := snd v49 in
   let o52 := unwrap_parse (from_str SingleS (bytes "nan")) in
   let v53 := get junk o52 in
   let o54 := op_add SingleS v4 v0 in
   let v55 := get (0, junk) o54 in
   let v56 := fst v55 in
   let v57 := snd v55 in
   let o58 := unwrap_parse (from_str SingleS (bytes "nan123")) in
   let v59 := get junk o58 in
   let o60 := op_add SingleS v4 v1 in
   let v61 := get (0, junk) o60 in
   let v62 := fst v61 in
   all_true [
      category_eqb NaN (category v15);
      returns o16;
      bitwise_eq v15 v17;
      returns o18;
      OK =? v20;
      category_eqb NaN (category v21);
      returns o22;
      bitwise_eq v21 v23;
      returns o24;
      OK =? v26;
      category_eqb NaN (category v27);
      returns o28;
      bitwise_eq v27 v29;
      returns o30;
      OK =? v32;
      category_eqb NaN (category v33);
      returns o34;
      bitwise_eq v33 v35;
      returns o36;
      OK =? v38;
      category_eqb NaN (category v39);
      returns o40;
      bitwise_eq v39 v41;
      returns o42;
      OK =? v44;
      category_eqb NaN (category v45);
      returns o46;
      bitwise_eq v45 v47;
      returns o48;
      OK =? v50;
      category_eqb NaN (category v51);
      returns o52;
      bitwise_eq v51 v53;
      returns o54;
      INVALID_OP =? v56;
      category_eqb NaN (category v57);
      returns o58;
      bitwise_eq v57 v59;
      returns o60;
      INVALID_OP =? v62]) = true.
Proof. vm_compute. reflexivity. Qed.

Example test_add_10 : (
   let v0 := neg (INFINITY SingleS) in
   let v1 := ZERO SingleS in
   let v2 := neg (ZERO SingleS) in
   let v3 := NAN SingleS in
   let o4 := unwrap_parse (from_str SingleS (bytes "snan123")) in
   let v5 := get junk o4 in
   let o6 := unwrap_parse (from_str SingleS (bytes "0x1p+0")) in
   let v7 := get junk o6 in
   let o8 := unwrap_parse (from_str SingleS (bytes "-0x1p+0")) in
   let v9 := get junk o8 in
   let v10 := largest SingleS in
   let v11 := neg (largest SingleS) in
   let o12 := op_add SingleS v5 v0 in
   let v13 := get (0, junk) o12 in
   let v14 := snd v13 in
   let o15 := unwrap_parse (from_str SingleS (bytes "nan123")) in
   let v16 := get junk o15 in
   let o17 := op_add SingleS v5 v1 in
   let v18 := get (0, junk) o17 in
   let v19 := fst v18 in
   let v20 := snd v18 in
   let o21 := unwrap_parse (from_str SingleS (bytes "nan123")) in
   let v22 := get junk o21 in
   let o23 := op_add SingleS v5 v2 in
   let v24 := get (0, junk) o23 in
   let v25 := fst v24 in
   let v26 := snd v24 in
   let o27 := unwrap_parse (from_str SingleS (bytes "nan123")) in
   let v28 := get junk o27 in
   let o29 := op_add SingleS v5 v3 in
   let v30 := get (0, junk) o29 in
   let v31 := fst v30 in
   let v32 := snd v30 in
   let o33 := unwrap_parse (from_str SingleS (bytes "nan123")) in
   let v34 := get junk o33 in
   let o35 := op_add SingleS v5 v5 in
   let v36 := get (0, junk) o35 in
   let v37 := fst v36 in
   let v38 := snd v36 in
   let o39 := unwrap_parse (from_str SingleS (bytes "nan123")) in
   let v40 := get junk o39 in
   let o41 := op_add SingleS v5 v7 in
   let v42 := get (0, junk) o41 in
   let v43 := fst v42 in
   let v44 := snd v42 in
   let o45 := unwrap_parse (from_str SingleS (bytes "nan123")) in
   let v46 := get junk o45 in
   let o47 := op_add SingleS v5 v9 in
   let v48 := get (0, junk) o47 in
   let v49 := fst v48 in
   let v50 := snd v48 in
   let o51 := unwrap_parse (from_str SingleS (bytes "nan123")) in
   let v52 := get junk o51 in
   let o53 := op_add SingleS v5 v10 in
   let v54 := get (0, junk) o53 in
   let v55 := fst v54 in
   let v56 := snd v54 in
   let o57 := unwrap_parse (from_str SingleS (bytes "nan123")) in
   let v58 := get junk o57 in
   let o59 := op_add SingleS v5 v11 in
   let v60 := get (0, junk) o59 in
   let v61 := fst v60 in
   all_true [
      category_eqb NaN (category v14);
      returns o15;
      bitwise_eq v14 v16;
      returns o17;
      INVALID_OP =? v19;
      category_eqb NaN (category v20);
      returns o21;
      bitwise_eq v20 v22;
      returns o23;
      INVALID_OP =? v25;
      category_eqb NaN (category v26);
      returns o27;
      bitwise_eq v26 v28;
      returns o29;
      INVALID_OP =? v31;
      category_eqb NaN (category v32);
      returns o33;
      bitwise_eq v32 v34;
      returns o35;
      INVALID_OP =? v37;
      category_eqb NaN (category v38);
      returns o39;
      bitwise_eq v38 v40;
      returns o41;
      INVALID_OP =? v43;
      category_eqb NaN (category v44);
      returns o45;
      bitwise_eq v44 v46;
      returns o47;
      INVALID_OP =? v49;
      category_eqb NaN (category v50);
      returns o51;
      bitwise_eq v50 v52;
      returns o53;
      INVALID_OP =? v55;
      category_eqb NaN (category v56);
      returns o57;
      bitwise_eq v56 v58;
      returns o59;
      INVALID_OP =? v61]) = true.
Proof. vm_compute. reflexivity. Qed.

Example test_add_11 : (
   let v0 := INFINITY SingleS in
   let v1 := neg (INFINITY SingleS) in
   let v2 := ZERO SingleS in
   let v3 := neg (ZERO SingleS) in
   let o4 := unwrap_parse (from_str SingleS (bytes "snan123")) in
   let v5 := get junk o4 in
   let o6 := unwrap_parse (from_str SingleS (bytes "0x1p+0")) in
   let v7 := get junk o6 in
   let v8 := neg (largest SingleS) in
   let v9 := SMALLEST SingleS in
   let v10 := neg (SMALLEST SingleS) in
   let v11 := smallest_normalized SingleS in
   let v12 := neg (smallest_normalized SingleS) in
   let o13 := op_add SingleS v5 v8 in
   let v14 := get (0, junk) o13 in
   let v15 := snd v14 in
   let o16 := unwrap_parse (from_str SingleS (bytes "nan123")) in
   let v17 := get junk o16 in
   let o18 := op_add SingleS v5 v9 in
   let v19 := get (0, junk) o18 in
   let v20 := fst v19 in
   let v21 := snd v19 in
   let o22 := unwrap_parse (from_str SingleS (bytes "nan123")) in
   let v23 := get junk o22 in
   let o24 := op_add SingleS v5 v10 in
   let v25 := get (0, junk) o24 in
   let v26 := fst v25 in
   let v27 := snd v25 in
   let o28 := unwrap_parse (from_str SingleS (bytes "nan123")) in
   let v29 := get junk o28 in
   let o30 := op_add SingleS v5 v11 in
   let v31 := get (0, junk) o30 in
   let v32 := fst v31 in
   let v33 := snd v31 in
   let o34 := unwrap_parse (from_str SingleS (bytes "nan123")) in
   let v35 := get junk o34 in
   let o36 := op_add SingleS v5 v12 in
   let v37 := get (0, junk) o36 in
   let v38 := fst v37 in
   let v39 := snd v37 in
   let o40 := unwrap_parse (from_str SingleS (bytes "nan123")) in
   let v41 := get junk o40 in
   let o42 := op_add SingleS v7 v0 in
   let v43 := get (0, junk) o42 in
   let v44 := fst v43 in
   let v45 := snd v43 in
   let o46 := unwrap_parse (from_str SingleS (bytes "inf")) in
   let v47 := get junk o46 in
   let o48 := op_add SingleS v7 v1 in
   let v49 := get (0, junk) o48 in
   let v50 := fst v49 in
   let v51 := snd v49 in
   let o52 := unwrap_parse (from_str SingleS (bytes "-inf")) in
   let v53 := get junk o52 in
   let o54 := op_add SingleS v7 v2 in
   let v55 := get (0, junk) o54 in
   let v56 := fst v55 in
   let v57 := snd v55 in
   let o58 := unwrap_parse (from_str SingleS (bytes "0x1p+0")) in
   let v59 := get junk o58 in
   let o60 := op_add SingleS v7 v3 in
   let v61 := get (0, junk) o60 in
   let v62 := fst v61 in
   all_true [
      category_eqb NaN (category v15);
      returns o16;
      bitwise_eq v15 v17;
      returns o18;
      INVALID_OP =? v20;
      category_eqb NaN (category v21);
      returns o22;
      bitwise_eq v21 v23;
      returns o24;
      INVALID_OP =? v26;
      category_eqb NaN (category v27);
      returns o28;
      bitwise_eq v27 v29;
      returns o30;
      INVALID_OP =? v32;
      category_eqb NaN (category v33);
      returns o34;
      bitwise_eq v33 v35;
      returns o36;
      INVALID_OP =? v38;
      category_eqb NaN (category v39);
      returns o40;
      bitwise_eq v39 v41;
      returns o42;
      OK =? v44;
      category_eqb Infinity (category v45);
      returns o46;
      bitwise_eq v45 v47;
      returns o48;
      OK =? v50;
      category_eqb Infinity (category v51);
      returns o52;
      bitwise_eq v51 v53;
      returns o54;
      OK =? v56;
      category_eqb Normal (category v57);
      returns o58;
      bitwise_eq v57 v59;
      returns o60;
      OK =? v62]) = true.
Proof. vm_compute. reflexivity. Qed.

Example test_add_12 : (
   let v0 := neg (ZERO SingleS) in
   let v1 := NAN SingleS in
   let o2 := unwrap_parse (from_str SingleS (bytes "snan123")) in
   let v3 := get junk o2 in
   let o4 := unwrap_parse (from_str SingleS (bytes "0x1p+0")) in
   let v5 := get junk o4 in
   let o6 := unwrap_parse (from_str SingleS (bytes "-0x1p+0")) in
   let v7 := get junk o6 in
   let v8 := largest SingleS in
   let v9 := neg (largest SingleS) in
   let v10 := SMALLEST SingleS in
   let v11 := neg (SMALLEST SingleS) in
   let o12 := op_add SingleS v5 v0 in
   let v13 := get (0, junk) o12 in
   let v14 := snd v13 in
   let o15 := unwrap_parse (from_str SingleS (bytes "0x1p+0")) in
   let v16 := get junk o15 in
   let o17 := op_add SingleS v5 v1 in
   let v18 := get (0, junk) o17 in
   let v19 := fst v18 in
   let v20 := snd v18 in
   let o21 := unwrap_parse (from_str SingleS (bytes "nan")) in
   let v22 := get junk o21 in
   let o23 := op_add SingleS v5 v3 in
   let v24 := get (0, junk) o23 in
   let v25 := fst v24 in
   let v26 := snd v24 in
   let o27 := unwrap_parse (from_str SingleS (bytes "nan123")) in
   let v28 := get junk o27 in
   let o29 := op_add SingleS v5 v5 in
   let v30 := get (0, junk) o29 in
   let v31 := fst v30 in
   let v32 := snd v30 in
   let o33 := unwrap_parse (from_str SingleS (bytes "0x1p+1")) in
   let v34 := get junk o33 in
   let o35 := op_add SingleS v5 v7 in
   let v36 := get (0, junk) o35 in
   let v37 := fst v36 in
   let v38 := snd v36 in
   let o39 := unwrap_parse (from_str SingleS (bytes "0x0p+0")) in
   let v40 := get junk o39 in
   let o41 := op_add SingleS v5 v8 in
   let v42 := get (0, junk) o41 in
   let v43 := fst v42 in
   let v44 := snd v42 in
   let o45 := unwrap_parse (from_str SingleS (bytes "0x1.fffffep+127")) in
   let v46 := get junk o45 in
   let o47 := op_add SingleS v5 v9 in
   let v48 := get (0, junk) o47 in
   let v49 := fst v48 in
   let v50 := snd v48 in
   let o51 := unwrap_parse (from_str SingleS (bytes "-0x1.fffffep+127")) in
   let v52 := get junk o51 in
   let o53 := op_add SingleS v5 v10 in
   let v54 := get (0, junk) o53 in
   let v55 := fst v54 in
   let v56 := snd v54 in
   let o57 := unwrap_parse (from_str SingleS (bytes "0x1p+0")) in
   let v58 := get junk o57 in
   let o59 := op_add SingleS v5 v11 in
   let v60 := get (0, junk) o59 in
   let v61 := fst v60 in
   all_true [
      category_eqb Normal (category v14);
      returns o15;
      bitwise_eq v14 v16;
      returns o17;
      OK =? v19;
      category_eqb NaN (category v20);
      returns o21;
      bitwise_eq v20 v22;
      returns o23;
      INVALID_OP =? v25;
      category_eqb NaN (category v26);
      returns o27;
      bitwise_eq v26 v28;
      returns o29;
      OK =? v31;
      category_eqb Normal (category v32);
      returns o33;
      bitwise_eq v32 v34;
      returns o35;
      OK =? v37;
      category_eqb Zero (category v38);
      returns o39;
      bitwise_eq v38 v40;
      returns o41;
      INEXACT =? v43;
      category_eqb Normal (category v44);
      returns o45;
      bitwise_eq v44 v46;
      returns o47;
      INEXACT =? v49;
      category_eqb Normal (category v50);
      returns o51;
      bitwise_eq v50 v52;
      returns o53;
      INEXACT =? v55;
      category_eqb Normal (category v56);
      returns o57;
      bitwise_eq v56 v58;
      returns o59;
      INEXACT =? v61]) = true.
Proof. vm_compute. reflexivity. Qed.

Example test_add_13 : (
   let v0 := INFINITY SingleS in
   let v1 := neg (INFINITY SingleS) in
   let v2 := ZERO SingleS in
   let v3 := neg (ZERO SingleS) in
   let v4 := NAN SingleS in
   let o5 := unwrap_parse (from_str SingleS (bytes "snan123")) in
   let v6 := get junk o5 in
   let o7 := unwrap_parse (from_str SingleS (bytes "0x1p+0")) in
   let v8 := get junk o7 in
   let o9 := unwrap_parse (from_str SingleS (bytes "-0x1p+0")) in
   let v10 := get junk o9 in
   let v11 := neg (SMALLEST SingleS) in
   let v12 := smallest_normalized SingleS in
   let v13 := neg (smallest_normalized SingleS) in
   let o14 := op_add SingleS v8 v11 in
   let v15 := get (0, junk) o14 in
   let v16 := snd v15 in
   let o17 := unwrap_parse (from_str SingleS (bytes "0x1p+0")) in
   let v18 := get junk o17 in
   let o19 := op_add SingleS v8 v12 in
   let v20 := get (0, junk) o19 in
   let v21 := fst v20 in
   let v22 := snd v20 in
   let o23 := unwrap_parse (from_str SingleS (bytes "0x1p+0")) in
   let v24 := get junk o23 in
   let o25 := op_add SingleS v8 v13 in
   let v26 := get (0, junk) o25 in
   let v27 := fst v26 in
   let v28 := snd v26 in
   let o29 := unwrap_parse (from_str SingleS (bytes "0x1p+0")) in
   let v30 := get junk o29 in
   let o31 := op_add SingleS v10 v0 in
   let v32 := get (0, junk) o31 in
   let v33 := fst v32 in
   let v34 := snd v32 in
   let o35 := unwrap_parse (from_str SingleS (bytes "inf")) in
   let v36 := get junk o35 in
   let o37 := op_add SingleS v10 v1 in
   let v38 := get (0, junk) o37 in
   let v39 := fst v38 in
   let v40 := snd v38 in
   let o41 := unwrap_parse (from_str SingleS (bytes "-inf")) in
   let v42 := get junk o41 in
   let o43 := op_add SingleS v10 v2 in
   let v44 := get (0, junk) o43 in
   let v45 := fst v44 in
   let v46 := snd v44 in
   let o47 := unwrap_parse (from_str SingleS (bytes "-0x1p+0")) in
   let v48 := get junk o47 in
   let o49 := op_add SingleS v10 v3 in
   let v50 := get (0, junk) o49 in
   let v51 := fst v50 in
   let v52 := snd v50 in
   let o53 := unwrap_parse (from_str SingleS (bytes "-0x1p+0")) in
   let v54 := get junk o53 in
   let o55 := op_add SingleS v10 v4 in
   let v56 := get (0, junk) o55 in
   let v57 := fst v56 in
   let v58 := snd v56 in
   let o59 := unwrap_parse (from_str SingleS (bytes "nan")) in
   let v60 := get junk o59 in
   let o61 := op_add SingleS v10 v6 in
   let v62 := get (0, junk) o61 in
   let v63 := fst v62 in
   all_true [
      category_eqb Normal (category v16);
      returns o17;
      bitwise_eq v16 v18;
      returns o19;
      INEXACT =? v21;
      category_eqb Normal (category v22);
      returns o23;
      bitwise_eq v22 v24;
      returns o25;
      INEXACT =? v27;
      category_eqb Normal (category v28);
      returns o29;
      bitwise_eq v28 v30;
      returns o31;
      OK =? v33;
      category_eqb Infinity (category v34);
      returns o35;
      bitwise_eq v34 v36;
      returns o37;
      OK =? v39;
      category_eqb Infinity (category v40);
      returns o41;
      bitwise_eq v40 v42;
      returns o43;
      OK =? v45;
      category_eqb Normal (category v46);
      returns o47;
      bitwise_eq v46 v48;
      returns o49;
      OK =? v51;
      category_eqb Normal (category v52);
      returns o53;
      bitwise_eq v52 v54;
      returns o55;
      OK =? v57;
      category_eqb NaN (category v58);
      returns o59;
      bitwise_eq v58 v60;
      returns o61;
      INVALID_OP =? v63]) = true.
Proof. vm_compute. reflexivity. Qed.

Example test_add_14 : (
   let o0 := unwrap_parse (from_str SingleS (bytes "snan123")) in
   let v1 := get junk o0 in
   let o2 := unwrap_parse (from_str SingleS (bytes "0x1p+0")) in
   let v3 := get junk o2 in
   let o4 := unwrap_parse (from_str SingleS (bytes "-0x1p+0")) in
   let v5 := get junk o4 in
   let v6 := largest SingleS in
   let v7 := neg (largest SingleS) in
   let v8 := SMALLEST SingleS in
   let v9 := neg (SMALLEST SingleS) in
   let v10 := smallest_normalized SingleS in
   let v11 := neg (smallest_normalized SingleS) in
   let o12 := op_add SingleS v5 v1 in
   let v13 := get (0, junk) o12 in
   let v14 := snd v13 in
   let o15 := unwrap_parse (from_str SingleS (bytes "nan123")) in
   let v16 := get junk o15 in
   let o17 := op_add SingleS v5 v3 in
   let v18 := get (0, junk) o17 in
   let v19 := fst v18 in
   let v20 := snd v18 in
   let o21 := unwrap_parse (from_str SingleS (bytes "0x0p+0")) in
   let v22 := get junk o21 in
   let o23 := op_add SingleS v5 v5 in
   let v24 := get (0, junk) o23 in
   let v25 := fst v24 in
   let v26 := snd v24 in
   let o27 := unwrap_parse (from_str SingleS (bytes "-0x1p+1")) in
   let v28 := get junk o27 in
   let o29 := op_add SingleS v5 v6 in
   let v30 := get (0, junk) o29 in
   let v31 := fst v30 in
   let v32 := snd v30 in
   let o33 := unwrap_parse (from_str SingleS (bytes "0x1.fffffep+127")) in
   let v34 := get junk o33 in
   let o35 := op_add SingleS v5 v7 in
   let v36 := get (0, junk) o35 in
   let v37 := fst v36 in
   let v38 := snd v36 in
   let o39 := unwrap_parse (from_str SingleS (bytes "-0x1.fffffep+127")) in
   let v40 := get junk o39 in
   let o41 := op_add SingleS v5 v8 in
   let v42 := get (0, junk) o41 in
   let v43 := fst v42 in
   let v44 := snd v42 in
   let o45 := unwrap_parse (from_str SingleS (bytes "-0x1p+0")) in
   let v46 := get junk o45 in
   let o47 := op_add SingleS v5 v9 in
   let v48 := get (0, junk) o47 in
   let v49 := fst v48 in
   let v50 := snd v48 in
   let o51 := unwrap_parse (from_str SingleS (bytes "-0x1p+0")) in
   let v52 := get junk o51 in
   let o53 := op_add SingleS v5 v10 in
   let v54 := get (0, junk) o53 in
   let v55 := fst v54 in
   let v56 := snd v54 in
   let o57 := unwrap_parse (from_str SingleS (bytes "-0x1p+0")) in
   let v58 := get junk o57 in
   let o59 := op_add SingleS v5 v11 in
   let v60 := get (0, junk) o59 in
   let v61 := fst v60 in
   all_true [
      category_eqb NaN (category v14);
      returns o15;
      bitwise_eq v14 v16;
      returns o17;
      OK =? v19;
      category_eqb Zero (category v20);
      returns o21;
      bitwise_eq v20 v22;
      returns o23;
      OK =? v25;
      category_eqb Normal (category v26);
      returns o27;
      bitwise_eq v26 v28;
      returns o29;
      INEXACT =? v31;
      category_eqb Normal (category v32);
      returns o33;
      bitwise_eq v32 v34;
      returns o35;
      INEXACT =? v37;
      category_eqb Normal (category v38);
      returns o39;
      bitwise_eq v38 v40;
      returns o41;
      INEXACT =? v43;
      category_eqb Normal (category v44);
      returns o45;
      bitwise_eq v44 v46;
      returns o47;
      INEXACT =? v49;
      category_eqb Normal (category v50);
      returns o51;
      bitwise_eq v50 v52;
      returns o53;
      INEXACT =? v55;
      category_eqb Normal (category v56);
      returns o57;
      bitwise_eq v56 v58;
      returns o59;
      INEXACT =? v61]) = true.
Proof. vm_compute. reflexivity. Qed.

Example test_add_15 : (
   let v0 := INFINITY SingleS in
   let v1 := neg (INFINITY SingleS) in
   let v2 := ZERO SingleS in
   let v3 := neg (ZERO SingleS) in
   let v4 := NAN SingleS in
   let o5 := unwrap_parse (from_str SingleS (bytes "snan123")) in
   let v6 := get junk o5 in
   let o7 := unwrap_parse (from_str SingleS (bytes "0x1p+0")) in
   let v8 := get junk o7 in
   let o9 := unwrap_parse (from_str SingleS (bytes "-0x1p+0")) in
   let v10 := get junk o9 in
   let v11 := largest SingleS in
   let v12 := neg (smallest_normalized SingleS) in
   let o13 := op_add SingleS v10 v12 in
   let v14 := get (0, junk) o13 in
   let v15 := snd v14 in
   let o16 := unwrap_parse (from_str SingleS (bytes "-0x1p+0")) in
   let v17 := get junk o16 in
   let o18 := op_add SingleS v11 v0 in
   let v19 := get (0, junk) o18 in
   let v20 := fst v19 in
   let v21 := snd v19 in
   let o22 := unwrap_parse (from_str SingleS (bytes "inf")) in
   let v23 := get junk o22 in
   let o24 := op_add SingleS v11 v1 in
   let v25 := get (0, junk) o24 in
   let v26 := fst v25 in
   let v27 := snd v25 in
   let o28 := unwrap_parse (from_str SingleS (bytes "-inf")) in
   let v29 := get junk o28 in
   let o30 := op_add SingleS v11 v2 in
   let v31 := get (0, junk) o30 in
   let v32 := fst v31 in
   let v33 := snd v31 in
   let o34 := unwrap_parse (from_str SingleS (bytes "0x1.fffffep+127")) in
   let v35 := get junk o34 in
   let o36 := op_add SingleS v11 v3 in
   let v37 := get (0, junk) o36 in
   let v38 := fst v37 in
   let v39 := snd v37 in
   let o40 := unwrap_parse (from_str SingleS (bytes "0x1.fffffep+127")) in
   let v41 := get junk o40 in
   let o42 := op_add SingleS v11 v4 in
   let v43 := get (0, junk) o42 in
   let v44 := fst v43 in
   let v45 := snd v43 in
   let o46 := unwrap_parse (from_str SingleS (bytes "nan")) in
   let v47 := get junk o46 in
   let o48 := op_add SingleS v11 v6 in
   let v49 := get (0, junk) o48 in
   let v50 := fst v49 in
   let v51 := snd v49 in
   let o52 := unwrap_parse (from_str SingleS (bytes "nan123")) in
   let v53 := get junk o52 in
   let o54 := op_add SingleS v11 v8 in
   let v55 := get (0, junk) o54 in
   let v56 := fst v55 in
   let v57 := snd v55 in
   let o58 := unwrap_parse (from_str SingleS (bytes "0x1.fffffep+127")) in
   let v59 := get junk o58 in
   let o60 := op_add SingleS v11 v10 in
   let v61 := get (0, junk) o60 in
   let v62 := fst v61 in
   all_true [
      category_eqb Normal (category v15);
      returns o16;
      bitwise_eq v15 v17;
      returns o18;
      OK =? v20;
      category_eqb Infinity (category v21);
      returns o22;
      bitwise_eq v21 v23;
      returns o24;
      OK =? v26;
      category_eqb Infinity (category v27);
      returns o28;
      bitwise_eq v27 v29;
      returns o30;
      OK =? v32;
      category_eqb Normal (category v33);
      returns o34;
      bitwise_eq v33 v35;
      returns o36;
      OK =? v38;
      category_eqb Normal (category v39);
      returns o40;
      bitwise_eq v39 v41;
      returns o42;
      OK =? v44;
      category_eqb NaN (category v45);
      returns o46;
      bitwise_eq v45 v47;
      returns o48;
      INVALID_OP =? v50;
      category_eqb NaN (category v51);
      returns o52;
      bitwise_eq v51 v53;
      returns o54;
      INEXACT =? v56;
      category_eqb Normal (category v57);
      returns o58;
      bitwise_eq v57 v59;
      returns o60;
      INEXACT =? v62]) = true.
Proof. vm_compute. reflexivity. Qed.

Example test_add_16 : (
   let v0 := INFINITY SingleS in
   let v1 := neg (INFINITY SingleS) in
   let o2 := unwrap_parse (from_str SingleS (bytes "-0x1p+0")) in
   let v3 := get junk o2 in
   let v4 := largest SingleS in
   let v5 := neg (largest SingleS) in
   let v6 := SMALLEST SingleS in
   let v7 := neg (SMALLEST SingleS) in
   let v8 := smallest_normalized SingleS in
   let v9 := neg (smallest_normalized SingleS) in
   let v10 := Z.lor OVERFLOW INEXACT in
   let o11 := op_add SingleS v4 v3 in
   let v12 := get (0, junk) o11 in
   let v13 := snd v12 in
   let o14 := unwrap_parse (from_str SingleS (bytes "0x1.fffffep+127")) in
   let v15 := get junk o14 in
   let o16 := op_add SingleS v4 v4 in
   let v17 := get (0, junk) o16 in
   let v18 := fst v17 in
   let v19 := snd v17 in
   let o20 := unwrap_parse (from_str SingleS (bytes "inf")) in
   let v21 := get junk o20 in
   let o22 := op_add SingleS v4 v5 in
   let v23 := get (0, junk) o22 in
   let v24 := fst v23 in
   let v25 := snd v23 in
   let o26 := unwrap_parse (from_str SingleS (bytes "0x0p+0")) in
   let v27 := get junk o26 in
   let o28 := op_add SingleS v4 v6 in
   let v29 := get (0, junk) o28 in
   let v30 := fst v29 in
   let v31 := snd v29 in
   let o32 := unwrap_parse (from_str SingleS (bytes "0x1.fffffep+127")) in
   let v33 := get junk o32 in
   let o34 := op_add SingleS v4 v7 in
   let v35 := get (0, junk) o34 in
   let v36 := fst v35 in
   let v37 := snd v35 in
   let o38 := unwrap_parse (from_str SingleS (bytes "0x1.fffffep+127")) in
   let v39 := get junk o38 in
   let o40 := op_add SingleS v4 v8 in
   let v41 := get (0, junk) o40 in
   let v42 := fst v41 in
   let v43 := snd v41 in
   let o44 := unwrap_parse (from_str SingleS (bytes "0x1.fffffep+127")) in
   let v45 := get junk o44 in
   let o46 := op_add SingleS v4 v9 in
   let v47 := get (0, junk) o46 in
   let v48 := fst v47 in
   let v49 := snd v47 in
   let o50 := unwrap_parse (from_str SingleS (bytes "0x1.fffffep+127")) in
   let v51 := get junk o50 in
   let o52 := op_add SingleS v5 v0 in
   let v53 := get (0, junk) o52 in
   let v54 := fst v53 in
   let v55 := snd v53 in
   let o56 := unwrap_parse (from_str SingleS (bytes "inf")) in
   let v57 := get junk o56 in
   let o58 := op_add SingleS v5 v1 in
   let v59 := get (0, junk) o58 in
   let v60 := fst v59 in
   all_true [
      category_eqb Normal (category v13);
      returns o14;
      bitwise_eq v13 v15;
      returns o16;
      v10 =? v18;
      category_eqb Infinity (category v19);
      returns o20;
      bitwise_eq v19 v21;
      returns o22;
      OK =? v24;
      category_eqb Zero (category v25);
      returns o26;
      bitwise_eq v25 v27;
      returns o28;
      INEXACT =? v30;
      category_eqb Normal (category v31);
      returns o32;
      bitwise_eq v31 v33;
      returns o34;
      INEXACT =? v36;
      category_eqb Normal (category v37);
      returns o38;
      bitwise_eq v37 v39;
      returns o40;
      INEXACT =? v42;
      category_eqb Normal (category v43);
      returns o44;
      bitwise_eq v43 v45;
      returns o46;
      INEXACT =? v48;
      category_eqb Normal (category v49);
      returns o50;
      bitwise_eq v49 v51;
      returns o52;
      OK =? v54;
      category_eqb Infinity (category v55);
      returns o56;
      bitwise_eq v55 v57;
      returns o58;
      OK =? v60]) = true.
Proof. vm_compute. reflexivity. Qed.

Example test_add_17 : (
   let v0 := neg (INFINITY SingleS) in
   let v1 := ZERO SingleS in
   let v2 := neg (ZERO SingleS) in
   let v3 := NAN SingleS in
   let o4 := unwrap_parse (from_str SingleS (bytes "snan123")) in
   let v5 := get junk o4 in
   let o6 := unwrap_parse (from_str SingleS (bytes "0x1p+0")) in
   let v7 := get junk o6 in
   let o8 := unwrap_parse (from_str SingleS (bytes "-0x1p+0")) in
   let v9 := get junk o8 in
   let v10 := largest SingleS in
   let v11 := neg (largest SingleS) in
   let v12 := Z.lor OVERFLOW INEXACT in
   let o13 := op_add SingleS v11 v0 in
   let v14 := get (0, junk) o13 in
   let v15 := snd v14 in
   let o16 := unwrap_parse (from_str SingleS (bytes "-inf")) in
   let v17 := get junk o16 in
   let o18 := op_add SingleS v11 v1 in
   let v19 := get (0, junk) o18 in
   let v20 := fst v19 in
   let v21 := snd v19 in
   let o22 := unwrap_parse (from_str SingleS (bytes "-0x1.fffffep+127")) in
   let v23 := get junk o22 in
   let o24 := op_add SingleS v11 v2 in
   let v25 := get (0, junk) o24 in
   let v26 := fst v25 in
   let v27 := snd v25 in
   let o28 := unwrap_parse (from_str SingleS (bytes "-0x1.fffffep+127")) in
   let v29 := get junk o28 in
   let o30 := op_add SingleS v11 v3 in
   let v31 := get (0, junk) o30 in
   let v32 := fst v31 in
   let v33 := snd v31 in
   let o34 := unwrap_parse (from_str SingleS (bytes "nan")) in
   let v35 := get junk o34 in
   let o36 := op_add SingleS v11 v5 in
   let v37 := get (0, junk) o36 in
   let v38 := fst v37 in
   let v39 := snd v37 in
   let o40 := unwrap_parse (from_str SingleS (bytes "nan123")) in
   let v41 := get junk o40 in
   let o42 := op_add SingleS v11 v7 in
   let v43 := get (0, junk) o42 in
   let v44 := fst v43 in
   let v45 := snd v43 in
   let o46 := unwrap_parse (from_str SingleS (bytes "-0x1.fffffep+127")) in
   let v47 := get junk o46 in
   let o48 := op_add SingleS v11 v9 in
   let v49 := get (0, junk) o48 in
   let v50 := fst v49 in
   let v51 := snd v49 in
   let o52 := unwrap_parse (from_str SingleS (bytes "-0x1.fffffep+127")) in
   let v53 := get junk o52 in
   let o54 := op_add SingleS v11 v10 in
   let v55 := get (0, junk) o54 in
   let v56 := fst v55 in
   let v57 := snd v55 in
   let o58 := unwrap_parse (from_str SingleS (bytes "0x0p+0")) in
   let v59 := get junk o58 in
   let o60 := op_add SingleS v11 v11 in
   let v61 := get (0, junk) o60 in
   let v62 := fst v61 in
   all_true [
      category_eqb Infinity (category v15);
      returns o16;
      bitwise_eq v15 v17;
      returns o18;
      OK =? v20;
      category_eqb Normal (category v21);
      returns o22;
      bitwise_eq v21 v23;
      returns o24;
      OK =? v26;
      category_eqb Normal (category v27);
      returns o28;
      bitwise_eq v27 v29;
      returns o30;
      OK =? v32;
      category_eqb NaN (category v33);
      returns o34;
      bitwise_eq v33 v35;
      returns o36;
      INVALID_OP =? v38;
      category_eqb NaN (category v39);
      returns o40;
      bitwise_eq v39 v41;
      returns o42;
      INEXACT =? v44;
      category_eqb Normal (category v45);
      returns o46;
      bitwise_eq v45 v47;
      returns o48;
      INEXACT =? v50;
      category_eqb Normal (category v51);
      returns o52;
      bitwise_eq v51 v53;
      returns o54;
      OK =? v56;
      category_eqb Zero (category v57);
      returns o58;
      bitwise_eq v57 v59;
      returns o60;
      v12 =? v62]) = true.
Proof. vm_compute. reflexivity. Qed.

Example test_add_18 : (
   let v0 := INFINITY SingleS in
   let v1 := neg (INFINITY SingleS) in
   let v2 := ZERO SingleS in
   let v3 := neg (ZERO SingleS) in
   let v4 := neg (largest SingleS) in
   let v5 := SMALLEST SingleS in
   let v6 := neg (SMALLEST SingleS) in
   let v7 := smallest_normalized SingleS in
   let v8 := neg (smallest_normalized SingleS) in
   let o9 := op_add SingleS v4 v4 in
   let v10 := get (0, junk) o9 in
   let v11 := snd v10 in
   let o12 := unwrap_parse (from_str SingleS (bytes "-inf")) in
   let v13 := get junk o12 in
   let o14 := op_add SingleS v4 v5 in
   let v15 := get (0, junk) o14 in
   let v16 := fst v15 in
   let v17 := snd v15 in
   let o18 := unwrap_parse (from_str SingleS (bytes "-0x1.fffffep+127")) in
   let v19 := get junk o18 in
   let o20 := op_add SingleS v4 v6 in
   let v21 := get (0, junk) o20 in
   let v22 := fst v21 in
   let v23 := snd v21 in
   let o24 := unwrap_parse (from_str SingleS (bytes "-0x1.fffffep+127")) in
   let v25 := get junk o24 in
   let o26 := op_add SingleS v4 v7 in
   let v27 := get (0, junk) o26 in
   let v28 := fst v27 in
   let v29 := snd v27 in
   let o30 := unwrap_parse (from_str SingleS (bytes "-0x1.fffffep+127")) in
   let v31 := get junk o30 in
   let o32 := op_add SingleS v4 v8 in
   let v33 := get (0, junk) o32 in
   let v34 := fst v33 in
   let v35 := snd v33 in
   let o36 := unwrap_parse (from_str SingleS (bytes "-0x1.fffffep+127")) in
   let v37 := get junk o36 in
   let o38 := op_add SingleS v5 v0 in
   let v39 := get (0, junk) o38 in
   let v40 := fst v39 in
   let v41 := snd v39 in
   let o42 := unwrap_parse (from_str SingleS (bytes "inf")) in
   let v43 := get junk o42 in
   let o44 := op_add SingleS v5 v1 in
   let v45 := get (0, junk) o44 in
   let v46 := fst v45 in
   let v47 := snd v45 in
   let o48 := unwrap_parse (from_str SingleS (bytes "-inf")) in
   let v49 := get junk o48 in
   let o50 := op_add SingleS v5 v2 in
   let v51 := get (0, junk) o50 in
   let v52 := fst v51 in
   let v53 := snd v51 in
   let o54 := unwrap_parse (from_str SingleS (bytes "0x1p-149")) in
   let v55 := get junk o54 in
   let o56 := op_add SingleS v5 v3 in
   let v57 := get (0, junk) o56 in
   let v58 := fst v57 in
   all_true [
      category_eqb Infinity (category v11);
      returns o12;
      bitwise_eq v11 v13;
      returns o14;
      INEXACT =? v16;
      category_eqb Normal (category v17);
      returns o18;
      bitwise_eq v17 v19;
      returns o20;
      INEXACT =? v22;
      category_eqb Normal (category v23);
      returns o24;
      bitwise_eq v23 v25;
      returns o26;
      INEXACT =? v28;
      category_eqb Normal (category v29);
      returns o30;
      bitwise_eq v29 v31;
      returns o32;
      INEXACT =? v34;
      category_eqb Normal (category v35);
      returns o36;
      bitwise_eq v35 v37;
      returns o38;
      OK =? v40;
      category_eqb Infinity (category v41);
      returns o42;
      bitwise_eq v41 v43;
      returns o44;
      OK =? v46;
      category_eqb Infinity (category v47);
      returns o48;
      bitwise_eq v47 v49;
      returns o50;
      OK =? v52;
      category_eqb Normal (category v53);
      returns o54;
      bitwise_eq v53 v55;
      returns o56;
      OK =? v58]) = true.
Proof. vm_compute. reflexivity. Qed.

Example test_add_19 : (
   let v0 := neg (ZERO SingleS) in
   let v1 := NAN SingleS in
   let o2 := unwrap_parse (from_str SingleS (bytes "snan123")) in
   let v3 := get junk o2 in
   let o4 := unwrap_parse (from_str SingleS (bytes "0x1p+0")) in
   let v5 := get junk o4 in
   let o6 := unwrap_parse (from_str SingleS (bytes "-0x1p+0")) in
   let v7 := get junk o6 in
   let v8 := largest SingleS in
   let v9 := neg (largest SingleS) in
   let v10 := SMALLEST SingleS in
   let v11 := neg (SMALLEST SingleS) in
   let o12 := op_add SingleS v10 v0 in
   let v13 := get (0, junk) o12 in
   let v14 := snd v13 in
   let o15 := unwrap_parse (from_str SingleS (bytes "0x1p-149")) in
   let v16 := get junk o15 in
   let o17 := op_add SingleS v10 v1 in
   let v18 := get (0, junk) o17 in
   let v19 := fst v18 in
   let v20 := snd v18 in
   let o21 := unwrap_parse (from_str SingleS (bytes "nan")) in
   let v22 := get junk o21 in
   let o23 := op_add SingleS v10 v3 in
   let v24 := get (0, junk) o23 in
   let v25 := fst v24 in
   let v26 := snd v24 in
   let o27 := unwrap_parse (from_str SingleS (bytes "nan123")) in
   let v28 := get junk o27 in
   let o29 := op_add SingleS v10 v5 in
   let v30 := get (0, junk) o29 in
   let v31 := fst v30 in
   let v32 := snd v30 in
   let o33 := unwrap_parse (from_str SingleS (bytes "0x1p+0")) in
   let v34 := get junk o33 in
   let o35 := op_add SingleS v10 v7 in
   let v36 := get (0, junk) o35 in
   let v37 := fst v36 in
   let v38 := snd v36 in
   let o39 := unwrap_parse (from_str SingleS (bytes "-0x1p+0")) in
   let v40 := get junk o39 in
   let o41 := op_add SingleS v10 v8 in
   let v42 := get (0, junk) o41 in
   let v43 := fst v42 in
   let v44 := snd v42 in
   let o45 := unwrap_parse (from_str SingleS (bytes "0x1.fffffep+127")) in
   let v46 := get junk o45 in
   let o47 := op_add SingleS v10 v9 in
   let v48 := get (0, junk) o47 in
   let v49 := fst v48 in
   let v50 := snd v48 in
   let o51 := unwrap_parse (from_str SingleS (bytes "-0x1.fffffep+127")) in
   let v52 := get junk o51 in
   let o53 := op_add SingleS v10 v10 in
   let v54 := get (0, junk) o53 in
   let v55 := fst v54 in
   let v56 := snd v54 in
   let o57 := unwrap_parse (from_str SingleS (bytes "0x1p-148")) in
   let v58 := get junk o57 in
   let o59 := op_add SingleS v10 v11 in
   let v60 := get (0, junk) o59 in
   let v61 := fst v60 in
   all_true [
      category_eqb Normal (category v14);
      returns o15;
      bitwise_eq v14 v16;
      returns o17;
      OK =? v19;
      category_eqb NaN (category v20);
      returns o21;
      bitwise_eq v20 v22;
      returns o23;
      INVALID_OP =? v25;
      category_eqb NaN (category v26);
      returns o27;
      bitwise_eq v26 v28;
      returns o29;
      INEXACT =? v31;
      category_eqb Normal (category v32);
      returns o33;
      bitwise_eq v32 v34;
      returns o35;
      INEXACT =? v37;
      category_eqb Normal (category v38);
      returns o39;
      bitwise_eq v38 v40;
      returns o41;
      INEXACT =? v43;
      category_eqb Normal (category v44);
      returns o45;
      bitwise_eq v44 v46;
      returns o47;
      INEXACT =? v49;
      category_eqb Normal (category v50);
      returns o51;
      bitwise_eq v50 v52;
      returns o53;
      OK =? v55;
      category_eqb Normal (category v56);
      returns o57;
      bitwise_eq v56 v58;
      returns o59;
      OK =? v61]) = true.
Proof. vm_compute. reflexivity. Qed.

Example test_add_20 : (
   let v0 := INFINITY SingleS in
   let v1 := neg (INFINITY SingleS) in
   let v2 := ZERO SingleS in
   let v3 := neg (ZERO SingleS) in
   let v4 := NAN SingleS in
   let o5 := unwrap_parse (from_str SingleS (bytes "snan123")) in
   let v6 := get junk o5 in
   let v7 := SMALLEST SingleS in
   let v8 := neg (SMALLEST SingleS) in
   let v9 := smallest_normalized SingleS in
   let v10 := neg (smallest_normalized SingleS) in
   let o11 := op_add SingleS v7 v8 in
   let v12 := get (0, junk) o11 in
   let v13 := snd v12 in
   let o14 := unwrap_parse (from_str SingleS (bytes "0x0p+0")) in
   let v15 := get junk o14 in
   let o16 := op_add SingleS v7 v9 in
   let v17 := get (0, junk) o16 in
   let v18 := fst v17 in
   let v19 := snd v17 in
   let o20 := unwrap_parse (from_str SingleS (bytes "0x1.000002p-126")) in
   let v21 := get junk o20 in
   let o22 := op_add SingleS v7 v10 in
   let v23 := get (0, junk) o22 in
   let v24 := fst v23 in
   let v25 := snd v23 in
   let o26 := unwrap_parse (from_str SingleS (bytes "-0x1.fffffcp-127")) in
   let v27 := get junk o26 in
   let o28 := op_add SingleS v8 v0 in
   let v29 := get (0, junk) o28 in
   let v30 := fst v29 in
   let v31 := snd v29 in
   let o32 := unwrap_parse (from_str SingleS (bytes "inf")) in
   let v33 := get junk o32 in
   let o34 := op_add SingleS v8 v1 in
   let v35 := get (0, junk) o34 in
   let v36 := fst v35 in
   let v37 := snd v35 in
   let o38 := unwrap_parse (from_str SingleS (bytes "-inf")) in
   let v39 := get junk o38 in
   let o40 := op_add SingleS v8 v2 in
   let v41 := get (0, junk) o40 in
   let v42 := fst v41 in
   let v43 := snd v41 in
   let o44 := unwrap_parse (from_str SingleS (bytes "-0x1p-149")) in
   let v45 := get junk o44 in
   let o46 := op_add SingleS v8 v3 in
   let v47 := get (0, junk) o46 in
   let v48 := fst v47 in
   let v49 := snd v47 in
   let o50 := unwrap_parse (from_str SingleS (bytes "-0x1p-149")) in
   let v51 := get junk o50 in
   let o52 := op_add SingleS v8 v4 in
   let v53 := get (0, junk) o52 in
   let v54 := fst v53 in
   let v55 := snd v53 in
   let o56 := unwrap_parse (from_str SingleS (bytes "nan")) in
   let v57 := get junk o56 in
   let o58 := op_add SingleS v8 v6 in
   let v59 := get (0, junk) o58 in
   let v60 := fst v59 in
   all_true [
      category_eqb Zero (category v13);
      returns o14;
      bitwise_eq v13 v15;
      returns o16;
      OK =? v18;
      category_eqb Normal (category v19);
      returns o20;
      bitwise_eq v19 v21;
      returns o22;
      OK =? v24;
      category_eqb Normal (category v25);
      returns o26;
      bitwise_eq v25 v27;
      returns o28;
      OK =? v30;
      category_eqb Infinity (category v31);
      returns o32;
      bitwise_eq v31 v33;
      returns o34;
      OK =? v36;
      category_eqb Infinity (category v37);
      returns o38;
      bitwise_eq v37 v39;
      returns o40;
      OK =? v42;
      category_eqb Normal (category v43);
      returns o44;
      bitwise_eq v43 v45;
      returns o46;
      OK =? v48;
      category_eqb Normal (category v49);
      returns o50;
      bitwise_eq v49 v51;
      returns o52;
      OK =? v54;
      category_eqb NaN (category v55);
      returns o56;
      bitwise_eq v55 v57;
      returns o58;
      INVALID_OP =? v60]) = true.
Proof. vm_compute. reflexivity. Qed.

Example test_add_21 : (
   let o0 := unwrap_parse (from_str SingleS (bytes "snan123")) in
   let v1 := get junk o0 in
   let o2 := unwrap_parse (from_str SingleS (bytes "0x1p+0")) in
   let v3 := get junk o2 in
   let o4 := unwrap_parse (from_str SingleS (bytes "-0x1p+0")) in
   let v5 := get junk o4 in
   let v6 := largest SingleS in
   let v7 := neg (largest SingleS) in
   let v8 := SMALLEST SingleS in
   let v9 := neg (SMALLEST SingleS) in
   let v10 := smallest_normalized SingleS in
   let v11 := neg (smallest_normalized SingleS) in
   let o12 := op_add SingleS v9 v1 in
   let v13 := get (0, junk) o12 in
   let v14 := snd v13 in
   let o15 := unwrap_parse (from_str SingleS (bytes "nan123")) in
   let v16 := get junk o15 in
   let o17 := op_add SingleS v9 v3 in
   let v18 := get (0, junk) o17 in
   let v19 := fst v18 in
   let v20 := snd v18 in
   let o21 := unwrap_parse (from_str SingleS (bytes "0x1p+0")) in
   let v22 := get junk o21 in
   let o23 := op_add SingleS v9 v5 in
   let v24 := get (0, junk) o23 in
   let v25 := fst v24 in
   let v26 := snd v24 in
   let o27 := unwrap_parse (from_str SingleS (bytes "-0x1p+0")) in
   let v28 := get junk o27 in
   let o29 := op_add SingleS v9 v6 in
   let v30 := get (0, junk) o29 in
   let v31 := fst v30 in
   let v32 := snd v30 in
   let o33 := unwrap_parse (from_str SingleS (bytes "0x1.fffffep+127")) in
   let v34 := get junk o33 in
   let o35 := op_add SingleS v9 v7 in
   let v36 := get (0, junk) o35 in
   let v37 := fst v36 in
   let v38 := snd v36 in
   let o39 := unwrap_parse (from_str SingleS (bytes "-0x1.fffffep+127")) in
   let v40 := get junk o39 in
   let o41 := op_add SingleS v9 v8 in
   let v42 := get (0, junk) o41 in
   let v43 := fst v42 in
   let v44 := snd v42 in
   let o45 := unwrap_parse (from_str SingleS (bytes "0x0p+0")) in
   let v46 := get junk o45 in
   let o47 := op_add SingleS v9 v9 in
   let v48 := get (0, junk) o47 in
   let v49 := fst v48 in
   let v50 := snd v48 in
   let o51 := unwrap_parse (from_str SingleS (bytes "-0x1p-148")) in
   let v52 := get junk o51 in
   let o53 := op_add SingleS v9 v10 in
   let v54 := get (0, junk) o53 in
   let v55 := fst v54 in
   let v56 := snd v54 in
   let o57 := unwrap_parse (from_str SingleS (bytes "0x1.fffffcp-127")) in
   let v58 := get junk o57 in
   let o59 := op_add SingleS v9 v11 in
   let v60 := get (0, junk) o59 in
   let v61 := fst v60 in
   all_true [
      category_eqb NaN (category v14);
      returns o15;
      bitwise_eq v14 v16;
      returns o17;
      INEXACT =? v19;
      category_eqb Normal (category v20);
      returns o21;
      bitwise_eq v20 v22;
      returns o23;
      INEXACT =? v25;
      category_eqb Normal (category v26);
      returns o27;
      bitwise_eq v26 v28;
      returns o29;
      INEXACT =? v31;
      category_eqb Normal (category v32);
      returns o33;
      bitwise_eq v32 v34;
      returns o35;
      INEXACT =? v37;
      category_eqb Normal (category v38);
      returns o39;
      bitwise_eq v38 v40;
      returns o41;
      OK =? v43;
      category_eqb Zero (category v44);
      returns o45;
      bitwise_eq v44 v46;
      returns o47;
      OK =? v49;
      category_eqb Normal (category v50);
      returns o51;
      bitwise_eq v50 v52;
      returns o53;
      OK =? v55;
      category_eqb Normal (category v56);
      returns o57;
      bitwise_eq v56 v58;
      returns o59;
      OK =? v61]) = true.
Proof. vm_compute. reflexivity. Qed.

Example test_add_22 : (
   let v0 := INFINITY SingleS in
   let v1 := neg (INFINITY SingleS) in
   let v2 := ZERO SingleS in
   let v3 := neg (ZERO SingleS) in
   let v4 := NAN SingleS in
   let o5 := unwrap_parse (from_str SingleS (bytes "snan123")) in
   let v6 := get junk o5 in
   let o7 := unwrap_parse (from_str SingleS (bytes "0x1p+0")) in
   let v8 := get junk o7 in
   let o9 := unwrap_parse (from_str SingleS (bytes "-0x1p+0")) in
   let v10 := get junk o9 in
   let v11 := neg (SMALLEST SingleS) in
   let v12 := smallest_normalized SingleS in
   let v13 := neg (smallest_normalized SingleS) in
   let o14 := op_add SingleS v11 v13 in
   let v15 := get (0, junk) o14 in
   let v16 := snd v15 in
   let o17 := unwrap_parse (from_str SingleS (bytes "-0x1.000002p-126")) in
   let v18 := get junk o17 in
   let o19 := op_add SingleS v12 v0 in
   let v20 := get (0, junk) o19 in
   let v21 := fst v20 in
   let v22 := snd v20 in
   let o23 := unwrap_parse (from_str SingleS (bytes "inf")) in
   let v24 := get junk o23 in
   let o25 := op_add SingleS v12 v1 in
   let v26 := get (0, junk) o25 in
   let v27 := fst v26 in
   let v28 := snd v26 in
   let o29 := unwrap_parse (from_str SingleS (bytes "-inf")) in
   let v30 := get junk o29 in
   let o31 := op_add SingleS v12 v2 in
   let v32 := get (0, junk) o31 in
   let v33 := fst v32 in
   let v34 := snd v32 in
   let o35 := unwrap_parse (from_str SingleS (bytes "0x1p-126")) in
   let v36 := get junk o35 in
   let o37 := op_add SingleS v12 v3 in
   let v38 := get (0, junk) o37 in
   let v39 := fst v38 in
   let v40 := snd v38 in
   let o41 := unwrap_parse (from_str SingleS (bytes "0x1p-126")) in
   let v42 := get junk o41 in
   let o43 := op_add SingleS v12 v4 in
   let v44 := get (0, junk) o43 in
   let v45 := fst v44 in
   let v46 := snd v44 in
   let o47 := unwrap_parse (from_str SingleS (bytes "nan")) in
   let v48 := get junk o47 in
   let o49 := op_add SingleS v12 v6 in
   let v50 := get (0, junk) o49 in
   let v51 := fst v50 in
   let v52 := snd v50 in
   let o53 := unwrap_parse (from_str SingleS (bytes "nan123")) in
   let v54 := get junk o53 in
   let o55 := op_add SingleS v12 v8 in
   let v56 := get (0, junk) o55 in
   let v57 := fst v56 in
   let v58 := snd v56 in
   let o59 := unwrap_parse (from_str SingleS (bytes "0x1p+0")) in
   let v60 := get junk o59 in
   let o61 := op_add SingleS v12 v10 in
   let v62 := get (0, junk) o61 in
   let v63 := fst v62 in
   all_true [
      category_eqb Normal (category v16);
      returns o17;
      bitwise_eq v16 v18;
      returns o19;
      OK =? v21;
      category_eqb Infinity (category v22);
      returns o23;
      bitwise_eq v22 v24;
      returns o25;
      OK =? v27;
      category_eqb Infinity (category v28);
      returns o29;
      bitwise_eq v28 v30;
      returns o31;
      OK =? v33;
      category_eqb Normal (category v34);
      returns o35;
      bitwise_eq v34 v36;
      returns o37;
      OK =? v39;
      category_eqb Normal (category v40);
      returns o41;
      bitwise_eq v40 v42;
      returns o43;
      OK =? v45;
      category_eqb NaN (category v46);
      returns o47;
      bitwise_eq v46 v48;
      returns o49;
      INVALID_OP =? v51;
      category_eqb NaN (category v52);
      returns o53;
      bitwise_eq v52 v54;
      returns o55;
      INEXACT =? v57;
      category_eqb Normal (category v58);
      returns o59;
      bitwise_eq v58 v60;
      returns o61;
      INEXACT =? v63]) = true.
Proof. vm_compute. reflexivity. Qed.

Example test_add_23 : (
   let v0 := INFINITY SingleS in
   let v1 := neg (INFINITY SingleS) in
   let o2 := unwrap_parse (from_str SingleS (bytes "-0x1p+0")) in
   let v3 := get junk o2 in
   let v4 := largest SingleS in
   let v5 := neg (largest SingleS) in
   let v6 := SMALLEST SingleS in
   let v7 := neg (SMALLEST SingleS) in
   let v8 := smallest_normalized SingleS in
   let v9 := neg (smallest_normalized SingleS) in
   let o10 := op_add SingleS v8 v3 in
   let v11 := get (0, junk) o10 in
   let v12 := snd v11 in
   let o13 := unwrap_parse (from_str SingleS (bytes "-0x1p+0")) in
   let v14 := get junk o13 in
   let o15 := op_add SingleS v8 v4 in
   let v16 := get (0, junk) o15 in
   let v17 := fst v16 in
   let v18 := snd v16 in
   let o19 := unwrap_parse (from_str SingleS (bytes "0x1.fffffep+127")) in
   let v20 := get junk o19 in
   let o21 := op_add SingleS v8 v5 in
   let v22 := get (0, junk) o21 in
   let v23 := fst v22 in
   let v24 := snd v22 in
   let o25 := unwrap_parse (from_str SingleS (bytes "-0x1.fffffep+127")) in
   let v26 := get junk o25 in
   let o27 := op_add SingleS v8 v6 in
   let v28 := get (0, junk) o27 in
   let v29 := fst v28 in
   let v30 := snd v28 in
   let o31 := unwrap_parse (from_str SingleS (bytes "0x1.000002p-126")) in
   let v32 := get junk o31 in
   let o33 := op_add SingleS v8 v7 in
   let v34 := get (0, junk) o33 in
   let v35 := fst v34 in
   let v36 := snd v34 in
   let o37 := unwrap_parse (from_str SingleS (bytes "0x1.fffffcp-127")) in
   let v38 := get junk o37 in
   let o39 := op_add SingleS v8 v8 in
   let v40 := get (0, junk) o39 in
   let v41 := fst v40 in
   let v42 := snd v40 in
   let o43 := unwrap_parse (from_str SingleS (bytes "0x1p-125")) in
   let v44 := get junk o43 in
   let o45 := op_add SingleS v8 v9 in
   let v46 := get (0, junk) o45 in
   let v47 := fst v46 in
   let v48 := snd v46 in
   let o49 := unwrap_parse (from_str SingleS (bytes "0x0p+0")) in
   let v50 := get junk o49 in
   let o51 := op_add SingleS v9 v0 in
   let v52 := get (0, junk) o51 in
   let v53 := fst v52 in
   let v54 := snd v52 in
   let o55 := unwrap_parse (from_str SingleS (bytes "inf")) in
   let v56 := get junk o55 in
   let o57 := op_add SingleS v9 v1 in
   let v58 := get (0, junk) o57 in
   let v59 := fst v58 in
   all_true [
      category_eqb Normal (category v12);
      returns o13;
      bitwise_eq v12 v14;
      returns o15;
      INEXACT =? v17;
      category_eqb Normal (category v18);
      returns o19;
      bitwise_eq v18 v20;
      returns o21;
      INEXACT =? v23;
      category_eqb Normal (category v24);
      returns o25;
      bitwise_eq v24 v26;
      returns o27;
      OK =? v29;
      category_eqb Normal (category v30);
      returns o31;
      bitwise_eq v30 v32;
      returns o33;
      OK =? v35;
      category_eqb Normal (category v36);
      returns o37;
      bitwise_eq v36 v38;
      returns o39;
      OK =? v41;
      category_eqb Normal (category v42);
      returns o43;
      bitwise_eq v42 v44;
      returns o45;
      OK =? v47;
      category_eqb Zero (category v48);
      returns o49;
      bitwise_eq v48 v50;
      returns o51;
      OK =? v53;
      category_eqb Infinity (category v54);
      returns o55;
      bitwise_eq v54 v56;
      returns o57;
      OK =? v59]) = true.
Proof. vm_compute. reflexivity. Qed.

Example test_add_24 : (
   let v0 := neg (INFINITY SingleS) in
   let v1 := ZERO SingleS in
   let v2 := neg (ZERO SingleS) in
   let v3 := NAN SingleS in
   let o4 := unwrap_parse (from_str SingleS (bytes "snan123")) in
   let v5 := get junk o4 in
   let o6 := unwrap_parse (from_str SingleS (bytes "0x1p+0")) in
   let v7 := get junk o6 in
   let o8 := unwrap_parse (from_str SingleS (bytes "-0x1p+0")) in
   let v9 := get junk o8 in
   let v10 := largest SingleS in
   let v11 := neg (largest SingleS) in
   let v12 := neg (smallest_normalized SingleS) in
   let o13 := op_add SingleS v12 v0 in
   let v14 := get (0, junk) o13 in
   let v15 := snd v14 in
   let o16 := unwrap_parse (from_str SingleS (bytes "-inf")) in
   let v17 := get junk o16 in
   let o18 := op_add SingleS v12 v1 in
   let v19 := get (0, junk) o18 in
   let v20 := fst v19 in
   let v21 := snd v19 in
   let o22 := unwrap_parse (from_str SingleS (bytes "-0x1p-126")) in
   let v23 := get junk o22 in
   let o24 := op_add SingleS v12 v2 in
   let v25 := get (0, junk) o24 in
   let v26 := fst v25 in
   let v27 := snd v25 in
   let o28 := unwrap_parse (from_str SingleS (bytes "-0x1p-126")) in
   let v29 := get junk o28 in
   let o30 := op_add SingleS v12 v3 in
   let v31 := get (0, junk) o30 in
   let v32 := fst v31 in
   let v33 := snd v31 in
   let o34 := unwrap_parse (from_str SingleS (bytes "nan")) in
   let v35 := get junk o34 in
   let o36 := op_add SingleS v12 v5 in
   let v37 := get (0, junk) o36 in
   let v38 := fst v37 in
   let v39 := snd v37 in
   let o40 := unwrap_parse (from_str SingleS (bytes "nan123")) in
   let v41 := get junk o40 in
   let o42 := op_add SingleS v12 v7 in
   let v43 := get (0, junk) o42 in
   let v44 := fst v43 in
   let v45 := snd v43 in
   let o46 := unwrap_parse (from_str SingleS (bytes "0x1p+0")) in
   let v47 := get junk o46 in
   let o48 := op_add SingleS v12 v9 in
   let v49 := get (0, junk) o48 in
   let v50 := fst v49 in
   let v51 := snd v49 in
   let o52 := unwrap_parse (from_str SingleS (bytes "-0x1p+0")) in
   let v53 := get junk o52 in
   let o54 := op_add SingleS v12 v10 in
   let v55 := get (0, junk) o54 in
   let v56 := fst v55 in
   let v57 := snd v55 in
   let o58 := unwrap_parse (from_str SingleS (bytes "0x1.fffffep+127")) in
   let v59 := get junk o58 in
   let o60 := op_add SingleS v12 v11 in
   let v61 := get (0, junk) o60 in
   let v62 := fst v61 in
   all_true [
      category_eqb Infinity (category v15);
      returns o16;
      bitwise_eq v15 v17;
      returns o18;
      OK =? v20;
      category_eqb Normal (category v21);
      returns o22;
      bitwise_eq v21 v23;
      returns o24;
      OK =? v26;
      category_eqb Normal (category v27);
      returns o28;
      bitwise_eq v27 v29;
      returns o30;
      OK =? v32;
      category_eqb NaN (category v33);
      returns o34;
      bitwise_eq v33 v35;
      returns o36;
      INVALID_OP =? v38;
      category_eqb NaN (category v39);
      returns o40;
      bitwise_eq v39 v41;
      returns o42;
      INEXACT =? v44;
      category_eqb Normal (category v45);
      returns o46;
      bitwise_eq v45 v47;
      returns o48;
      INEXACT =? v50;
      category_eqb Normal (category v51);
      returns o52;
      bitwise_eq v51 v53;
      returns o54;
      INEXACT =? v56;
      category_eqb Normal (category v57);
      returns o58;
      bitwise_eq v57 v59;
      returns o60;
      INEXACT =? v62]) = true.
Proof. vm_compute. reflexivity. Qed.

Example test_add_25 : (
   let v0 := neg (largest SingleS) in
   let v1 := SMALLEST SingleS in
   let v2 := neg (SMALLEST SingleS) in
   let v3 := smallest_normalized SingleS in
   let v4 := neg (smallest_normalized SingleS) in
   let o5 := op_add SingleS v4 v0 in
   let v6 := get (0, junk) o5 in
   let v7 := snd v6 in
   let o8 := unwrap_parse (from_str SingleS (bytes "-0x1.fffffep+127")) in
   let v9 := get junk o8 in
   let o10 := op_add SingleS v4 v1 in
   let v11 := get (0, junk) o10 in
   let v12 := fst v11 in
   let v13 := snd v11 in
   let o14 := unwrap_parse (from_str SingleS (bytes "-0x1.fffffcp-127")) in
   let v15 := get junk o14 in
   let o16 := op_add SingleS v4 v2 in
   let v17 := get (0, junk) o16 in
   let v18 := fst v17 in
   let v19 := snd v17 in
   let o20 := unwrap_parse (from_str SingleS (bytes "-0x1.000002p-126")) in
   let v21 := get junk o20 in
   let o22 := op_add SingleS v4 v3 in
   let v23 := get (0, junk) o22 in
   let v24 := fst v23 in
   let v25 := snd v23 in
   let o26 := unwrap_parse (from_str SingleS (bytes "0x0p+0")) in
   let v27 := get junk o26 in
   let o28 := op_add SingleS v4 v4 in
   let v29 := get (0, junk) o28 in
   let v30 := fst v29 in
   let v31 := snd v29 in
   let o32 := unwrap_parse (from_str SingleS (bytes "-0x1p-125")) in
   let v33 := get junk o32 in
   all_true [
      category_eqb Normal (category v7);
      returns o8;
      bitwise_eq v7 v9;
      returns o10;
      OK =? v12;
      category_eqb Normal (category v13);
      returns o14;
      bitwise_eq v13 v15;
      returns o16;
      OK =? v18;
      category_eqb Normal (category v19);
      returns o20;
      bitwise_eq v19 v21;
      returns o22;
      OK =? v24;
      category_eqb Zero (category v25);
      returns o26;
      bitwise_eq v25 v27;
      returns o28;
      OK =? v30;
      category_eqb Normal (category v31);
      returns o32;
      bitwise_eq v31 v33]) = true.
Proof. vm_compute. reflexivity. Qed.

(** ieee.rs:2328 [subtract] *)
Example test_subtract_1 : (
   let v0 := INFINITY SingleS in
   let v1 := neg (INFINITY SingleS) in
   let v2 := ZERO SingleS in
   let v3 := neg (ZERO SingleS) in
   let v4 := NAN SingleS in
   let o5 := unwrap_parse (from_str SingleS (bytes "snan123")) in
   let v6 := get junk o5 in
   let o7 := unwrap_parse (from_str SingleS (bytes "0x1p+0")) in
   let v8 := get junk o7 in
   let o9 := unwrap_parse (from_str SingleS (bytes "-0x1p+0")) in
   let v10 := get junk o9 in
   let o11 := op_sub SingleS v0 v0 in
   let v12 := get (0, junk) o11 in
   let v13 := fst v12 in
   let v14 := snd v12 in
   let o15 := unwrap_parse (from_str SingleS (bytes "nan")) in
   let v16 := get junk o15 in
   let o17 := op_sub SingleS v0 v1 in
   let v18 := get (0, junk) o17 in
   let v19 := fst v18 in
   let v20 := snd v18 in
   let o21 := unwrap_parse (from_str SingleS (bytes "inf")) in
   let v22 := get junk o21 in
   let o23 := op_sub SingleS v0 v2 in
   let v24 := get (0, junk) o23 in
   let v25 := fst v24 in
   let v26 := snd v24 in
   let o27 := unwrap_parse (from_str SingleS (bytes "inf")) in
   let v28 := get junk o27 in
   let o29 := op_sub SingleS v0 v3 in
   let v30 := get (0, junk) o29 in
   let v31 := fst v30 in
   let v32 := snd v30 in
   let o33 := unwrap_parse (from_str SingleS (bytes "inf")) in
   let v34 := get junk o33 in
   let o35 := op_sub SingleS v0 v4 in
   let v36 := get (0, junk) o35 in
   let v37 := fst v36 in
   let v38 := snd v36 in
   let o39 := unwrap_parse (from_str SingleS (bytes "nan")) in
   let v40 := get junk o39 in
   let o41 := op_sub SingleS v0 v6 in
   let v42 := get (0, junk) o41 in
   let v43 := fst v42 in
   let v44 := snd v42 in
   let o45 := unwrap_parse (from_str SingleS (bytes "nan123")) in
   let v46 := get junk o45 in
   let o47 := op_sub SingleS v0 v8 in
   let v48 := get (0, junk) o47 in
   let v49 := fst v48 in
   let v50 := snd v48 in
   let o51 := unwrap_parse (from_str SingleS (bytes "inf")) in
   let v52 := get junk o51 in
   let o53 := op_sub SingleS v0 v10 in
   let v54 := get (0, junk) o53 in
   let v55 := fst v54 in
   all_true [
      returns o5;
      returns o7;
      returns o9;
      returns o11;
      INVALID_OP =? v13;
      category_eqb NaN (category v14);
      returns o15;
      bitwise_eq v14 v16;
      returns o17;
      OK =? v19;
      category_eqb Infinity (category v20);
      returns o21;
      bitwise_eq v20 v22;
      returns o23;
      OK =? v25;
      category_eqb Infinity (category v26);
      returns o27;
      bitwise_eq v26 v28;
      returns o29;
      OK =? v31;
      category_eqb Infinity (category v32);
      returns o33;
      bitwise_eq v32 v34;
      returns o35;
      OK =? v37;
      category_eqb NaN (category v38);
      returns o39;
      bitwise_eq v38 v40;
      returns o41;
      INVALID_OP =? v43;
      category_eqb NaN (category v44);
      returns o45;
      bitwise_eq v44 v46;
      returns o47;
      OK =? v49;
      category_eqb Infinity (category v50);
      returns o51;
      bitwise_eq v50 v52;
      returns o53;
      OK =? v55]) = true.
Proof. vm_compute. reflexivity. Qed.

Example test_subtract_2 : (
   let v0 := INFINITY SingleS in
   let v1 := neg (INFINITY SingleS) in
   let o2 := unwrap_parse (from_str SingleS (bytes "-0x1p+0")) in
   let v3 := get junk o2 in
   let v4 := largest SingleS in
   let v5 := neg (largest SingleS) in
   let v6 := SMALLEST SingleS in
   let v7 := neg (SMALLEST SingleS) in
   let v8 := smallest_normalized SingleS in
   let v9 := neg (smallest_normalized SingleS) in
   let o10 := op_sub SingleS v0 v3 in
   let v11 := get (0, junk) o10 in
   let v12 := snd v11 in
   let o13 := unwrap_parse (from_str SingleS (bytes "inf")) in
   let v14 := get junk o13 in
   let o15 := op_sub SingleS v0 v4 in
   let v16 := get (0, junk) o15 in
   let v17 := fst v16 in
   let v18 := snd v16 in
   let o19 := unwrap_parse (from_str SingleS (bytes "inf")) in
   let v20 := get junk o19 in
   let o21 := op_sub SingleS v0 v5 in
   let v22 := get (0, junk) o21 in
   let v23 := fst v22 in
   let v24 := snd v22 in
   let o25 := unwrap_parse (from_str SingleS (bytes "inf")) in
   let v26 := get junk o25 in
   let o27 := op_sub SingleS v0 v6 in
   let v28 := get (0, junk) o27 in
   let v29 := fst v28 in
   let v30 := snd v28 in
   let o31 := unwrap_parse (from_str SingleS (bytes "inf")) in
   let v32 := get junk o31 in
   let o33 := op_sub SingleS v0 v7 in
   let v34 := get (0, junk) o33 in
   let v35 := fst v34 in
   let v36 := snd v34 in
   let o37 := unwrap_parse (from_str SingleS (bytes "inf")) in
   let v38 := get junk o37 in
   let o39 := op_sub SingleS v0 v8 in
   let v40 := get (0, junk) o39 in
   let v41 := fst v40 in
   let v42 := snd v40 in
   let o43 := unwrap_parse (from_str SingleS (bytes "inf")) in
   let v44 := get junk o43 in
   let o45 := op_sub SingleS v0 v9 in
   let v46 := get (0, junk) o45 in
   let v47 := fst v46 in
   let v48 := snd v46 in
   let o49 := unwrap_parse (from_str SingleS (bytes "inf")) in
   let v50 := get junk o49 in
   let o51 := op_sub SingleS v1 v0 in
   let v52 := get (0, junk) o51 in
   let v53 := fst v52 in
   let v54 := snd v52 in
   let o55 := unwrap_parse (from_str SingleS (bytes "-inf")) in
   let v56 := get junk o55 in
   let o57 := op_sub SingleS v1 v1 in
   let v58 := get (0, junk) o57 in
   let v59 := fst v58 in
   all_true [
      category_eqb Infinity (category v12);
      returns o13;
      bitwise_eq v12 v14;
      returns o15;
      OK =? v17;
      category_eqb Infinity (category v18);
      returns o19;
      bitwise_eq v18 v20;
      returns o21;
      OK =? v23;
      category_eqb Infinity (category v24);
      returns o25;
      bitwise_eq v24 v26;
      returns o27;
      OK =? v29;
      category_eqb Infinity (category v30);
      returns o31;
      bitwise_eq v30 v32;
      returns o33;
      OK =? v35;
      category_eqb Infinity (category v36);
      returns o37;
      bitwise_eq v36 v38;
      returns o39;
      OK =? v41;
      category_eqb Infinity (category v42);
      returns o43;
      bitwise_eq v42 v44;
      returns o45;
      OK =? v47;
      category_eqb Infinity (category v48);
      returns o49;
      bitwise_eq v48 v50;
      returns o51;
      OK =? v53;
      category_eqb Infinity (category v54);
      returns o55;
      bitwise_eq v54 v56;
      returns o57;
      INVALID_OP =? v59]) = true.
Proof. vm_compute. reflexivity. Qed.

Example test_subtract_3 : (
   let v0 := neg (INFINITY SingleS) in
   let v1 := ZERO SingleS in
   let v2 := neg (ZERO SingleS) in
   let v3 := NAN SingleS in
   let o4 := unwrap_parse (from_str SingleS (bytes "snan123")) in
   let v5 := get junk o4 in
   let o6 := unwrap_parse (from_str SingleS (bytes "0x1p+0")) in
   let v7 := get junk o6 in
   let o8 := unwrap_parse (from_str SingleS (bytes "-0x1p+0")) in
   let v9 := get junk o8 in
   let v10 := largest SingleS in
   let v11 := neg (largest SingleS) in
   let o12 := op_sub SingleS v0 v0 in
   let v13 := get (0, junk) o12 in
   let v14 := snd v13 in
   let o15 := unwrap_parse (from_str SingleS (bytes "nan")) in
   let v16 := get junk o15 in
   let o17 := op_sub SingleS v0 v1 in
   let v18 := get (0, junk) o17 in
   let v19 := fst v18 in
   let v20 := snd v18 in
   let o21 := unwrap_parse (from_str SingleS (bytes "-inf")) in
   let v22 := get junk o21 in
   let o23 := op_sub SingleS v0 v2 in
   let v24 := get (0, junk) o23 in
   let v25 := fst v24 in
   let v26 := snd v24 in
   let o27 := unwrap_parse (from_str SingleS (bytes "-inf")) in
   let v28 := get junk o27 in
   let o29 := op_sub SingleS v0 v3 in
   let v30 := get (0, junk) o29 in
   let v31 := fst v30 in
   let v32 := snd v30 in
   let o33 := unwrap_parse (from_str SingleS (bytes "nan")) in
   let v34 := get junk o33 in
   let o35 := op_sub SingleS v0 v5 in
   let v36 := get (0, junk) o35 in
   let v37 := fst v36 in
   let v38 := snd v36 in
   let o39 := unwrap_parse (from_str SingleS (bytes "nan123")) in
   let v40 := get junk o39 in
   let o41 := op_sub SingleS v0 v7 in
   let v42 := get (0, junk) o41 in
   let v43 := fst v42 in
   let v44 := snd v42 in
   let o45 := unwrap_parse (from_str SingleS (bytes "-inf")) in
   let v46 := get junk o45 in
   let o47 := op_sub SingleS v0 v9 in
   let v48 := get (0, junk) o47 in
   let v49 := fst v48 in
   let v50 := snd v48 in
   let o51 := unwrap_parse (from_str SingleS (bytes "-inf")) in
   let v52 := get junk o51 in
   let o53 := op_sub SingleS v0 v10 in
   let v54 := get (0, junk) o53 in
   let v55 := fst v54 in
   let v56 := snd v54 in
   let o57 := unwrap_parse (from_str SingleS (bytes "-inf")) in
   let v58 := get junk o57 in
   let o59 := op_sub SingleS v0 v11 in
   let v60 := get (0, junk) o59 in
   let v61 := fst v60 in
   all_true [
      category_eqb NaN (category v14);
      returns o15;
      bitwise_eq v14 v16;
      returns o17;
      OK =? v19;
      category_eqb Infinity (category v20);
      returns o21;
      bitwise_eq v20 v22;
      returns o23;
      OK =? v25;
      category_eqb Infinity (category v26);
      returns o27;
      bitwise_eq v26 v28;
      returns o29;
      OK =? v31;
      category_eqb NaN (category v32);
      returns o33;
      bitwise_eq v32 v34;
      returns o35;
      INVALID_OP =? v37;
      category_eqb NaN (category v38);
      returns o39;
      bitwise_eq v38 v40;
      returns o41;
      OK =? v43;
      category_eqb Infinity (category v44);
      returns o45;
      bitwise_eq v44 v46;
      returns o47;
      OK =? v49;
      category_eqb Infinity (category v50);
      returns o51;
      bitwise_eq v50 v52;
      returns o53;
      OK =? v55;
      category_eqb Infinity (category v56);
      returns o57;
      bitwise_eq v56 v58;
      returns o59;
      OK =? v61]) = true.
Proof. vm_compute. reflexivity. Qed.

Example test_subtract_4 : (
   let v0 := INFINITY SingleS in
   let v1 := neg (INFINITY SingleS) in
   let v2 := ZERO SingleS in
   let v3 := neg (ZERO SingleS) in
   let v4 := neg (largest SingleS) in
   let v5 := SMALLEST SingleS in
   let v6 := neg (SMALLEST SingleS) in
   let v7 := smallest_normalized SingleS in
   let v8 := neg (smallest_normalized SingleS) in
   let o9 := op_sub SingleS v1 v4 in
   let v10 := get (0, junk) o9 in
   let v11 := snd v10 in
   let o12 := unwrap_parse (from_str SingleS (bytes "-inf")) in
   let v13 := get junk o12 in
   let o14 := op_sub SingleS v1 v5 in
   let v15 := get (0, junk) o14 in
   let v16 := fst v15 in
   let v17 := snd v15 in
   let o18 := unwrap_parse (from_str SingleS (bytes "-inf")) in
   let v19 := get junk o18 in
   let o20 := op_sub SingleS v1 v6 in
   let v21 := get (0, junk) o20 in
   let v22 := fst v21 in
   let v23 := snd v21 in
   let o24 := unwrap_parse (from_str SingleS (bytes "-inf")) in
   let v25 := get junk o24 in
   let o26 := op_sub SingleS v1 v7 in
   let v27 := get (0, junk) o26 in
   let v28 := fst v27 in
   let v29 := snd v27 in
   let o30 := unwrap_parse (from_str SingleS (bytes "-inf")) in
   let v31 := get junk o30 in
   let o32 := op_sub SingleS v1 v8 in
   let v33 := get (0, junk) o32 in
   let v34 := fst v33 in
   let v35 := snd v33 in
   let o36 := unwrap_parse (from_str SingleS (bytes "-inf")) in
   let v37 := get junk o36 in
   let o38 := op_sub SingleS v2 v0 in
   let v39 := get (0, junk) o38 in
   let v40 := fst v39 in
   let v41 := snd v39 in
   let o42 := unwrap_parse (from_str SingleS (bytes "-inf")) in
   let v43 := get junk o42 in
   let o44 := op_sub SingleS v2 v1 in
   let v45 := get (0, junk) o44 in
   let v46 := fst v45 in
   let v47 := snd v45 in
   let o48 := unwrap_parse (from_str SingleS (bytes "inf")) in
   let v49 := get junk o48 in
   let o50 := op_sub SingleS v2 v2 in
   let v51 := get (0, junk) o50 in
   let v52 := fst v51 in
   let v53 := snd v51 in
   let o54 := unwrap_parse (from_str SingleS (bytes "0x0p+0")) in
   let v55 := get junk o54 in
   let o56 := op_sub SingleS v2 v3 in
   let v57 := get (0, junk) o56 in
   let v58 := fst v57 in
   all_true [
      category_eqb Infinity (category v11);
      returns o12;
      bitwise_eq v11 v13;
      returns o14;
      OK =? v16;
      category_eqb Infinity (category v17);
      returns o18;
      bitwise_eq v17 v19;
      returns o20;
      OK =? v22;
      category_eqb Infinity (category v23);
      returns o24;
      bitwise_eq v23 v25;
      returns o26;
      OK =? v28;
      category_eqb Infinity (category v29);
      returns o30;
      bitwise_eq v29 v31;
      returns o32;
      OK =? v34;
      category_eqb Infinity (category v35);
      returns o36;
      bitwise_eq v35 v37;
      returns o38;
      OK =? v40;
      category_eqb Infinity (category v41);
      returns o42;
      bitwise_eq v41 v43;
      returns o44;
      OK =? v46;
      category_eqb Infinity (category v47);
      returns o48;
      bitwise_eq v47 v49;
      returns o50;
      OK =? v52;
      category_eqb Zero (category v53);
      returns o54;
      bitwise_eq v53 v55;
      returns o56;
      OK =? v58]) = true.
Proof. vm_compute. reflexivity. Qed.

Example test_subtract_5 : (
   let v0 := ZERO SingleS in
   let v1 := neg (ZERO SingleS) in
   let v2 := NAN SingleS in
   let o3 := unwrap_parse (from_str SingleS (bytes "snan123")) in
   let v4 := get junk o3 in
   let o5 := unwrap_parse (from_str SingleS (bytes "0x1p+0")) in
   let v6 := get junk o5 in
   let o7 := unwrap_parse (from_str SingleS (bytes "-0x1p+0")) in
   let v8 := get junk o7 in
   let v9 := largest SingleS in
   let v10 := neg (largest SingleS) in
   let v11 := SMALLEST SingleS in
   let v12 := neg (SMALLEST SingleS) in
   let o13 := op_sub SingleS v0 v1 in
   let v14 := get (0, junk) o13 in
   let v15 := snd v14 in
   let o16 := unwrap_parse (from_str SingleS (bytes "0x0p+0")) in
   let v17 := get junk o16 in
   let o18 := op_sub SingleS v0 v2 in
   let v19 := get (0, junk) o18 in
   let v20 := fst v19 in
   let v21 := snd v19 in
   let o22 := unwrap_parse (from_str SingleS (bytes "nan")) in
   let v23 := get junk o22 in
   let o24 := op_sub SingleS v0 v4 in
   let v25 := get (0, junk) o24 in
   let v26 := fst v25 in
   let v27 := snd v25 in
   let o28 := unwrap_parse (from_str SingleS (bytes "nan123")) in
   let v29 := get junk o28 in
   let o30 := op_sub SingleS v0 v6 in
   let v31 := get (0, junk) o30 in
   let v32 := fst v31 in
   let v33 := snd v31 in
   let o34 := unwrap_parse (from_str SingleS (bytes "-0x1p+0")) in
   let v35 := get junk o34 in
   let o36 := op_sub SingleS v0 v8 in
   let v37 := get (0, junk) o36 in
   let v38 := fst v37 in
   let v39 := snd v37 in
   let o40 := unwrap_parse (from_str SingleS (bytes "0x1p+0")) in
   let v41 := get junk o40 in
   let o42 := op_sub SingleS v0 v9 in
   let v43 := get (0, junk) o42 in
   let v44 := fst v43 in
   let v45 := snd v43 in
   let o46 := unwrap_parse (from_str SingleS (bytes "-0x1.fffffep+127")) in
   let v47 := get junk o46 in
   let o48 := op_sub SingleS v0 v10 in
   let v49 := get (0, junk) o48 in
   let v50 := fst v49 in
   let v51 := snd v49 in
   let o52 := unwrap_parse (from_str SingleS (bytes "0x1.fffffep+127")) in
   let v53 := get junk o52 in
   let o54 := op_sub SingleS v0 v11 in
   let v55 := get (0, junk) o54 in
   let v56 := fst v55 in
   let v57 := snd v55 in
   let o58 := unwrap_parse (from_str SingleS (bytes "-0x1p-149")) in
   let v59 := get junk o58 in
   let o60 := op_sub SingleS v0 v12 in
   let v61 := get (0, junk) o60 in
   let v62 := fst v61 in
   all_true [
      category_eqb Zero (category v15);
      returns o16;
      bitwise_eq v15 v17;
      returns o18;
      OK =? v20;
      category_eqb NaN (category v21);
      returns o22;
      bitwise_eq v21 v23;
      returns o24;
      INVALID_OP =? v26;
      category_eqb NaN (category v27);
      returns o28;
      bitwise_eq v27 v29;
      returns o30;
      OK =? v32;
      category_eqb Normal (category v33);
      returns o34;
      bitwise_eq v33 v35;
      returns o36;
      OK =? v38;
      category_eqb Normal (category v39);
      returns o40;
      bitwise_eq v39 v41;
      returns o42;
      OK =? v44;
      category_eqb Normal (category v45);
      returns o46;
      bitwise_eq v45 v47;
      returns o48;
      OK =? v50;
      category_eqb Normal (category v51);
      returns o52;
      bitwise_eq v51 v53;
      returns o54;
      OK =? v56;
      category_eqb Normal (category v57);
      returns o58;
      bitwise_eq v57 v59;
      returns o60;
      OK =? v62]) = true.
Proof. vm_compute. reflexivity. Qed.

Example test_subtract_6 : (
   let v0 := INFINITY SingleS in
   let v1 := neg (INFINITY SingleS) in
   let v2 := ZERO SingleS in
   let v3 := neg (ZERO SingleS) in
   let v4 := NAN SingleS in
   let o5 := unwrap_parse (from_str SingleS (bytes "snan123")) in
   let v6 := get junk o5 in
   let v7 := neg (SMALLEST SingleS) in
   let v8 := smallest_normalized SingleS in
   let v9 := neg (smallest_normalized SingleS) in
   let o10 := op_sub SingleS v2 v7 in
   let v11 := get (0, junk) o10 in
   let v12 := snd v11 in
   let o13 := unwrap_parse (from_str SingleS (bytes "0x1p-149")) in
   let v14 := get junk o13 in
   let o15 := op_sub SingleS v2 v8 in
   let v16 := get (0, junk) o15 in
   let v17 := fst v16 in
   let v18 := snd v16 in
   let o19 := unwrap_parse (from_str SingleS (bytes "-0x1p-126")) in
   let v20 := get junk o19 in
   let o21 := op_sub SingleS v2 v9 in
   let v22 := get (0, junk) o21 in
   let v23 := fst v22 in
   let v24 := snd v22 in
   let o25 := unwrap_parse (from_str SingleS (bytes "0x1p-126")) in
   let v26 := get junk o25 in
   let o27 := op_sub SingleS v3 v0 in
   let v28 := get (0, junk) o27 in
   let v29 := fst v28 in
   let v30 := snd v28 in
   let o31 := unwrap_parse (from_str SingleS (bytes "-inf")) in
   let v32 := get junk o31 in
   let o33 := op_sub SingleS v3 v1 in
   let v34 := get (0, junk) o33 in
   let v35 := fst v34 in
   let v36 := snd v34 in
   let o37 := unwrap_parse (from_str SingleS (bytes "inf")) in
   let v38 := get junk o37 in
   let o39 := op_sub SingleS v3 v2 in
   let v40 := get (0, junk) o39 in
   let v41 := fst v40 in
   let v42 := snd v40 in
   let o43 := unwrap_parse (from_str SingleS (bytes "-0x0p+0")) in
   let v44 := get junk o43 in
   let o45 := op_sub SingleS v3 v3 in
   let v46 := get (0, junk) o45 in
   let v47 := fst v46 in
   let v48 := snd v46 in
   let o49 := unwrap_parse (from_str SingleS (bytes "0x0p+0")) in
   let v50 := get junk o49 in
   let o51 := op_sub SingleS v3 v4 in
   let v52 := get (0, junk) o51 in
   let v53 := fst v52 in
   let v54 := snd v52 in
   let o55 := unwrap_parse (from_str SingleS (bytes "nan")) in
   let v56 := get junk o55 in
   let o57 := op_sub SingleS v3 v6 in
   let v58 := get (0, junk) o57 in
   let v59 := fst v58 in
   all_true [
      category_eqb Normal (category v12);
      returns o13;
      bitwise_eq v12 v14;
      returns o15;
      OK =? v17;
      category_eqb Normal (category v18);
      returns o19;
      bitwise_eq v18 v20;
      returns o21;
      OK =? v23;
      category_eqb Normal (category v24);
      returns o25;
      bitwise_eq v24 v26;
      returns o27;
      OK =? v29;
      category_eqb Infinity (category v30);
      returns o31;
      bitwise_eq v30 v32;
      returns o33;
      OK =? v35;
      category_eqb Infinity (category v36);
      returns o37;
      bitwise_eq v36 v38;
      returns o39;
      OK =? v41;
      category_eqb Zero (category v42);
      returns o43;
      bitwise_eq v42 v44;
      returns o45;
      OK =? v47;
      category_eqb Zero (category v48);
      returns o49;
      bitwise_eq v48 v50;
      returns o51;
      OK =? v53;
      category_eqb NaN (category v54);
      returns o55;
      bitwise_eq v54 v56;
      returns o57;
      INVALID_OP =? v59]) = true.
Proof. vm_compute. reflexivity. Qed.

Example test_subtract_7 : (
   let v0 := neg (ZERO SingleS) in
   let o1 := unwrap_parse (from_str SingleS (bytes "snan123")) in
   let v2 := get junk o1 in
   let o3 := unwrap_parse (from_str SingleS (bytes "0x1p+0")) in
   let v4 := get junk o3 in
   let o5 := unwrap_parse (from_str SingleS (bytes "-0x1p+0")) in
   let v6 := get junk o5 in
   let v7 := largest SingleS in
   let v8 := neg (largest SingleS) in
   let v9 := SMALLEST SingleS in
   let v10 := neg (SMALLEST SingleS) in
   let v11 := smallest_normalized SingleS in
   let v12 := neg (smallest_normalized SingleS) in
   let o13 := op_sub SingleS v0 v2 in
   let v14 := get (0, junk) o13 in
   let v15 := snd v14 in
   let o16 := unwrap_parse (from_str SingleS (bytes "nan123")) in
   let v17 := get junk o16 in
   let o18 := op_sub SingleS v0 v4 in
   let v19 := get (0, junk) o18 in
   let v20 := fst v19 in
   let v21 := snd v19 in
   let o22 := unwrap_parse (from_str SingleS (bytes "-0x1p+0")) in
   let v23 := get junk o22 in
   let o24 := op_sub SingleS v0 v6 in
   let v25 := get (0, junk) o24 in
   let v26 := fst v25 in
   let v27 := snd v25 in
   let o28 := unwrap_parse (from_str SingleS (bytes "0x1p+0")) in
   let v29 := get junk o28 in
   let o30 := op_sub SingleS v0 v7 in
   let v31 := get (0, junk) o30 in
   let v32 := fst v31 in
   let v33 := snd v31 in
   let o34 := unwrap_parse (from_str SingleS (bytes "-0x1.fffffep+127")) in
   let v35 := get junk o34 in
   let o36 := op_sub SingleS v0 v8 in
   let v37 := get (0, junk) o36 in
   let v38 := fst v37 in
   let v39 := snd v37 in
   let o40 := unwrap_parse (from_str SingleS (bytes "0x1.fffffep+127")) in
   let v41 := get junk o40 in
   let o42 := op_sub SingleS v0 v9 in
   let v43 := get (0, junk) o42 in
   let v44 := fst v43 in
   let v45 := snd v43 in
   let o46 := unwrap_parse (from_str SingleS (bytes "-0x1p-149")) in
   let v47 := get junk o46 in
   let o48 := op_sub SingleS v0 v10 in
   let v49 := get (0, junk) o48 in
   let v50 := fst v49 in
   let v51 := snd v49 in
   let o52 := unwrap_parse (from_str SingleS (bytes "0x1p-149")) in
   let v53 := get junk o52 in
   let o54 := op_sub SingleS v0 v11 in
   let v55 := get (0, junk) o54 in
   let v56 := fst v55 in
   let v57 := snd v55 in
   let o58 := unwrap_parse (from_str SingleS (bytes "-0x1p-126")) in
   let v59 := get junk o58 in
   let o60 := op_sub SingleS v0 v12 in
   let v61 := get (0, junk) o60 in
   let v62 := fst v61 in
   all_true [
      category_eqb NaN (category v15);
      returns o16;
      bitwise_eq v15 v17;
      returns o18;
      OK =? v20;
      category_eqb Normal (category v21);
      returns o22;
      bitwise_eq v21 v23;
      returns o24;
      OK =? v26;
      category_eqb Normal (category v27);
      returns o28;
      bitwise_eq v27 v29;
      returns o30;
      OK =? v32;
      category_eqb Normal (category v33);
      returns o34;
      bitwise_eq v33 v35;
      returns o36;
      OK =? v38;
      category_eqb Normal (category v39);
      returns o40;
      bitwise_eq v39 v41;
      returns o42;
      OK =? v44;
      category_eqb Normal (category v45);
      returns o46;
      bitwise_eq v45 v47;
      returns o48;
      OK =? v50;
      category_eqb Normal (category v51);
      returns o52;
      bitwise_eq v51 v53;
      returns o54;
      OK =? v56;
      category_eqb Normal (category v57);
      returns o58;
      bitwise_eq v57 v59;
      returns o60;
      OK =? v62]) = true.
Proof. vm_compute. reflexivity. Qed.

Example test_subtract_8 : (
   let v0 := INFINITY SingleS in
   let v1 := neg (INFINITY SingleS) in
   let v2 := ZERO SingleS in
   let v3 := neg (ZERO SingleS) in
   let v4 := NAN SingleS in
   let o5 := unwrap_parse (from_str SingleS (bytes "snan123")) in
   let v6 := get junk o5 in
   let o7 := unwrap_parse (from_str SingleS (bytes "0x1p+0")) in
   let v8 := get junk o7 in
   let o9 := unwrap_parse (from_str SingleS (bytes "-0x1p+0")) in
   let v10 := get junk o9 in
   let v11 := neg (smallest_normalized SingleS) in
   let o12 := op_sub SingleS v3 v11 in
   let v13 := get (0, junk) o12 in
   let v14 := snd v13 in
   let o15 := unwrap_parse (from_str SingleS (bytes "0x1p-126")) in
   let v16 := get junk o15 in
   let o17 := op_sub SingleS v4 v0 in
   let v18 := get (0, junk) o17 in
   let v19 := fst v18 in
   let v20 := snd v18 in
   let o21 := unwrap_parse (from_str SingleS (bytes "nan")) in
   let v22 := get junk o21 in
   let o23 := op_sub SingleS v4 v1 in
   let v24 := get (0, junk) o23 in
   let v25 := fst v24 in
   let v26 := snd v24 in
   let o27 := unwrap_parse (from_str SingleS (bytes "nan")) in
   let v28 := get junk o27 in
   let o29 := op_sub SingleS v4 v2 in
   let v30 := get (0, junk) o29 in
   let v31 := fst v30 in
   let v32 := snd v30 in
   let o33 := unwrap_parse (from_str SingleS (bytes "nan")) in
   let v34 := get junk o33 in
   let o35 := op_sub SingleS v4 v3 in
   let v36 := get (0, junk) o35 in
   let v37 := fst v36 in
   let v38 := snd v36 in
   let o39 := unwrap_parse (from_str SingleS (bytes "nan")) in
   let v40 := get junk o39 in
   let o41 := op_sub SingleS v4 v4 in
   let v42 := get (0, junk) o41 in
   let v43 := fst v42 in
   let v44 := snd v42 in
   let o45 := unwrap_parse (from_str SingleS (bytes "nan")) in
   let v46 := get junk o45 in
   let o47 := op_sub SingleS v4 v6 in
   let v48 := get (0, junk) o47 in
   let v49 := fst v48 in
   let v50 := snd v48 in
   let o51 := unwrap_parse (from_str SingleS (bytes "nan")) in
   let v52 := get junk o51 in
   let o53 := op_sub SingleS v4 v8 in
   let v54 := get (0, junk) o53 in
   let v55 := fst v54 in
   let v56 := snd v54 in
   let o57 := unwrap_parse (from_str SingleS (bytes "nan")) in
   let v58 := get junk o57 in
   let o59 := op_sub SingleS v4 v10 in
   let v60 := get (0, junk) o59 in
   let v61 := fst v60 in
   all_true [
      category_eqb Normal (category v14);
      returns o15;
      bitwise_eq v14 v16;
      returns o17;
      OK =? v19;
      category_eqb NaN (category v20);
      returns o21;
      bitwise_eq v20 v22;
      returns o23;
      OK =? v25;
      category_eqb NaN (category v26);
      returns o27;
      bitwise_eq v26 v28;
      returns o29;
      OK =? v31;
      category_eqb NaN (category v32);
      returns o33;
      bitwise_eq v32 v34;
      returns o35;
      OK =? v37;
      category_eqb NaN (category v38);
      returns o39;
      bitwise_eq v38 v40;
      returns o41;
      OK =? v43;
      category_eqb NaN (category v44);
      returns o45;
      bitwise_eq v44 v46;
      returns o47;
      INVALID_OP =? v49;
      category_eqb NaN (category v50);
      returns o51;
      bitwise_eq v50 v52;
      returns o53;
      OK =? v55;
      category_eqb NaN (category v56);
      returns o57;
      bitwise_eq v56 v58;
      returns o59;
      OK =? v61]) = true.
Proof. vm_compute. reflexivity. Qed.

Example test_subtract_9 : (
   let v0 := INFINITY SingleS in
   let v1 := neg (INFINITY SingleS) in
   let v2 := NAN SingleS in
   let o3 := unwrap_parse (from_str SingleS (bytes "snan123")) in
   let v4 := get junk o3 in
   let o5 := unwrap_parse (from_str SingleS (bytes "-0x1p+0")) in
   let v6 := get junk o5 in
   let v7 := largest SingleS in
   let v8 := neg (largest SingleS) in
   let v9 := SMALLEST SingleS in
   let v10 := neg (SMALLEST SingleS) in
   let v11 := smallest_normalized SingleS in
   let v12 := neg (smallest_normalized SingleS) in
   let o13 := op_sub SingleS v2 v6 in
   let v14 := get (0, junk) o13 in
   let v15 := snd v14 in
   let o16 := unwrap_parse (from_str SingleS (bytes "nan")) in
   let v17 := get junk o16 in
   let o18 := op_sub SingleS v2 v7 in
   let v19 := get (0, junk) o18 in
   let v20 := fst v19 in
   let v21 := snd v19 in
   let o22 := unwrap_parse (from_str SingleS (bytes "nan")) in
   let v23 := get junk o22 in
   let o24 := op_sub SingleS v2 v8 in
   let v25 := get (0, junk) o24 in
   let v26 := fst v25 in
   let v27 := snd v25 in
   let o28 := unwrap_parse (from_str SingleS (bytes "nan")) in
   let v29 := get junk o28 in
   let o30 := op_sub SingleS v2 v9 in
   let v31 := get (0, junk) o30 in
   let v32 := fst v31 in
   let v33 := snd v31 in
   let o34 := unwrap_parse (from_str SingleS (bytes "nan")) in
   let v35 := get junk o34 in
   let o36 := op_sub SingleS v2 v10 in
   let v37 := get (0, junk) o36 in
   let v38 := fst v37 in
   let v39 := snd v37 in
   let o40 := unwrap_parse (from_str SingleS (bytes "nan")) in
   let v41 := get junk o40 in
   let o42 := op_sub SingleS v2 v11 in
   let v43 := get (0, junk) o42 in
   let v44 := fst v43 in
   let v45 := snd v43 in
   let o46 := unwrap_parse (from_str SingleS (bytes "nan")) in
   let v47 := get junk o46 in
   let o48 := op_sub SingleS v2 v12 in
   let v49 := get (0, junk) o48 in
   let v50 := fst v49 in
   let v51 := snd v49 in
   let o52 := unwrap_parse (from_str SingleS (bytes "nan")) in
   let v53 := get junk o52 in
   let o54 := op_sub SingleS v4 v0 in
   let v55 := get (0, junk) o54 in
   let v56 := fst v55 in
   let v57 := snd v55 in
   let o58 := unwrap_parse (from_str SingleS (bytes "nan123")) in
   let v59 := get junk o58 in
   let o60 := op_sub SingleS v4 v1 in
   let v61 := get (0, junk) o60 in
   let v62 := fst v61 in
   all_true [
      category_eqb NaN (category v15);
      returns o16;
      bitwise_eq v15 v17;
      returns o18;
      OK =? v20;
      category_eqb NaN (category v21);
      returns o22;
      bitwise_eq v21 v23;
      returns o24;
      OK =? v26;
      category_eqb NaN (category v27);
      returns o28;
      bitwise_eq v27 v29;
      returns o30;
      OK =? v32;
      category_eqb NaN (category v33);
      returns o34;
      bitwise_eq v33 v35;
      returns o36;
      OK =? v38;
      category_eqb NaN (category v39);
      returns o40;
      bitwise_eq v39 v41;
      returns o42;
      OK =? v44;
      category_eqb NaN (category v45);
      returns o46;
      bitwise_eq v45 v47;
      returns o48;
      OK =? v50;
      category_eqb NaN (category v51);
      returns o52;
      bitwise_eq v51 v53;
      returns o54;
      INVALID_OP =? v56;
      category_eqb NaN (category v57);
      returns o58;
      bitwise_eq v57 v59;
      returns o60;
      INVALID_OP =? v62]) = true.
Proof. vm_compute. reflexivity. Qed.

Example test_subtract_10 : (
   let v0 := neg (INFINITY SingleS) in
   let v1 := ZERO SingleS in
   let v2 := neg (ZERO SingleS) in
   let v3 := NAN SingleS in
   let o4 := unwrap_parse (from_str SingleS (bytes "snan123")) in
   let v5 := get junk o4 in
   let o6 := unwrap_parse (from_str SingleS (bytes "0x1p+0")) in
   let v7 := get junk o6 in
   let o8 := unwrap_parse (from_str SingleS (bytes "-0x1p+0")) in
   let v9 := get junk o8 in
   let v10 := largest SingleS in
   let v11 := neg (largest SingleS) in
   let o12 := op_sub SingleS v5 v0 in
   let v13 := get (0, junk) o12 in
   let v14 := snd v13 in
   let o15 := unwrap_parse (from_str SingleS (bytes "nan123")) in
   let v16 := get junk o15 in
   let o17 := op_sub SingleS v5 v1 in
   let v18 := get (0, junk) o17 in
   let v19 := fst v18 in
   let v20 := snd v18 in
   let o21 := unwrap_parse (from_str SingleS (bytes "nan123")) in
   let v22 := get junk o21 in
   let o23 := op_sub SingleS v5 v2 in
   let v24 := get (0, junk) o23 in
   let v25 := fst v24 in
   let v26 := snd v24 in
   let o27 := unwrap_parse (from_str SingleS (bytes "nan123")) in
   let v28 := get junk o27 in
   let o29 := op_sub SingleS v5 v3 in
   let v30 := get (0, junk) o29 in
   let v31 := fst v30 in
   let v32 := snd v30 in
   let o33 := unwrap_parse (from_str SingleS (bytes "nan123")) in
   let v34 := get junk o33 in
   let o35 := op_sub SingleS v5 v5 in
   let v36 := get (0, junk) o35 in
   let v37 := fst v36 in
   let v38 := snd v36 in
   let o39 := unwrap_parse (from_str SingleS (bytes "nan123")) in
   let v40 := get junk o39 in
   let o41 := op_sub SingleS v5 v7 in
   let v42 := get (0, junk) o41 in
   let v43 := fst v42 in
   let v44 := snd v42 in
   let o45 := unwrap_parse (from_str SingleS (bytes "nan123")) in
   let v46 := get junk o45 in
   let o47 := op_sub SingleS v5 v9 in
   let v48 := get (0, junk) o47 in
   let v49 := fst v48 in
   let v50 := snd v48 in
   let o51 := unwrap_parse (from_str SingleS (bytes "nan123")) in
   let v52 := get junk o51 in
   let o53 := op_sub SingleS v5 v10 in
   let v54 := get (0, junk) o53 in
   let v55 := fst v54 in
   let v56 := snd v54 in
   let o57 := unwrap_parse (from_str SingleS (bytes "nan123")) in
   let v58 := get junk o57 in
   let o59 := op_sub SingleS v5 v11 in
   let v60 := get (0, junk) o59 in
   let v61 := fst v60 in
   all_true [
      category_eqb NaN (category v14);
      returns o15;
      bitwise_eq v14 v16;
      returns o17;
      INVALID_OP =? v19;
      category_eqb NaN (category v20);
      returns o21;
      bitwise_eq v20 v22;
      returns o23;
      INVALID_OP =? v25;
      category_eqb NaN (category v26);
      returns o27;
      bitwise_eq v26 v28;
      returns o29;
      INVALID_OP =? v31;
      category_eqb NaN (category v32);
      returns o33;
      bitwise_eq v32 v34;
      returns o35;
      INVALID_OP =? v37;
      category_eqb NaN (category v38);
      returns o39;
      bitwise_eq v38 v40;
      returns o41;
      INVALID_OP =? v43;
      category_eqb NaN (category v44);
      returns o45;
      bitwise_eq v44 v46;
      returns o47;
      INVALID_OP =? v49;
      category_eqb NaN (category v50);
      returns o51;
      bitwise_eq v50 v52;
      returns o53;
      INVALID_OP =? v55;
      category_eqb NaN (category v56);
      returns o57;
      bitwise_eq v56 v58;
      returns o59;
      INVALID_OP =? v61]) = true.
Proof. vm_compute. reflexivity. Qed.

Example test_subtract_11 : (
   let v0 := INFINITY SingleS in
   let v1 := neg (INFINITY SingleS) in
   let v2 := ZERO SingleS in
   let v3 := neg (ZERO SingleS) in
   let o4 := unwrap_parse (from_str SingleS (bytes "snan123")) in
   let v5 := get junk o4 in
   let o6 := unwrap_parse (from_str SingleS (bytes "0x1p+0")) in
   let v7 := get junk o6 in
   let v8 := neg (largest SingleS) in
   let v9 := SMALLEST SingleS in
   let v10 := neg (SMALLEST SingleS) in
   let v11 := smallest_normalized SingleS in
   let v12 := neg (smallest_normalized SingleS) in
   let o13 := op_sub SingleS v5 v8 in
   let v14 := get (0, junk) o13 in
   let v15 := snd v14 in
   let o16 := unwrap_parse (from_str SingleS (bytes "nan123")) in
   let v17 := get junk o16 in
   let o18 := op_sub SingleS v5 v9 in
   let v19 := get (0, junk) o18 in
   let v20 := fst v19 in
   let v21 := snd v19 in
   let o22 := unwrap_parse (from_str SingleS (bytes "nan123")) in
   let v23 := get junk o22 in
   let o24 := op_sub SingleS v5 v10 in
   let v25 := get (0, junk) o24 in
   let v26 := fst v25 in
   let v27 := snd v25 in
   let o28 := unwrap_parse (from_str SingleS (bytes "nan123")) in
   let v29 := get junk o28 in
   let o30 := op_sub SingleS v5 v11 in
   let v31 := get (0, junk) o30 in
   let v32 := fst v31 in
   let v33 := snd v31 in
   let o34 := unwrap_parse (from_str SingleS (bytes "nan123")) in
   let v35 := get junk o34 in
   let o36 := op_sub SingleS v5 v12 in
   let v37 := get (0, junk) o36 in
   let v38 := fst v37 in
   let v39 := snd v37 in
   let o40 := unwrap_parse (from_str SingleS (bytes "nan123")) in
   let v41 := get junk o40 in
   let o42 := op_sub SingleS v7 v0 in
   let v43 := get (0, junk) o42 in
   let v44 := fst v43 in
   let v45 := snd v43 in
   let o46 := unwrap_parse (from_str SingleS (bytes "-inf")) in
   let v47 := get junk o46 in
   let o48 := op_sub SingleS v7 v1 in
   let v49 := get (0, junk) o48 in
   let v50 := fst v49 in
   let v51 := snd v49 in
   let o52 := unwrap_parse (from_str SingleS (bytes "inf")) in
   let v53 := get junk o52 in
   let o54 := op_sub SingleS v7 v2 in
   let v55 := get (0, junk) o54 in
   let v56 := fst v55 in
   let v57 := snd v55 in
   let o58 := unwrap_parse (from_str SingleS (bytes "0x1p+0")) in
   let v59 := get junk o58 in
   let o60 := op_sub SingleS v7 v3 in
   let v61 := get (0, junk) o60 in
   let v62 := fst v61 in
   all_true [
      category_eqb NaN (category v15);
      returns o16;
      bitwise_eq v15 v17;
      returns o18;
      INVALID_OP =? v20;
      category_eqb NaN (category v21);
      returns o22;
      bitwise_eq v21 v23;
      returns o24;
      INVALID_OP =? v26;
      category_eqb NaN (category v27);
      returns o28;
      bitwise_eq v27 v29;
      returns o30;
      INVALID_OP =? v32;
      category_eqb NaN (category v33);
      returns o34;
      bitwise_eq v33 v35;
      returns o36;
      INVALID_OP =? v38;
      category_eqb NaN (category v39);
      returns o40;
      bitwise_eq v39 v41;
      returns o42;
      OK =? v44;
      category_eqb Infinity (category v45);
      returns o46;
      bitwise_eq v45 v47;
      returns o48;
      OK =? v50;
      category_eqb Infinity (category v51);
      returns o52;
      bitwise_eq v51 v53;
      returns o54;
      OK =? v56;
      category_eqb Normal (category v57);
      returns o58;
      bitwise_eq v57 v59;
      returns o60;
      OK =? v62]) = true.
Proof. vm_compute. reflexivity. Qed.

Example test_subtract_12 : (
   let v0 := neg (ZERO SingleS) in
   let v1 := NAN SingleS in
   let o2 := unwrap_parse (from_str SingleS (bytes "snan123")) in
   let v3 := get junk o2 in
   let o4 := unwrap_parse (from_str SingleS (bytes "0x1p+0")) in
   let v5 := get junk o4 in
   let o6 := unwrap_parse (from_str SingleS (bytes "-0x1p+0")) in
   let v7 := get junk o6 in
   let v8 := largest SingleS in
   let v9 := neg (largest SingleS) in
   let v10 := SMALLEST SingleS in
   let v11 := neg (SMALLEST SingleS) in
   let o12 := op_sub SingleS v5 v0 in
   let v13 := get (0, junk) o12 in
   let v14 := snd v13 in
   let o15 := unwrap_parse (from_str SingleS (bytes "0x1p+0")) in
   let v16 := get junk o15 in
   let o17 := op_sub SingleS v5 v1 in
   let v18 := get (0, junk) o17 in
   let v19 := fst v18 in
   let v20 := snd v18 in
   let o21 := unwrap_parse (from_str SingleS (bytes "nan")) in
   let v22 := get junk o21 in
   let o23 := op_sub SingleS v5 v3 in
   let v24 := get (0, junk) o23 in
   let v25 := fst v24 in
   let v26 := snd v24 in
   let o27 := unwrap_parse (from_str SingleS (bytes "nan123")) in
   let v28 := get junk o27 in
   let o29 := op_sub SingleS v5 v5 in
   let v30 := get (0, junk) o29 in
   let v31 := fst v30 in
   let v32 := snd v30 in
   let o33 := unwrap_parse (from_str SingleS (bytes "0x0p+0")) in
   let v34 := get junk o33 in
   let o35 := op_sub SingleS v5 v7 in
   let v36 := get (0, junk) o35 in
   let v37 := fst v36 in
   let v38 := snd v36 in
   let o39 := unwrap_parse (from_str SingleS (bytes "0x1p+1")) in
   let v40 := get junk o39 in
   let o41 := op_sub SingleS v5 v8 in
   let v42 := get (0, junk) o41 in
   let v43 := fst v42 in
   let v44 := snd v42 in
   let o45 := unwrap_parse (from_str SingleS (bytes "-0x1.fffffep+127")) in
   let v46 := get junk o45 in
   let o47 := op_sub SingleS v5 v9 in
   let v48 := get (0, junk) o47 in
   let v49 := fst v48 in
   let v50 := snd v48 in
   let o51 := unwrap_parse (from_str SingleS (bytes "0x1.fffffep+127")) in
   let v52 := get junk o51 in
   let o53 := op_sub SingleS v5 v10 in
   let v54 := get (0, junk) o53 in
   let v55 := fst v54 in
   let v56 := snd v54 in
   let o57 := unwrap_parse (from_str SingleS (bytes "0x1p+0")) in
   let v58 := get junk o57 in
   let o59 := op_sub SingleS v5 v11 in
   let v60 := get (0, junk) o59 in
   let v61 := fst v60 in
   all_true [
      category_eqb Normal (category v14);
      returns o15;
      bitwise_eq v14 v16;
      returns o17;
      OK =? v19;
      category_eqb NaN (category v20);
      returns o21;
      bitwise_eq v20 v22;
      returns o23;
      INVALID_OP =? v25;
      category_eqb NaN (category v26);
      returns o27;
      bitwise_eq v26 v28;
      returns o29;
      OK =? v31;
      category_eqb Zero (category v32);
      returns o33;
      bitwise_eq v32 v34;
      returns o35;
      OK =? v37;
      category_eqb Normal (category v38);
      returns o39;
      bitwise_eq v38 v40;
      returns o41;
      INEXACT =? v43;
      category_eqb Normal (category v44);
      returns o45;
      bitwise_eq v44 v46;
      returns o47;
      INEXACT =? v49;
      category_eqb Normal (category v50);
      returns o51;
      bitwise_eq v50 v52;
      returns o53;
      INEXACT =? v55;
      category_eqb Normal (category v56);
      returns o57;
      bitwise_eq v56 v58;
      returns o59;
      INEXACT =? v61]) = true.
Proof. vm_compute. reflexivity. Qed.

Example test_subtract_13 : (
   let v0 := INFINITY SingleS in
   let v1 := neg (INFINITY SingleS) in
   let v2 := ZERO SingleS in
   let v3 := neg (ZERO SingleS) in
   let v4 := NAN SingleS in
   let o5 := unwrap_parse (from_str SingleS (bytes "snan123")) in
   let v6 := get junk o5 in
   let o7 := unwrap_parse (from_str SingleS (bytes "0x1p+0")) in
   let v8 := get junk o7 in
   let o9 := unwrap_parse (from_str SingleS (bytes "-0x1p+0")) in
   let v10 := get junk o9 in
   let v11 := neg (SMALLEST SingleS) in
   let v12 := smallest_normalized SingleS in
   let v13 := neg (smallest_normalized SingleS) in
   let o14 := op_sub SingleS v8 v11 in
   let v15 := get (0, junk) o14 in
   let v16 := snd v15 in
   let o17 := unwrap_parse (from_str SingleS (bytes "0x1p+0")) in
   let v18 := get junk o17 in
   let o19 := op_sub SingleS v8 v12 in
   let v20 := get (0, junk) o19 in
   let v21 := fst v20 in
   let v22 := snd v20 in
   let o23 := unwrap_parse (from_str SingleS (bytes "0x1p+0")) in
   let v24 := get junk o23 in
   let o25 := op_sub SingleS v8 v13 in
   let v26 := get (0, junk) o25 in
   let v27 := fst v26 in
   let v28 := snd v26 in
   let o29 := unwrap_parse (from_str SingleS (bytes "0x1p+0")) in
   let v30 := get junk o29 in
   let o31 := op_sub SingleS v10 v0 in
   let v32 := get (0, junk) o31 in
   let v33 := fst v32 in
   let v34 := snd v32 in
   let o35 := unwrap_parse (from_str SingleS (bytes "-inf")) in
   let v36 := get junk o35 in
   let o37 := op_sub SingleS v10 v1 in
   let v38 := get (0, junk) o37 in
   let v39 := fst v38 in
   let v40 := snd v38 in
   let o41 := unwrap_parse (from_str SingleS (bytes "inf")) in
   let v42 := get junk o41 in
   let o43 := op_sub SingleS v10 v2 in
   let v44 := get (0, junk) o43 in
   let v45 := fst v44 in
   let v46 := snd v44 in
   let o47 := unwrap_parse (from_str SingleS (bytes "-0x1p+0")) in
   let v48 := get junk o47 in
   let o49 := op_sub SingleS v10 v3 in
   let v50 := get (0, junk) o49 in
   let v51 := fst v50 in
   let v52 := snd v50 in
   let o53 := unwrap_parse (from_str SingleS (bytes "-0x1p+0")) in
   let v54 := get junk o53 in
   let o55 := op_sub SingleS v10 v4 in
   let v56 := get (0, junk) o55 in
   let v57 := fst v56 in
   let v58 := snd v56 in
   let o59 := unwrap_parse (from_str SingleS (bytes "nan")) in
   let v60 := get junk o59 in
   let o61 := op_sub SingleS v10 v6 in
   let v62 := get (0, junk) o61 in
   let v63 := fst v62 in
   all_true [
      category_eqb Normal (category v16);
      returns o17;
      bitwise_eq v16 v18;
      returns o19;
      INEXACT =? v21;
      category_eqb Normal (category v22);
      returns o23;
      bitwise_eq v22 v24;
      returns o25;
      INEXACT =? v27;
      category_eqb Normal (category v28);
      returns o29;
      bitwise_eq v28 v30;
      returns o31;
      OK =? v33;
      category_eqb Infinity (category v34);
      returns o35;
      bitwise_eq v34 v36;
      returns o37;
      OK =? v39;
      category_eqb Infinity (category v40);
      returns o41;
      bitwise_eq v40 v42;
      returns o43;
      OK =? v45;
      category_eqb Normal (category v46);
      returns o47;
      bitwise_eq v46 v48;
      returns o49;
      OK =? v51;
      category_eqb Normal (category v52);
      returns o53;
      bitwise_eq v52 v54;
      returns o55;
      OK =? v57;
      category_eqb NaN (category v58);
      returns o59;
      bitwise_eq v58 v60;
      returns o61;
      INVALID_OP =? v63]) = true.
Proof. vm_compute. reflexivity. Qed.

Example test_subtract_14 : (
   let o0 := unwrap_parse (from_str SingleS (bytes "snan123")) in
   let v1 := get junk o0 in
   let o2 := unwrap_parse (from_str SingleS (bytes "0x1p+0")) in
   let v3 := get junk o2 in
   let o4 := unwrap_parse (from_str SingleS (bytes "-0x1p+0")) in
   let v5 := get junk o4 in
   let v6 := largest SingleS in
   let v7 := neg (largest SingleS) in
   let v8 := SMALLEST SingleS in
   let v9 := neg (SMALLEST SingleS) in
   let v10 := smallest_normalized SingleS in
   let v11 := neg (smallest_normalized SingleS) in
   let o12 := op_sub SingleS v5 v1 in
   let v13 := get (0, junk) o12 in
   let v14 := snd v13 in
   let o15 := unwrap_parse (from_str SingleS (bytes "nan123")) in
   let v16 := get junk o15 in
   let o17 := op_sub SingleS v5 v3 in
   let v18 := get (0, junk) o17 in
   let v19 := fst v18 in
   let v20 := snd v18 in
   let o21 := unwrap_parse (from_str SingleS (bytes "-0x1p+1")) in
   let v22 := get junk o21 in
   let o23 := op_sub SingleS v5 v5 in
   let v24 := get (0, junk) o23 in
   let v25 := fst v24 in
   let v26 := snd v24 in
   let o27 := unwrap_parse (from_str SingleS (bytes "0x0p+0")) in
   let v28 := get junk o27 in
   let o29 := op_sub SingleS v5 v6 in
   let v30 := get (0, junk) o29 in
   let v31 := fst v30 in
   let v32 := snd v30 in
   let o33 := unwrap_parse (from_str SingleS (bytes "-0x1.fffffep+127")) in
   let v34 := get junk o33 in
   let o35 := op_sub SingleS v5 v7 in
   let v36 := get (0, junk) o35 in
   let v37 := fst v36 in
   let v38 := snd v36 in
   let o39 := unwrap_parse (from_str SingleS (bytes "0x1.fffffep+127")) in
   let v40 := get junk o39 in
   let o41 := op_sub SingleS v5 v8 in
   let v42 := get (0, junk) o41 in
   let v43 := fst v42 in
   let v44 := snd v42 in
   let o45 := unwrap_parse (from_str SingleS (bytes "-0x1p+0")) in
   let v46 := get junk o45 in
   let o47 := op_sub SingleS v5 v9 in
   let v48 := get (0, junk) o47 in
   let v49 := fst v48 in
   let v50 := snd v48 in
   let o51 := unwrap_parse (from_str SingleS (bytes "-0x1p+0")) in
   let v52 := get junk o51 in
   let o53 := op_sub SingleS v5 v10 in
   let v54 := get (0, junk) o53 in
   let v55 := fst v54 in
   let v56 := snd v54 in
   let o57 := unwrap_parse (from_str SingleS (bytes "-0x1p+0")) in
   let v58 := get junk o57 in
   let o59 := op_sub SingleS v5 v11 in
   let v60 := get (0, junk) o59 in
   let v61 := fst v60 in
   all_true [
      category_eqb NaN (category v14);
      returns o15;
      bitwise_eq v14 v16;
      returns o17;
      OK =? v19;
      category_eqb Normal (category v20);
      returns o21;
      bitwise_eq v20 v22;
      returns o23;
      OK =? v25;
      category_eqb Zero (category v26);
      returns o27;
      bitwise_eq v26 v28;
      returns o29;
      INEXACT =? v31;
      category_eqb Normal (category v32);
      returns o33;
      bitwise_eq v32 v34;
      returns o35;
      INEXACT =? v37;
      category_eqb Normal (category v38);
      returns o39;
      bitwise_eq v38 v40;
      returns o41;
      INEXACT =? v43;
      category_eqb Normal (category v44);
      returns o45;
      bitwise_eq v44 v46;
      returns o47;
      INEXACT =? v49;
      category_eqb Normal (category v50);
      returns o51;
      bitwise_eq v50 v52;
      returns o53;
      INEXACT =? v55;
      category_eqb Normal (category v56);
      returns o57;
      bitwise_eq v56 v58;
      returns o59;
      INEXACT =? v61]) = true.
Proof. vm_compute. reflexivity. Qed.

Example test_subtract_15 : (
   let v0 := INFINITY SingleS in
   let v1 := neg (INFINITY SingleS) in
   let v2 := ZERO SingleS in
   let v3 := neg (ZERO SingleS) in
   let v4 := NAN SingleS in
   let o5 := unwrap_parse (from_str SingleS (bytes "snan123")) in
   let v6 := get junk o5 in
   let o7 := unwrap_parse (from_str SingleS (bytes "0x1p+0")) in
   let v8 := get junk o7 in
   let o9 := unwrap_parse (from_str SingleS (bytes "-0x1p+0")) in
   let v10 := get junk o9 in
   let v11 := largest SingleS in
   let v12 := neg (smallest_normalized SingleS) in
   let o13 := op_sub SingleS v10 v12 in
   let v14 := get (0, junk) o13 in
   let v15 := snd v14 in
   let o16 := unwrap_parse (from_str SingleS (bytes "-0x1p+0")) in
   let v17 := get junk o16 in
   let o18 := op_sub SingleS v11 v0 in
   let v19 := get (0, junk) o18 in
   let v20 := fst v19 in
   let v21 := snd v19 in
   let o22 := unwrap_parse (from_str SingleS (bytes "-inf")) in
   let v23 := get junk o22 in
   let o24 := op_sub SingleS v11 v1 in
   let v25 := get (0, junk) o24 in
   let v26 := fst v25 in
   let v27 := snd v25 in
   let o28 := unwrap_parse (from_str SingleS (bytes "inf")) in
   let v29 := get junk o28 in
   let o30 := op_sub SingleS v11 v2 in
   let v31 := get (0, junk) o30 in
   let v32 := fst v31 in
   let v33 := snd v31 in
   let o34 := unwrap_parse (from_str SingleS (bytes "0x1.fffffep+127")) in
   let v35 := get junk o34 in
   let o36 := op_sub SingleS v11 v3 in
   let v37 := get (0, junk) o36 in
   let v38 := fst v37 in
   let v39 := snd v37 in
   let o40 := unwrap_parse (from_str SingleS (bytes "0x1.fffffep+127")) in
   let v41 := get junk o40 in
   let o42 := op_sub SingleS v11 v4 in
   let v43 := get (0, junk) o42 in
   let v44 := fst v43 in
   let v45 := snd v43 in
   let o46 := unwrap_parse (from_str SingleS (bytes "nan")) in
   let v47 := get junk o46 in
   let o48 := op_sub SingleS v11 v6 in
   let v49 := get (0, junk) o48 in
   let v50 := fst v49 in
   let v51 := snd v49 in
   let o52 := unwrap_parse (from_str SingleS (bytes "nan123")) in
   let v53 := get junk o52 in
   let o54 := op_sub SingleS v11 v8 in
   let v55 := get (0, junk) o54 in
   let v56 := fst v55 in
   let v57 := snd v55 in
   let o58 := unwrap_parse (from_str SingleS (bytes "0x1.fffffep+127")) in
   let v59 := get junk o58 in
   let o60 := op_sub SingleS v11 v10 in
   let v61 := get (0, junk) o60 in
   let v62 := fst v61 in
   all_true [
      category_eqb Normal (category v15);
      returns o16;
      bitwise_eq v15 v17;
      returns o18;
      OK =? v20;
      category_eqb Infinity (category v21);
      returns o22;
      bitwise_eq v21 v23;
      returns o24;
      OK =? v26;
      category_eqb Infinity (category v27);
      returns o28;
      bitwise_eq v27 v29;
      returns o30;
      OK =? v32;
      category_eqb Normal (category v33);
      returns o34;
      bitwise_eq v33 v35;
      returns o36;
      OK =? v38;
      category_eqb Normal (category v39);
      returns o40;
      bitwise_eq v39 v41;
      returns o42;
      OK =? v44;
      category_eqb NaN (category v45);
      returns o46;
      bitwise_eq v45 v47;
      returns o48;
      INVALID_OP =? v50;
      category_eqb NaN (category v51);
      returns o52;
      bitwise_eq v51 v53;
      returns o54;
      INEXACT =? v56;
      category_eqb Normal (category v57);
      returns o58;
      bitwise_eq v57 v59;
      returns o60;
      INEXACT =? v62]) = true.
Proof. vm_compute. reflexivity. Qed.

Example test_subtract_16 : (
   let v0 := INFINITY SingleS in
   let v1 := neg (INFINITY SingleS) in
   let o2 := unwrap_parse (from_str SingleS (bytes "-0x1p+0")) in
   let v3 := get junk o2 in
   let v4 := largest SingleS in
   let v5 := neg (largest SingleS) in
   let v6 := SMALLEST SingleS in
   let v7 := neg (SMALLEST SingleS) in
   let v8 := smallest_normalized SingleS in
   let v9 := neg (smallest_normalized SingleS) in
   let v10 := Z.lor OVERFLOW INEXACT in
   let o11 := op_sub SingleS v4 v3 in
   let v12 := get (0, junk) o11 in
   let v13 := snd v12 in
   let o14 := unwrap_parse (from_str SingleS (bytes "0x1.fffffep+127")) in
   let v15 := get junk o14 in
   let o16 := op_sub SingleS v4 v4 in
   let v17 := get (0, junk) o16 in
   let v18 := fst v17 in
   let v19 := snd v17 in
   let o20 := unwrap_parse (from_str SingleS (bytes "0x0p+0")) in
   let v21 := get junk o20 in
   let o22 := op_sub SingleS v4 v5 in
   let v23 := get (0, junk) o22 in
   let v24 := fst v23 in
   let v25 := snd v23 in
   let o26 := unwrap_parse (from_str SingleS (bytes "inf")) in
   let v27 := get junk o26 in
   let o28 := op_sub SingleS v4 v6 in
   let v29 := get (0, junk) o28 in
   let v30 := fst v29 in
   let v31 := snd v29 in
   let o32 := unwrap_parse (from_str SingleS (bytes "0x1.fffffep+127")) in
   let v33 := get junk o32 in
   let o34 := op_sub SingleS v4 v7 in
   let v35 := get (0, junk) o34 in
   let v36 := fst v35 in
   let v37 := snd v35 in
   let o38 := unwrap_parse (from_str SingleS (bytes "0x1.fffffep+127")) in
   let v39 := get junk o38 in
   let o40 := op_sub SingleS v4 v8 in
   let v41 := get (0, junk) o40 in
   let v42 := fst v41 in
   let v43 := snd v41 in
   let o44 := unwrap_parse (from_str SingleS (bytes "0x1.fffffep+127")) in
   let v45 := get junk o44 in
   let o46 := op_sub SingleS v4 v9 in
   let v47 := get (0, junk) o46 in
   let v48 := fst v47 in
   let v49 := snd v47 in
   let o50 := unwrap_parse (from_str SingleS (bytes "0x1.fffffep+127")) in
   let v51 := get junk o50 in
   let o52 := op_sub SingleS v5 v0 in
   let v53 := get (0, junk) o52 in
   let v54 := fst v53 in
   let v55 := snd v53 in
   let o56 := unwrap_parse (from_str SingleS (bytes "-inf")) in
   let v57 := get junk o56 in
   let o58 := op_sub SingleS v5 v1 in
   let v59 := get (0, junk) o58 in
   let v60 := fst v59 in
   all_true [
      category_eqb Normal (category v13);
      returns o14;
      bitwise_eq v13 v15;
      returns o16;
      OK =? v18;
      category_eqb Zero (category v19);
      returns o20;
      bitwise_eq v19 v21;
      returns o22;
      v10 =? v24;
      category_eqb Infinity (category v25);
      returns o26;
      bitwise_eq v25 v27;
      returns o28;
      INEXACT =? v30;
      category_eqb Normal (category v31);
      returns o32;
      bitwise_eq v31 v33;
      returns o34;
      INEXACT =? v36;
      category_eqb Normal (category v37);
      returns o38;
      bitwise_eq v37 v39;
      returns o40;
      INEXACT =? v42;
      category_eqb Normal (category v43);
      returns o44;
      bitwise_eq v43 v45;
      returns o46;
      INEXACT =? v48;
      category_eqb Normal (category v49);
      returns o50;
      bitwise_eq v49 v51;
      returns o52;
      OK =? v54;
      category_eqb Infinity (category v55);
      returns o56;
      bitwise_eq v55 v57;
      returns o58;
      OK =? v60]) = true.
Proof. vm_compute. reflexivity. Qed.

Example test_subtract_17 : (
   let v0 := neg (INFINITY SingleS) in
   let v1 := ZERO SingleS in
   let v2 := neg (ZERO SingleS) in
   let v3 := NAN SingleS in
   let o4 := unwrap_parse (from_str SingleS (bytes "snan123")) in
   let v5 := get junk o4 in
   let o6 := unwrap_parse (from_str SingleS (bytes "0x1p+0")) in
   let v7 := get junk o6 in
   let o8 := unwrap_parse (from_str SingleS (bytes "-0x1p+0")) in
   let v9 := get junk o8 in
   let v10 := largest SingleS in
   let v11 := neg (largest SingleS) in
   let v12 := Z.lor OVERFLOW INEXACT in
   let o13 := op_sub SingleS v11 v0 in
   let v14 := get (0, junk) o13 in
   let v15 := snd v14 in
   let o16 := unwrap_parse (from_str SingleS (bytes "inf")) in
   let v17 := get junk o16 in
   let o18 := op_sub SingleS v11 v1 in
   let v19 := get (0, junk) o18 in
   let v20 := fst v19 in
   let v21 := snd v19 in
   let o22 := unwrap_parse (from_str SingleS (bytes "-0x1.fffffep+127")) in
   let v23 := get junk o22 in
   let o24 := op_sub SingleS v11 v2 in
   let v25 := get (0, junk) o24 in
   let v26 := fst v25 in
   let v27 := snd v25 in
   let o28 := unwrap_parse (from_str SingleS (bytes "-0x1.fffffep+127")) in
   let v29 := get junk o28 in
   let o30 := op_sub SingleS v11 v3 in
   let v31 := get (0, junk) o30 in
   let v32 := fst v31 in
   let v33 := snd v31 in
   let o34 := unwrap_parse (from_str SingleS (bytes "nan")) in
   let v35 := get junk o34 in
   let o36 := op_sub SingleS v11 v5 in
   let v37 := get (0, junk) o36 in
   let v38 := fst v37 in
   let v39 := snd v37 in
   let o40 := unwrap_parse (from_str SingleS (bytes "nan123")) in
   let v41 := get junk o40 in
   let o42 := op_sub SingleS v11 v7 in
   let v43 := get (0, junk) o42 in
   let v44 := fst v43 in
   let v45 := snd v43 in
   let o46 := unwrap_parse (from_str SingleS (bytes "-0x1.fffffep+127")) in
   let v47 := get junk o46 in
   let o48 := op_sub SingleS v11 v9 in
   let v49 := get (0, junk) o48 in
   let v50 := fst v49 in
   let v51 := snd v49 in
   let o52 := unwrap_parse (from_str SingleS (bytes "-0x1.fffffep+127")) in
   let v53 := get junk o52 in
   let o54 := op_sub SingleS v11 v10 in
   let v55 := get (0, junk) o54 in
   let v56 := fst v55 in
   let v57 := snd v55 in
   let o58 := unwrap_parse (from_str SingleS (bytes "-inf")) in
   let v59 := get junk o58 in
   let o60 := op_sub SingleS v11 v11 in
   let v61 := get (0, junk) o60 in
   let v62 := fst v61 in
   all_true [
      category_eqb Infinity (category v15);
      returns o16;
      bitwise_eq v15 v17;
      returns o18;
      OK =? v20;
      category_eqb Normal (category v21);
      returns o22;
      bitwise_eq v21 v23;
      returns o24;
      OK =? v26;
      category_eqb Normal (category v27);
      returns o28;
      bitwise_eq v27 v29;
      returns o30;
      OK =? v32;
      category_eqb NaN (category v33);
      returns o34;
      bitwise_eq v33 v35;
      returns o36;
      INVALID_OP =? v38;
      category_eqb NaN (category v39);
      returns o40;
      bitwise_eq v39 v41;
      returns o42;
      INEXACT =? v44;
      category_eqb Normal (category v45);
      returns o46;
      bitwise_eq v45 v47;
      returns o48;
      INEXACT =? v50;
      category_eqb Normal (category v51);
      returns o52;
      bitwise_eq v51 v53;
      returns o54;
      v12 =? v56;
      category_eqb Infinity (category v57);
      returns o58;
      bitwise_eq v57 v59;
      returns o60;
      OK =? v62]) = true.
Proof. vm_compute. reflexivity. Qed.

Example test_subtract_18 : (
   let v0 := INFINITY SingleS in
   let v1 := neg (INFINITY SingleS) in
   let v2 := ZERO SingleS in
   let v3 := neg (ZERO SingleS) in
   let v4 := neg (largest SingleS) in
   let v5 := SMALLEST SingleS in
   let v6 := neg (SMALLEST SingleS) in
   let v7 := smallest_normalized SingleS in
   let v8 := neg (smallest_normalized SingleS) in
   let o9 := op_sub SingleS v4 v4 in
   let v10 := get (0, junk) o9 in
   let v11 := snd v10 in
   let o12 := unwrap_parse (from_str SingleS (bytes "0x0p+0")) in
   let v13 := get junk o12 in
   let o14 := op_sub SingleS v4 v5 in
   let v15 := get (0, junk) o14 in
   let v16 := fst v15 in
   let v17 := snd v15 in
   let o18 := unwrap_parse (from_str SingleS (bytes "-0x1.fffffep+127")) in
   let v19 := get junk o18 in
   let o20 := op_sub SingleS v4 v6 in
   let v21 := get (0, junk) o20 in
   let v22 := fst v21 in
   let v23 := snd v21 in
   let o24 := unwrap_parse (from_str SingleS (bytes "-0x1.fffffep+127")) in
   let v25 := get junk o24 in
   let o26 := op_sub SingleS v4 v7 in
   let v27 := get (0, junk) o26 in
   let v28 := fst v27 in
   let v29 := snd v27 in
   let o30 := unwrap_parse (from_str SingleS (bytes "-0x1.fffffep+127")) in
   let v31 := get junk o30 in
   let o32 := op_sub SingleS v4 v8 in
   let v33 := get (0, junk) o32 in
   let v34 := fst v33 in
   let v35 := snd v33 in
   let o36 := unwrap_parse (from_str SingleS (bytes "-0x1.fffffep+127")) in
   let v37 := get junk o36 in
   let o38 := op_sub SingleS v5 v0 in
   let v39 := get (0, junk) o38 in
   let v40 := fst v39 in
   let v41 := snd v39 in
   let o42 := unwrap_parse (from_str SingleS (bytes "-inf")) in
   let v43 := get junk o42 in
   let o44 := op_sub SingleS v5 v1 in
   let v45 := get (0, junk) o44 in
   let v46 := fst v45 in
   let v47 := snd v45 in
   let o48 := unwrap_parse (from_str SingleS (bytes "inf")) in
   let v49 := get junk o48 in
   let o50 := op_sub SingleS v5 v2 in
   let v51 := get (0, junk) o50 in
   let v52 := fst v51 in
   let v53 := snd v51 in
   let o54 := unwrap_parse (from_str SingleS (bytes "0x1p-149")) in
   let v55 := get junk o54 in
   let o56 := op_sub SingleS v5 v3 in
   let v57 := get (0, junk) o56 in
   let v58 := fst v57 in
   all_true [
      category_eqb Zero (category v11);
      returns o12;
      bitwise_eq v11 v13;
      returns o14;
      INEXACT =? v16;
      category_eqb Normal (category v17);
      returns o18;
      bitwise_eq v17 v19;
      returns o20;
      INEXACT =? v22;
      category_eqb Normal (category v23);
      returns o24;
      bitwise_eq v23 v25;
      returns o26;
      INEXACT =? v28;
      category_eqb Normal (category v29);
      returns o30;
      bitwise_eq v29 v31;
      returns o32;
      INEXACT =? v34;
      category_eqb Normal (category v35);
      returns o36;
      bitwise_eq v35 v37;
      returns o38;
      OK =? v40;
      category_eqb Infinity (category v41);
      returns o42;
      bitwise_eq v41 v43;
      returns o44;
      OK =? v46;
      category_eqb Infinity (category v47);
      returns o48;
      bitwise_eq v47 v49;
      returns o50;
      OK =? v52;
      category_eqb Normal (category v53);
      returns o54;
      bitwise_eq v53 v55;
      returns o56;
      OK =? v58]) = true.
Proof. vm_compute. reflexivity. Qed.

Example test_subtract_19 : (
   let v0 := neg (ZERO SingleS) in
   let v1 := NAN SingleS in
   let o2 := unwrap_parse (from_str SingleS (bytes "snan123")) in
   let v3 := get junk o2 in
   let o4 := unwrap_parse (from_str SingleS (bytes "0x1p+0")) in
   let v5 := get junk o4 in
   let o6 := unwrap_parse (from_str SingleS (bytes "-0x1p+0")) in
   let v7 := get junk o6 in
   let v8 := largest SingleS in
   let v9 := neg (largest SingleS) in
   let v10 := SMALLEST SingleS in
   let v11 := neg (SMALLEST SingleS) in
   let o12 := op_sub SingleS v10 v0 in
   let v13 := get (0, junk) o12 in
   let v14 := snd v13 in
   let o15 := unwrap_parse (from_str SingleS (bytes "0x1p-149")) in
   let v16 := get junk o15 in
   let o17 := op_sub SingleS v10 v1 in
   let v18 := get (0, junk) o17 in
   let v19 := fst v18 in
   let v20 := snd v18 in
   let o21 := unwrap_parse (from_str SingleS (bytes "nan")) in
   let v22 := get junk o21 in
   let o23 := op_sub SingleS v10 v3 in
   let v24 := get (0, junk) o23 in
   let v25 := fst v24 in
   let v26 := snd v24 in
   let o27 := unwrap_parse (from_str SingleS (bytes "nan123")) in
   let v28 := get junk o27 in
   let o29 := op_sub SingleS v10 v5 in
   let v30 := get (0, junk) o29 in
   let v31 := fst v30 in
   let v32 := snd v30 in
   let o33 := unwrap_parse (from_str SingleS (bytes "-0x1p+0")) in
   let v34 := get junk o33 in
   let o35 := op_sub SingleS v10 v7 in
   let v36 := get (0, junk) o35 in
   let v37 := fst v36 in
   let v38 := snd v36 in
   let o39 := unwrap_parse (from_str SingleS (bytes "0x1p+0")) in
   let v40 := get junk o39 in
   let o41 := op_sub SingleS v10 v8 in
   let v42 := get (0, junk) o41 in
   let v43 := fst v42 in
   let v44 := snd v42 in
   let o45 := unwrap_parse (from_str SingleS (bytes "-0x1.fffffep+127")) in
   let v46 := get junk o45 in
   let o47 := op_sub SingleS v10 v9 in
   let v48 := get (0, junk) o47 in
   let v49 := fst v48 in
   let v50 := snd v48 in
   let o51 := unwrap_parse (from_str SingleS (bytes "0x1.fffffep+127")) in
   let v52 := get junk o51 in
   let o53 := op_sub SingleS v10 v10 in
   let v54 := get (0, junk) o53 in
   let v55 := fst v54 in
   let v56 := snd v54 in
   let o57 := unwrap_parse (from_str SingleS (bytes "0x0p+0")) in
   let v58 := get junk o57 in
   let o59 := op_sub SingleS v10 v11 in
   let v60 := get (0, junk) o59 in
   let v61 := fst v60 in
   all_true [
      category_eqb Normal (category v14);
      returns o15;
      bitwise_eq v14 v16;
      returns o17;
      OK =? v19;
      category_eqb NaN (category v20);
      returns o21;
      bitwise_eq v20 v22;
      returns o23;
      INVALID_OP =? v25;
      category_eqb NaN (category v26);
      returns o27;
      bitwise_eq v26 v28;
      returns o29;
      INEXACT =? v31;
      category_eqb Normal (category v32);
      returns o33;
      bitwise_eq v32 v34;
      returns o35;
      INEXACT =? v37;
      category_eqb Normal (category v38);
      returns o39;
      bitwise_eq v38 v40;
      returns o41;
      INEXACT =? v43;
      category_eqb Normal (category v44);
      returns o45;
      bitwise_eq v44 v46;
      returns o47;
      INEXACT =? v49;
      category_eqb Normal (category v50);
      returns o51;
      bitwise_eq v50 v52;
      returns o53;
      OK =? v55;
      category_eqb Zero (category v56);
      returns o57;
      bitwise_eq v56 v58;
      returns o59;
      OK =? v61]) = true.
Proof. vm_compute. reflexivity. Qed.

Example test_subtract_20 : (
   let v0 := INFINITY SingleS in
   let v1 := neg (INFINITY SingleS) in
   let v2 := ZERO SingleS in
   let v3 := neg (ZERO SingleS) in
   let v4 := NAN SingleS in
   let o5 := unwrap_parse (from_str SingleS (bytes "snan123")) in
   let v6 := get junk o5 in
   let v7 := SMALLEST SingleS in
   let v8 := neg (SMALLEST SingleS) in
   let v9 := smallest_normalized SingleS in
   let v10 := neg (smallest_normalized SingleS) in
   let o11 := op_sub SingleS v7 v8 in
   let v12 := get (0, junk) o11 in
   let v13 := snd v12 in
   let o14 := unwrap_parse (from_str SingleS (bytes "0x1p-148")) in
   let v15 := get junk o14 in
   let o16 := op_sub SingleS v7 v9 in
   let v17 := get (0, junk) o16 in
   let v18 := fst v17 in
   let v19 := snd v17 in
   let o20 := unwrap_parse (from_str SingleS (bytes "-0x1.fffffcp-127")) in
   let v21 := get junk o20 in
   let o22 := op_sub SingleS v7 v10 in
   let v23 := get (0, junk) o22 in
   let v24 := fst v23 in
   let v25 := snd v23 in
   let o26 := unwrap_parse (from_str SingleS (bytes "0x1.000002p-126")) in
   let v27 := get junk o26 in
   let o28 := op_sub SingleS v8 v0 in
   let v29 := get (0, junk) o28 in
   let v30 := fst v29 in
   let v31 := snd v29 in
   let o32 := unwrap_parse (from_str SingleS (bytes "-inf")) in
   let v33 := get junk o32 in
   let o34 := op_sub SingleS v8 v1 in
   let v35 := get (0, junk) o34 in
   let v36 := fst v35 in
   let v37 := snd v35 in
   let o38 := unwrap_parse (from_str SingleS (bytes "inf")) in
   let v39 := get junk o38 in
   let o40 := op_sub SingleS v8 v2 in
   let v41 := get (0, junk) o40 in
   let v42 := fst v41 in
   let v43 := snd v41 in
   let o44 := unwrap_parse (from_str SingleS (bytes "-0x1p-149")) in
   let v45 := get junk o44 in
   let o46 := op_sub SingleS v8 v3 in
   let v47 := get (0, junk) o46 in
   let v48 := fst v47 in
   let v49 := snd v47 in
   let o50 := unwrap_parse (from_str SingleS (bytes "-0x1p-149")) in
   let v51 := get junk o50 in
   let o52 := op_sub SingleS v8 v4 in
   let v53 := get (0, junk) o52 in
   let v54 := fst v53 in
   let v55 := snd v53 in
   let o56 := unwrap_parse (from_str SingleS (bytes "nan")) in
   let v57 := get junk o56 in
   let o58 := op_sub SingleS v8 v6 in
   let v59 := get (0, junk) o58 in
   let v60 := fst v59 in
   all_true [
      category_eqb Normal (category v13);
      returns o14;
      bitwise_eq v13 v15;
      returns o16;
      OK =? v18;
      category_eqb Normal (category v19);
      returns o20;
      bitwise_eq v19 v21;
      returns o22;
      OK =? v24;
      category_eqb Normal (category v25);
      returns o26;
      bitwise_eq v25 v27;
      returns o28;
      OK =? v30;
      category_eqb Infinity (category v31);
      returns o32;
      bitwise_eq v31 v33;
      returns o34;
      OK =? v36;
      category_eqb Infinity (category v37);
      returns o38;
      bitwise_eq v37 v39;
      returns o40;
      OK =? v42;
      category_eqb Normal (category v43);
      returns o44;
      bitwise_eq v43 v45;
      returns o46;
      OK =? v48;
      category_eqb Normal (category v49);
      returns o50;
      bitwise_eq v49 v51;
      returns o52;
      OK =? v54;
      category_eqb NaN (category v55);
      returns o56;
      bitwise_eq v55 v57;
      returns o58;
      INVALID_OP =? v60]) = true.
Proof. vm_compute. reflexivity. Qed.

Example test_subtract_21 : (
   let o0 := unwrap_parse (from_str SingleS (bytes "snan123")) in
   let v1 := get junk o0 in
   let o2 := unwrap_parse (from_str SingleS (bytes "0x1p+0")) in
   let v3 := get junk o2 in
   let o4 := unwrap_parse (from_str SingleS (bytes "-0x1p+0")) in
   let v5 := get junk o4 in
   let v6 := largest SingleS in
   let v7 := neg (largest SingleS) in
   let v8 := SMALLEST SingleS in
   let v9 := neg (SMALLEST SingleS) in
   let v10 := smallest_normalized SingleS in
   let v11 := neg (smallest_normalized SingleS) in
   let o12 := op_sub SingleS v9 v1 in
   let v13 := get (0, junk) o12 in
   let v14 := snd v13 in
   let o15 := unwrap_parse (from_str SingleS (bytes "nan123")) in
   let v16 := get junk o15 in
   let o17 := op_sub SingleS v9 v3 in
   let v18 := get (0, junk) o17 in
   let v19 := fst v18 in
   let v20 := snd v18 in
   let o21 := unwrap_parse (from_str SingleS (bytes "-0x1p+0")) in
   let v22 := get junk o21 in
   let o23 := op_sub SingleS v9 v5 in
   let v24 := get (0, junk) o23 in
   let v25 := fst v24 in
   let v26 := snd v24 in
   let o27 := unwrap_parse (from_str SingleS (bytes "0x1p+0")) in
   let v28 := get junk o27 in
   let o29 := op_sub SingleS v9 v6 in
   let v30 := get (0, junk) o29 in
   let v31 := fst v30 in
   let v32 := snd v30 in
   let o33 := unwrap_parse (from_str SingleS (bytes "-0x1.fffffep+127")) in
   let v34 := get junk o33 in
   let o35 := op_sub SingleS v9 v7 in
   let v36 := get (0, junk) o35 in
   let v37 := fst v36 in
   let v38 := snd v36 in
   let o39 := unwrap_parse (from_str SingleS (bytes "0x1.fffffep+127")) in
   let v40 := get junk o39 in
   let o41 := op_sub SingleS v9 v8 in
   let v42 := get (0, junk) o41 in
   let v43 := fst v42 in
   let v44 := snd v42 in
   let o45 := unwrap_parse (from_str SingleS (bytes "-0x1p-148")) in
   let v46 := get junk o45 in
   let o47 := op_sub SingleS v9 v9 in
   let v48 := get (0, junk) o47 in
   let v49 := fst v48 in
   let v50 := snd v48 in
   let o51 := unwrap_parse (from_str SingleS (bytes "0x0p+0")) in
   let v52 := get junk o51 in
   let o53 := op_sub SingleS v9 v10 in
   let v54 := get (0, junk) o53 in
   let v55 := fst v54 in
   let v56 := snd v54 in
   let o57 := unwrap_parse (from_str SingleS (bytes "-0x1.000002p-126")) in
   let v58 := get junk o57 in
   let o59 := op_sub SingleS v9 v11 in
   let v60 := get (0, junk) o59 in
   let v61 := fst v60 in
   all_true [
      category_eqb NaN (category v14);
      returns o15;
      bitwise_eq v14 v16;
      returns o17;
      INEXACT =? v19;
      category_eqb Normal (category v20);
      returns o21;
      bitwise_eq v20 v22;
      returns o23;
      INEXACT =? v25;
      category_eqb Normal (category v26);
      returns o27;
      bitwise_eq v26 v28;
      returns o29;
      INEXACT =? v31;
      category_eqb Normal (category v32);
      returns o33;
      bitwise_eq v32 v34;
      returns o35;
      INEXACT =? v37;
      category_eqb Normal (category v38);
      returns o39;
      bitwise_eq v38 v40;
      returns o41;
      OK =? v43;
      category_eqb Normal (category v44);
      returns o45;
      bitwise_eq v44 v46;
      returns o47;
      OK =? v49;
      category_eqb Zero (category v50);
      returns o51;
      bitwise_eq v50 v52;
      returns o53;
      OK =? v55;
      category_eqb Normal (category v56);
      returns o57;
      bitwise_eq v56 v58;
      returns o59;
      OK =? v61]) = true.
Proof. vm_compute. reflexivity. Qed.

Example test_subtract_22 : (
   let v0 := INFINITY SingleS in
   let v1 := neg (INFINITY SingleS) in
   let v2 := ZERO SingleS in
   let v3 := neg (ZERO SingleS) in
   let v4 := NAN SingleS in
   let o5 := unwrap_parse (from_str SingleS (bytes "snan123")) in
   let v6 := get junk o5 in
   let o7 := unwrap_parse (from_str SingleS (bytes "0x1p+0")) in
   let v8 := get junk o7 in
   let o9 := unwrap_parse (from_str SingleS (bytes "-0x1p+0")) in
   let v10 := get junk o9 in
   let v11 := neg (SMALLEST SingleS) in
   let v12 := smallest_normalized SingleS in
   let v13 := neg (smallest_normalized SingleS) in
   let o14 := op_sub SingleS v11 v13 in
   let v15 := get (0, junk) o14 in
   let v16 := snd v15 in
   let o17 := unwrap_parse (from_str SingleS (bytes "0x1.fffffcp-127")) in
   let v18 := get junk o17 in
   let o19 := op_sub SingleS v12 v0 in
   let v20 := get (0, junk) o19 in
   let v21 := fst v20 in
   let v22 := snd v20 in
   let o23 := unwrap_parse (from_str SingleS (bytes "-inf")) in
   let v24 := get junk o23 in
   let o25 := op_sub SingleS v12 v1 in
   let v26 := get (0, junk) o25 in
   let v27 := fst v26 in
   let v28 := snd v26 in
   let o29 := unwrap_parse (from_str SingleS (bytes "inf")) in
   let v30 := get junk o29 in
   let o31 := op_sub SingleS v12 v2 in
   let v32 := get (0, junk) o31 in
   let v33 := fst v32 in
   let v34 := snd v32 in
   let o35 := unwrap_parse (from_str SingleS (bytes "0x1p-126")) in
   let v36 := get junk o35 in
   let o37 := op_sub SingleS v12 v3 in
   let v38 := get (0, junk) o37 in
   let v39 := fst v38 in
   let v40 := snd v38 in
   let o41 := unwrap_parse (from_str SingleS (bytes "0x1p-126")) in
   let v42 := get junk o41 in
   let o43 := op_sub SingleS v12 v4 in
   let v44 := get (0, junk) o43 in
   let v45 := fst v44 in
   let v46 := snd v44 in
   let o47 := unwrap_parse (from_str SingleS (bytes "nan")) in
   let v48 := get junk o47 in
   let o49 := op_sub SingleS v12 v6 in
   let v50 := get (0, junk) o49 in
   let v51 := fst v50 in
   let v52 := snd v50 in
   let o53 := unwrap_parse (from_str SingleS (bytes "nan123")) in
   let v54 := get junk o53 in
   let o55 := op_sub SingleS v12 v8 in
   let v56 := get (0, junk) o55 in
   let v57 := fst v56 in
   let v58 := snd v56 in
   let o59 := unwrap_parse (from_str SingleS (bytes "-0x1p+0")) in
   let v60 := get junk o59 in
   let o61 := op_sub SingleS v12 v10 in
   let v62 := get (0, junk) o61 in
   let v63 := fst v62 in
   all_true [
      category_eqb Normal (category v16);
      returns o17;
      bitwise_eq v16 v18;
      returns o19;
      OK =? v21;
      category_eqb Infinity (category v22);
      returns o23;
      bitwise_eq v22 v24;
      returns o25;
      OK =? v27;
      category_eqb Infinity (category v28);
      returns o29;
      bitwise_eq v28 v30;
      returns o31;
      OK =? v33;
      category_eqb Normal (category v34);
      returns o35;
      bitwise_eq v34 v36;
      returns o37;
      OK =? v39;
      category_eqb Normal (category v40);
      returns o41;
      bitwise_eq v40 v42;
      returns o43;
      OK =? v45;
      category_eqb NaN (category v46);
      returns o47;
      bitwise_eq v46 v48;
      returns o49;
      INVALID_OP =? v51;
      category_eqb NaN (category v52);
      returns o53;
      bitwise_eq v52 v54;
      returns o55;
      INEXACT =? v57;
      category_eqb Normal (category v58);
      returns o59;
      bitwise_eq v58 v60;
      returns o61;
      INEXACT =? v63]) = true.
Proof. vm_compute. reflexivity. Qed.

Example test_subtract_23 : (
   let v0 := INFINITY SingleS in
   let v1 := neg (INFINITY SingleS) in
   let o2 := unwrap_parse (from_str SingleS (bytes "-0x1p+0")) in
   let v3 := get junk o2 in
   let v4 := largest SingleS in
   let v5 := neg (largest SingleS) in
   let v6 := SMALLEST SingleS in
   let v7 := neg (SMALLEST SingleS) in
   let v8 := smallest_normalized SingleS in
   let v9 := neg (smallest_normalized SingleS) in
   let o10 := op_sub SingleS v8 v3 in
   let v11 := get (0, junk) o10 in
   let v12 := snd v11 in
   let o13 := unwrap_parse (from_str SingleS (bytes "0x1p+0")) in
   let v14 := get junk o13 in
   let o15 := op_sub SingleS v8 v4 in
   let v16 := get (0, junk) o15 in
   let v17 := fst v16 in
   let v18 := snd v16 in
   let o19 := unwrap_parse (from_str SingleS (bytes "-0x1.fffffep+127")) in
   let v20 := get junk o19 in
   let o21 := op_sub SingleS v8 v5 in
   let v22 := get (0, junk) o21 in
   let v23 := fst v22 in
   let v24 := snd v22 in
   let o25 := unwrap_parse (from_str SingleS (bytes "0x1.fffffep+127")) in
   let v26 := get junk o25 in
   let o27 := op_sub SingleS v8 v6 in
   let v28 := get (0, junk) o27 in
   let v29 := fst v28 in
   let v30 := snd v28 in
   let o31 := unwrap_parse (from_str SingleS (bytes "0x1.fffffcp-127")) in
   let v32 := get junk o31 in
   let o33 := op_sub SingleS v8 v7 in
   let v34 := get (0, junk) o33 in
   let v35 := fst v34 in
   let v36 := snd v34 in
   let o37 := unwrap_parse (from_str SingleS (bytes "0x1.000002p-126")) in
   let v38 := get junk o37 in
   let o39 := op_sub SingleS v8 v8 in
   let v40 := get (0, junk) o39 in
   let v41 := fst v40 in
   let v42 := snd v40 in
   let o43 := unwrap_parse (from_str SingleS (bytes "0x0p+0")) in
   let v44 := get junk o43 in
   let o45 := op_sub SingleS v8 v9 in
   let v46 := get (0, junk) o45 in
   let v47 := fst v46 in
   let v48 := snd v46 in
   let o49 := unwrap_parse (from_str SingleS (bytes "0x1p-125")) in
   let v50 := get junk o49 in
   let o51 := op_sub SingleS v9 v0 in
   let v52 := get (0, junk) o51 in
   let v53 := fst v52 in
   let v54 := snd v52 in
   let o55 := unwrap_parse (from_str SingleS (bytes "-inf")) in
   let v56 := get junk o55 in
   let o57 := op_sub SingleS v9 v1 in
   let v58 := get (0, junk) o57 in
   let v59 := fst v58 in
   all_true [
      category_eqb Normal (category v12);
      returns o13;
      bitwise_eq v12 v14;
      returns o15;
      INEXACT =? v17;
      category_eqb Normal (category v18);
      returns o19;
      bitwise_eq v18 v20;
      returns o21;
      INEXACT =? v23;
      category_eqb Normal (category v24);
      returns o25;
      bitwise_eq v24 v26;
      returns o27;
      OK =? v29;
      category_eqb Normal (category v30);
      returns o31;
      bitwise_eq v30 v32;
      returns o33;
      OK =? v35;
      category_eqb Normal (category v36);
      returns o37;
      bitwise_eq v36 v38;
      returns o39;
      OK =? v41;
      category_eqb Zero (category v42);
      returns o43;
      bitwise_eq v42 v44;
      returns o45;
      OK =? v47;
      category_eqb Normal (category v48);
      returns o49;
      bitwise_eq v48 v50;
      returns o51;
      OK =? v53;
      category_eqb Infinity (category v54);
      returns o55;
      bitwise_eq v54 v56;
      returns o57;
      OK =? v59]) = true.
Proof. vm_compute. reflexivity. Qed.

Example test_subtract_24 : (
   let v0 := neg (INFINITY SingleS) in
   let v1 := ZERO SingleS in
   let v2 := neg (ZERO SingleS) in
   let v3 := NAN SingleS in
   let o4 := unwrap_parse (from_str SingleS (bytes "snan123")) in
   let v5 := get junk o4 in
   let o6 := unwrap_parse (from_str SingleS (bytes "0x1p+0")) in
   let v7 := get junk o6 in
   let o8 := unwrap_parse (from_str SingleS (bytes "-0x1p+0")) in
   let v9 := get junk o8 in
   let v10 := largest SingleS in
   let v11 := neg (largest SingleS) in
   let v12 := neg (smallest_normalized SingleS) in
   let o13 := op_sub SingleS v12 v0 in
   let v14 := get (0, junk) o13 in
   let v15 := snd v14 in
   let o16 := unwrap_parse (from_str SingleS (bytes "inf")) in
   let v17 := get junk o16 in
   let o18 := op_sub SingleS v12 v1 in
   let v19 := get (0, junk) o18 in
   let v20 := fst v19 in
   let v21 := snd v19 in
   let o22 := unwrap_parse (from_str SingleS (bytes "-0x1p-126")) in
   let v23 := get junk o22 in
   let o24 := op_sub SingleS v12 v2 in
   let v25 := get (0, junk) o24 in
   let v26 := fst v25 in
   let v27 := snd v25 in
   let o28 := unwrap_parse (from_str SingleS (bytes "-0x1p-126")) in
   let v29 := get junk o28 in
   let o30 := op_sub SingleS v12 v3 in
   let v31 := get (0, junk) o30 in
   let v32 := fst v31 in
   let v33 := snd v31 in
   let o34 := unwrap_parse (from_str SingleS (bytes "nan")) in
   let v35 := get junk o34 in
   let o36 := op_sub SingleS v12 v5 in
   let v37 := get (0, junk) o36 in
   let v38 := fst v37 in
   let v39 := snd v37 in
   let o40 := unwrap_parse (from_str SingleS (bytes "nan123")) in
   let v41 := get junk o40 in
   let o42 := op_sub SingleS v12 v7 in
   let v43 := get (0, junk) o42 in
   let v44 := fst v43 in
   let v45 := snd v43 in
   let o46 := unwrap_parse (from_str SingleS (bytes "-0x1p+0")) in
   let v47 := get junk o46 in
   let o48 := op_sub SingleS v12 v9 in
   let v49 := get (0, junk) o48 in
   let v50 := fst v49 in
   let v51 := snd v49 in
   let o52 := unwrap_parse (from_str SingleS (bytes "0x1p+0")) in
   let v53 := get junk o52 in
   let o54 := op_sub SingleS v12 v10 in
   let v55 := get (0, junk) o54 in
   let v56 := fst v55 in
   let v57 := snd v55 in
   let o58 := unwrap_parse (from_str SingleS (bytes "-0x1.fffffep+127")) in
   let v59 := get junk o58 in
   let o60 := op_sub SingleS v12 v11 in
   let v61 := get (0, junk) o60 in
   let v62 := fst v61 in
   all_true [
      category_eqb Infinity (category v15);
      returns o16;
      bitwise_eq v15 v17;
      returns o18;
      OK =? v20;
      category_eqb Normal (category v21);
      returns o22;
      bitwise_eq v21 v23;
      returns o24;
      OK =? v26;
      category_eqb Normal (category v27);
      returns o28;
      bitwise_eq v27 v29;
      returns o30;
      OK =? v32;
      category_eqb NaN (category v33);
      returns o34;
      bitwise_eq v33 v35;
      returns o36;
      INVALID_OP =? v38;
      category_eqb NaN (category v39);
      returns o40;
      bitwise_eq v39 v41;
      returns o42;
      INEXACT =? v44;
      category_eqb Normal (category v45);
      returns o46;
      bitwise_eq v45 v47;
      returns o48;
      INEXACT =? v50;
      category_eqb Normal (category v51);
      returns o52;
      bitwise_eq v51 v53;
      returns o54;
      INEXACT =? v56;
      category_eqb Normal (category v57);
      returns o58;
      bitwise_eq v57 v59;
      returns o60;
      INEXACT =? v62]) = true.
Proof. vm_compute. reflexivity. Qed.

Example test_subtract_25 : (
   let v0 := neg (largest SingleS) in
   let v1 := SMALLEST SingleS in
   let v2 := neg (SMALLEST SingleS) in
   let v3 := smallest_normalized SingleS in
   let v4 := neg (smallest_normalized SingleS) in
   let o5 := op_sub SingleS v4 v0 in
   let v6 := get (0, junk) o5 in
   let v7 := snd v6 in
   let o8 := unwrap_parse (from_str SingleS (bytes "0x1.fffffep+127")) in
   let v9 := get junk o8 in
   let o10 := op_sub SingleS v4 v1 in
   let v11 := get (0, junk) o10 in
   let v12 := fst v11 in
   let v13 := snd v11 in
   let o14 := unwrap_parse (from_str SingleS (bytes "-0x1.000002p-126")) in
   let v15 := get junk o14 in
   let o16 := op_sub SingleS v4 v2 in
   let v17 := get (0, junk) o16 in
   let v18 := fst v17 in
   let v19 := snd v17 in
   let o20 := unwrap_parse (from_str SingleS (bytes "-0x1.fffffcp-127")) in
   let v21 := get junk o20 in
   let o22 := op_sub SingleS v4 v3 in
   let v23 := get (0, junk) o22 in
   let v24 := fst v23 in
   let v25 := snd v23 in
   let o26 := unwrap_parse (from_str SingleS (bytes "-0x1p-125")) in
   let v27 := get junk o26 in
   let o28 := op_sub SingleS v4 v4 in
   let v29 := get (0, junk) o28 in
   let v30 := fst v29 in
   let v31 := snd v29 in
   let o32 := unwrap_parse (from_str SingleS (bytes "0x0p+0")) in
   let v33 := get junk o32 in
   all_true [
      category_eqb Normal (category v7);
      returns o8;
      bitwise_eq v7 v9;
      returns o10;
      OK =? v12;
      category_eqb Normal (category v13);
      returns o14;
      bitwise_eq v13 v15;
      returns o16;
      OK =? v18;
      category_eqb Normal (category v19);
      returns o20;
      bitwise_eq v19 v21;
      returns o22;
      OK =? v24;
      category_eqb Normal (category v25);
      returns o26;
      bitwise_eq v25 v27;
      returns o28;
      OK =? v30;
      category_eqb Zero (category v31);
      returns o32;
      bitwise_eq v31 v33]) = true.
Proof. vm_compute. reflexivity. Qed.

(** ieee.rs:2557 [multiply] *)
Example test_multiply_1 : (
   let v0 := INFINITY SingleS in
   let v1 := neg (INFINITY SingleS) in
   let v2 := ZERO SingleS in
   let v3 := neg (ZERO SingleS) in
   let v4 := NAN SingleS in
   let o5 := unwrap_parse (from_str SingleS (bytes "snan123")) in
   let v6 := get junk o5 in
   let o7 := unwrap_parse (from_str SingleS (bytes "0x1p+0")) in
   let v8 := get junk o7 in
   let o9 := unwrap_parse (from_str SingleS (bytes "-0x1p+0")) in
   let o10 := unwrap_parse (from_str QuadS (bytes "0x1.ffffffffffffffffffffffffffffp+16383")) in
   let o11 := unwrap_parse (from_str QuadS (bytes "0x0.0000000000000000000000000001p-16382")) in
   let o12 := unwrap_parse (from_str QuadS (bytes "-0x0.0000000000000000000000000001p-16382")) in
   let o13 := op_mul SingleS v0 v0 in
   let v14 := get (0, junk) o13 in
   let v15 := fst v14 in
   let v16 := snd v14 in
   let o17 := unwrap_parse (from_str SingleS (bytes "inf")) in
   let v18 := get junk o17 in
   let o19 := op_mul SingleS v0 v1 in
   let v20 := get (0, junk) o19 in
   let v21 := fst v20 in
   let v22 := snd v20 in
   let o23 := unwrap_parse (from_str SingleS (bytes "-inf")) in
   let v24 := get junk o23 in
   let o25 := op_mul SingleS v0 v2 in
   let v26 := get (0, junk) o25 in
   let v27 := fst v26 in
   let v28 := snd v26 in
   let o29 := unwrap_parse (from_str SingleS (bytes "nan")) in
   let v30 := get junk o29 in
   let o31 := op_mul SingleS v0 v3 in
   let v32 := get (0, junk) o31 in
   let v33 := fst v32 in
   let v34 := snd v32 in
   let o35 := unwrap_parse (from_str SingleS (bytes "nan")) in
   let v36 := get junk o35 in
   let o37 := op_mul SingleS v0 v4 in
   let v38 := get (0, junk) o37 in
   let v39 := fst v38 in
   let v40 := snd v38 in
   let o41 := unwrap_parse (from_str SingleS (bytes "nan")) in
   let v42 := get junk o41 in
   let o43 := op_mul SingleS v0 v6 in
   let v44 := get (0, junk) o43 in
   let v45 := fst v44 in
   let v46 := snd v44 in
   let o47 := unwrap_parse (from_str SingleS (bytes "nan123")) in
   let v48 := get junk o47 in
   let o49 := op_mul SingleS v0 v8 in
   let v50 := get (0, junk) o49 in
   let v51 := fst v50 in
   let v52 := snd v50 in
   let o53 := unwrap_parse (from_str SingleS (bytes "inf")) in
   all_true [
      returns o5;
      returns o7;
      returns o9;
      returns o10;
      returns o11;
      returns o12;
      returns o13;
      OK =? v15;
      category_eqb Infinity (category v16);
      returns o17;
      bitwise_eq v16 v18;
      returns o19;
      OK =? v21;
      category_eqb Infinity (category v22);
      returns o23;
      bitwise_eq v22 v24;
      returns o25;
      INVALID_OP =? v27;
      category_eqb NaN (category v28);
      returns o29;
      bitwise_eq v28 v30;
      returns o31;
      INVALID_OP =? v33;
      category_eqb NaN (category v34);
      returns o35;
      bitwise_eq v34 v36;
      returns o37;
      OK =? v39;
      category_eqb NaN (category v40);
      returns o41;
      bitwise_eq v40 v42;
      returns o43;
      INVALID_OP =? v45;
      category_eqb NaN (category v46);
      returns o47;
      bitwise_eq v46 v48;
      returns o49;
      OK =? v51;
      category_eqb Infinity (category v52);
      returns o53]) = true.
Proof. vm_compute. reflexivity. Qed.

Example test_multiply_2 : (
   let v0 := INFINITY SingleS in
   let v1 := neg (INFINITY SingleS) in
   let o2 := unwrap_parse (from_str SingleS (bytes "0x1p+0")) in
   let v3 := get junk o2 in
   let o4 := unwrap_parse (from_str SingleS (bytes "-0x1p+0")) in
   let v5 := get junk o4 in
   let v6 := largest SingleS in
   let v7 := neg (largest SingleS) in
   let v8 := SMALLEST SingleS in
   let v9 := neg (SMALLEST SingleS) in
   let v10 := smallest_normalized SingleS in
   let v11 := neg (smallest_normalized SingleS) in
   let o12 := op_mul SingleS v0 v3 in
   let v13 := get (0, junk) o12 in
   let v14 := snd v13 in
   let o15 := unwrap_parse (from_str SingleS (bytes "inf")) in
   let v16 := get junk o15 in
   let o17 := op_mul SingleS v0 v5 in
   let v18 := get (0, junk) o17 in
   let v19 := fst v18 in
   let v20 := snd v18 in
   let o21 := unwrap_parse (from_str SingleS (bytes "-inf")) in
   let v22 := get junk o21 in
   let o23 := op_mul SingleS v0 v6 in
   let v24 := get (0, junk) o23 in
   let v25 := fst v24 in
   let v26 := snd v24 in
   let o27 := unwrap_parse (from_str SingleS (bytes "inf")) in
   let v28 := get junk o27 in
   let o29 := op_mul SingleS v0 v7 in
   let v30 := get (0, junk) o29 in
   let v31 := fst v30 in
   let v32 := snd v30 in
   let o33 := unwrap_parse (from_str SingleS (bytes "-inf")) in
   let v34 := get junk o33 in
   let o35 := op_mul SingleS v0 v8 in
   let v36 := get (0, junk) o35 in
   let v37 := fst v36 in
   let v38 := snd v36 in
   let o39 := unwrap_parse (from_str SingleS (bytes "inf")) in
   let v40 := get junk o39 in
   let o41 := op_mul SingleS v0 v9 in
   let v42 := get (0, junk) o41 in
   let v43 := fst v42 in
   let v44 := snd v42 in
   let o45 := unwrap_parse (from_str SingleS (bytes "-inf")) in
   let v46 := get junk o45 in
   let o47 := op_mul SingleS v0 v10 in
   let v48 := get (0, junk) o47 in
   let v49 := fst v48 in
   let v50 := snd v48 in
   let o51 := unwrap_parse (from_str SingleS (bytes "inf")) in
   let v52 := get junk o51 in
   let o53 := op_mul SingleS v0 v11 in
   let v54 := get (0, junk) o53 in
   let v55 := fst v54 in
   let v56 := snd v54 in
   let o57 := unwrap_parse (from_str SingleS (bytes "-inf")) in
   let v58 := get junk o57 in
   let o59 := op_mul SingleS v1 v0 in
   let v60 := get (0, junk) o59 in
   let v61 := fst v60 in
   let v62 := snd v60 in
   let o63 := unwrap_parse (from_str SingleS (bytes "-inf")) in
   all_true [
      bitwise_eq v14 v16;
      returns o17;
      OK =? v19;
      category_eqb Infinity (category v20);
      returns o21;
      bitwise_eq v20 v22;
      returns o23;
      OK =? v25;
      category_eqb Infinity (category v26);
      returns o27;
      bitwise_eq v26 v28;
      returns o29;
      OK =? v31;
      category_eqb Infinity (category v32);
      returns o33;
      bitwise_eq v32 v34;
      returns o35;
      OK =? v37;
      category_eqb Infinity (category v38);
      returns o39;
      bitwise_eq v38 v40;
      returns o41;
      OK =? v43;
      category_eqb Infinity (category v44);
      returns o45;
      bitwise_eq v44 v46;
      returns o47;
      OK =? v49;
      category_eqb Infinity (category v50);
      returns o51;
      bitwise_eq v50 v52;
      returns o53;
      OK =? v55;
      category_eqb Infinity (category v56);
      returns o57;
      bitwise_eq v56 v58;
      returns o59;
      OK =? v61;
      category_eqb Infinity (category v62);
      returns o63]) = true.
Proof. vm_compute. reflexivity. Qed.

Example test_multiply_3 : (
   let v0 := INFINITY SingleS in
   let v1 := neg (INFINITY SingleS) in
   let v2 := ZERO SingleS in
   let v3 := neg (ZERO SingleS) in
   let v4 := NAN SingleS in
   let o5 := unwrap_parse (from_str SingleS (bytes "snan123")) in
   let v6 := get junk o5 in
   let o7 := unwrap_parse (from_str SingleS (bytes "0x1p+0")) in
   let v8 := get junk o7 in
   let o9 := unwrap_parse (from_str SingleS (bytes "-0x1p+0")) in
   let v10 := get junk o9 in
   let v11 := largest SingleS in
   let o12 := op_mul SingleS v1 v0 in
   let v13 := get (0, junk) o12 in
   let v14 := snd v13 in
   let o15 := unwrap_parse (from_str SingleS (bytes "-inf")) in
   let v16 := get junk o15 in
   let o17 := op_mul SingleS v1 v1 in
   let v18 := get (0, junk) o17 in
   let v19 := fst v18 in
   let v20 := snd v18 in
   let o21 := unwrap_parse (from_str SingleS (bytes "inf")) in
   let v22 := get junk o21 in
   let o23 := op_mul SingleS v1 v2 in
   let v24 := get (0, junk) o23 in
   let v25 := fst v24 in
   let v26 := snd v24 in
   let o27 := unwrap_parse (from_str SingleS (bytes "nan")) in
   let v28 := get junk o27 in
   let o29 := op_mul SingleS v1 v3 in
   let v30 := get (0, junk) o29 in
   let v31 := fst v30 in
   let v32 := snd v30 in
   let o33 := unwrap_parse (from_str SingleS (bytes "nan")) in
   let v34 := get junk o33 in
   let o35 := op_mul SingleS v1 v4 in
   let v36 := get (0, junk) o35 in
   let v37 := fst v36 in
   let v38 := snd v36 in
   let o39 := unwrap_parse (from_str SingleS (bytes "nan")) in
   let v40 := get junk o39 in
   let o41 := op_mul SingleS v1 v6 in
   let v42 := get (0, junk) o41 in
   let v43 := fst v42 in
   let v44 := snd v42 in
   let o45 := unwrap_parse (from_str SingleS (bytes "nan123")) in
   let v46 := get junk o45 in
   let o47 := op_mul SingleS v1 v8 in
   let v48 := get (0, junk) o47 in
   let v49 := fst v48 in
   let v50 := snd v48 in
   let o51 := unwrap_parse (from_str SingleS (bytes "-inf")) in
   let v52 := get junk o51 in
   let o53 := op_mul SingleS v1 v10 in
   let v54 := get (0, junk) o53 in
   let v55 := fst v54 in
   let v56 := snd v54 in
   let o57 := unwrap_parse (from_str SingleS (bytes "inf")) in
   let v58 := get junk o57 in
   let o59 := op_mul SingleS v1 v11 in
   let v60 := get (0, junk) o59 in
   let v61 := fst v60 in
   let v62 := snd v60 in
   let o63 := unwrap_parse (from_str SingleS (bytes "-inf")) in
   all_true [
      bitwise_eq v14 v16;
      returns o17;
      OK =? v19;
      category_eqb Infinity (category v20);
      returns o21;
      bitwise_eq v20 v22;
      returns o23;
      INVALID_OP =? v25;
      category_eqb NaN (category v26);
      returns o27;
      bitwise_eq v26 v28;
      returns o29;
      INVALID_OP =? v31;
      category_eqb NaN (category v32);
      returns o33;
      bitwise_eq v32 v34;
      returns o35;
      OK =? v37;
      category_eqb NaN (category v38);
      returns o39;
      bitwise_eq v38 v40;
      returns o41;
      INVALID_OP =? v43;
      category_eqb NaN (category v44);
      returns o45;
      bitwise_eq v44 v46;
      returns o47;
      OK =? v49;
      category_eqb Infinity (category v50);
      returns o51;
      bitwise_eq v50 v52;
      returns o53;
      OK =? v55;
      category_eqb Infinity (category v56);
      returns o57;
      bitwise_eq v56 v58;
      returns o59;
      OK =? v61;
      category_eqb Infinity (category v62);
      returns o63]) = true.
Proof. vm_compute. reflexivity. Qed.

Example test_multiply_4 : (
   let v0 := INFINITY SingleS in
   let v1 := neg (INFINITY SingleS) in
   let v2 := ZERO SingleS in
   let v3 := largest SingleS in
   let v4 := neg (largest SingleS) in
   let v5 := SMALLEST SingleS in
   let v6 := neg (SMALLEST SingleS) in
   let v7 := smallest_normalized SingleS in
   let v8 := neg (smallest_normalized SingleS) in
   let o9 := op_mul SingleS v1 v3 in
   let v10 := get (0, junk) o9 in
   let v11 := snd v10 in
   let o12 := unwrap_parse (from_str SingleS (bytes "-inf")) in
   let v13 := get junk o12 in
   let o14 := op_mul SingleS v1 v4 in
   let v15 := get (0, junk) o14 in
   let v16 := fst v15 in
   let v17 := snd v15 in
   let o18 := unwrap_parse (from_str SingleS (bytes "inf")) in
   let v19 := get junk o18 in
   let o20 := op_mul SingleS v1 v5 in
   let v21 := get (0, junk) o20 in
   let v22 := fst v21 in
   let v23 := snd v21 in
   let o24 := unwrap_parse (from_str SingleS (bytes "-inf")) in
   let v25 := get junk o24 in
   let o26 := op_mul SingleS v1 v6 in
   let v27 := get (0, junk) o26 in
   let v28 := fst v27 in
   let v29 := snd v27 in
   let o30 := unwrap_parse (from_str SingleS (bytes "inf")) in
   let v31 := get junk o30 in
   let o32 := op_mul SingleS v1 v7 in
   let v33 := get (0, junk) o32 in
   let v34 := fst v33 in
   let v35 := snd v33 in
   let o36 := unwrap_parse (from_str SingleS (bytes "-inf")) in
   let v37 := get junk o36 in
   let o38 := op_mul SingleS v1 v8 in
   let v39 := get (0, junk) o38 in
   let v40 := fst v39 in
   let v41 := snd v39 in
   let o42 := unwrap_parse (from_str SingleS (bytes "inf")) in
   let v43 := get junk o42 in
   let o44 := op_mul SingleS v2 v0 in
   let v45 := get (0, junk) o44 in
   let v46 := fst v45 in
   let v47 := snd v45 in
   let o48 := unwrap_parse (from_str SingleS (bytes "nan")) in
   let v49 := get junk o48 in
   let o50 := op_mul SingleS v2 v1 in
   let v51 := get (0, junk) o50 in
   let v52 := fst v51 in
   let v53 := snd v51 in
   let o54 := unwrap_parse (from_str SingleS (bytes "nan")) in
   let v55 := get junk o54 in
   let o56 := op_mul SingleS v2 v2 in
   let v57 := get (0, junk) o56 in
   let v58 := fst v57 in
   let v59 := snd v57 in
   let o60 := unwrap_parse (from_str SingleS (bytes "0x0p+0")) in
   all_true [
      bitwise_eq v11 v13;
      returns o14;
      OK =? v16;
      category_eqb Infinity (category v17);
      returns o18;
      bitwise_eq v17 v19;
      returns o20;
      OK =? v22;
      category_eqb Infinity (category v23);
      returns o24;
      bitwise_eq v23 v25;
      returns o26;
      OK =? v28;
      category_eqb Infinity (category v29);
      returns o30;
      bitwise_eq v29 v31;
      returns o32;
      OK =? v34;
      category_eqb Infinity (category v35);
      returns o36;
      bitwise_eq v35 v37;
      returns o38;
      OK =? v40;
      category_eqb Infinity (category v41);
      returns o42;
      bitwise_eq v41 v43;
      returns o44;
      INVALID_OP =? v46;
      category_eqb NaN (category v47);
      returns o48;
      bitwise_eq v47 v49;
      returns o50;
      INVALID_OP =? v52;
      category_eqb NaN (category v53);
      returns o54;
      bitwise_eq v53 v55;
      returns o56;
      OK =? v58;
      category_eqb Zero (category v59);
      returns o60]) = true.
Proof. vm_compute. reflexivity. Qed.

Example test_multiply_5 : (
   let v0 := ZERO SingleS in
   let v1 := neg (ZERO SingleS) in
   let v2 := NAN SingleS in
   let o3 := unwrap_parse (from_str SingleS (bytes "snan123")) in
   let v4 := get junk o3 in
   let o5 := unwrap_parse (from_str SingleS (bytes "0x1p+0")) in
   let v6 := get junk o5 in
   let o7 := unwrap_parse (from_str SingleS (bytes "-0x1p+0")) in
   let v8 := get junk o7 in
   let v9 := largest SingleS in
   let v10 := neg (largest SingleS) in
   let v11 := SMALLEST SingleS in
   let o12 := op_mul SingleS v0 v0 in
   let v13 := get (0, junk) o12 in
   let v14 := snd v13 in
   let o15 := unwrap_parse (from_str SingleS (bytes "0x0p+0")) in
   let v16 := get junk o15 in
   let o17 := op_mul SingleS v0 v1 in
   let v18 := get (0, junk) o17 in
   let v19 := fst v18 in
   let v20 := snd v18 in
   let o21 := unwrap_parse (from_str SingleS (bytes "-0x0p+0")) in
   let v22 := get junk o21 in
   let o23 := op_mul SingleS v0 v2 in
   let v24 := get (0, junk) o23 in
   let v25 := fst v24 in
   let v26 := snd v24 in
   let o27 := unwrap_parse (from_str SingleS (bytes "nan")) in
   let v28 := get junk o27 in
   let o29 := op_mul SingleS v0 v4 in
   let v30 := get (0, junk) o29 in
   let v31 := fst v30 in
   let v32 := snd v30 in
   let o33 := unwrap_parse (from_str SingleS (bytes "nan123")) in
   let v34 := get junk o33 in
   let o35 := op_mul SingleS v0 v6 in
   let v36 := get (0, junk) o35 in
   let v37 := fst v36 in
   let v38 := snd v36 in
   let o39 := unwrap_parse (from_str SingleS (bytes "0x0p+0")) in
   let v40 := get junk o39 in
   let o41 := op_mul SingleS v0 v8 in
   let v42 := get (0, junk) o41 in
   let v43 := fst v42 in
   let v44 := snd v42 in
   let o45 := unwrap_parse (from_str SingleS (bytes "-0x0p+0")) in
   let v46 := get junk o45 in
   let o47 := op_mul SingleS v0 v9 in
   let v48 := get (0, junk) o47 in
   let v49 := fst v48 in
   let v50 := snd v48 in
   let o51 := unwrap_parse (from_str SingleS (bytes "0x0p+0")) in
   let v52 := get junk o51 in
   let o53 := op_mul SingleS v0 v10 in
   let v54 := get (0, junk) o53 in
   let v55 := fst v54 in
   let v56 := snd v54 in
   let o57 := unwrap_parse (from_str SingleS (bytes "-0x0p+0")) in
   let v58 := get junk o57 in
   let o59 := op_mul SingleS v0 v11 in
   let v60 := get (0, junk) o59 in
   let v61 := fst v60 in
   let v62 := snd v60 in
   let o63 := unwrap_parse (from_str SingleS (bytes "0x0p+0")) in
   all_true [
      bitwise_eq v14 v16;
      returns o17;
      OK =? v19;
      category_eqb Zero (category v20);
      returns o21;
      bitwise_eq v20 v22;
      returns o23;
      OK =? v25;
      category_eqb NaN (category v26);
      returns o27;
      bitwise_eq v26 v28;
      returns o29;
      INVALID_OP =? v31;
      category_eqb NaN (category v32);
      returns o33;
      bitwise_eq v32 v34;
      returns o35;
      OK =? v37;
      category_eqb Zero (category v38);
      returns o39;
      bitwise_eq v38 v40;
      returns o41;
      OK =? v43;
      category_eqb Zero (category v44);
      returns o45;
      bitwise_eq v44 v46;
      returns o47;
      OK =? v49;
      category_eqb Zero (category v50);
      returns o51;
      bitwise_eq v50 v52;
      returns o53;
      OK =? v55;
      category_eqb Zero (category v56);
      returns o57;
      bitwise_eq v56 v58;
      returns o59;
      OK =? v61;
      category_eqb Zero (category v62);
      returns o63]) = true.
Proof. vm_compute. reflexivity. Qed.

Example test_multiply_6 : (
   let v0 := INFINITY SingleS in
   let v1 := neg (INFINITY SingleS) in
   let v2 := ZERO SingleS in
   let v3 := neg (ZERO SingleS) in
   let v4 := NAN SingleS in
   let v5 := SMALLEST SingleS in
   let v6 := neg (SMALLEST SingleS) in
   let v7 := smallest_normalized SingleS in
   let v8 := neg (smallest_normalized SingleS) in
   let o9 := op_mul SingleS v2 v5 in
   let v10 := get (0, junk) o9 in
   let v11 := snd v10 in
   let o12 := unwrap_parse (from_str SingleS (bytes "0x0p+0")) in
   let v13 := get junk o12 in
   let o14 := op_mul SingleS v2 v6 in
   let v15 := get (0, junk) o14 in
   let v16 := fst v15 in
   let v17 := snd v15 in
   let o18 := unwrap_parse (from_str SingleS (bytes "-0x0p+0")) in
   let v19 := get junk o18 in
   let o20 := op_mul SingleS v2 v7 in
   let v21 := get (0, junk) o20 in
   let v22 := fst v21 in
   let v23 := snd v21 in
   let o24 := unwrap_parse (from_str SingleS (bytes "0x0p+0")) in
   let v25 := get junk o24 in
   let o26 := op_mul SingleS v2 v8 in
   let v27 := get (0, junk) o26 in
   let v28 := fst v27 in
   let v29 := snd v27 in
   let o30 := unwrap_parse (from_str SingleS (bytes "-0x0p+0")) in
   let v31 := get junk o30 in
   let o32 := op_mul SingleS v3 v0 in
   let v33 := get (0, junk) o32 in
   let v34 := fst v33 in
   let v35 := snd v33 in
   let o36 := unwrap_parse (from_str SingleS (bytes "nan")) in
   let v37 := get junk o36 in
   let o38 := op_mul SingleS v3 v1 in
   let v39 := get (0, junk) o38 in
   let v40 := fst v39 in
   let v41 := snd v39 in
   let o42 := unwrap_parse (from_str SingleS (bytes "nan")) in
   let v43 := get junk o42 in
   let o44 := op_mul SingleS v3 v2 in
   let v45 := get (0, junk) o44 in
   let v46 := fst v45 in
   let v47 := snd v45 in
   let o48 := unwrap_parse (from_str SingleS (bytes "-0x0p+0")) in
   let v49 := get junk o48 in
   let o50 := op_mul SingleS v3 v3 in
   let v51 := get (0, junk) o50 in
   let v52 := fst v51 in
   let v53 := snd v51 in
   let o54 := unwrap_parse (from_str SingleS (bytes "0x0p+0")) in
   let v55 := get junk o54 in
   let o56 := op_mul SingleS v3 v4 in
   let v57 := get (0, junk) o56 in
   let v58 := fst v57 in
   let v59 := snd v57 in
   let o60 := unwrap_parse (from_str SingleS (bytes "nan")) in
   all_true [
      bitwise_eq v11 v13;
      returns o14;
      OK =? v16;
      category_eqb Zero (category v17);
      returns o18;
      bitwise_eq v17 v19;
      returns o20;
      OK =? v22;
      category_eqb Zero (category v23);
      returns o24;
      bitwise_eq v23 v25;
      returns o26;
      OK =? v28;
      category_eqb Zero (category v29);
      returns o30;
      bitwise_eq v29 v31;
      returns o32;
      INVALID_OP =? v34;
      category_eqb NaN (category v35);
      returns o36;
      bitwise_eq v35 v37;
      returns o38;
      INVALID_OP =? v40;
      category_eqb NaN (category v41);
      returns o42;
      bitwise_eq v41 v43;
      returns o44;
      OK =? v46;
      category_eqb Zero (category v47);
      returns o48;
      bitwise_eq v47 v49;
      returns o50;
      OK =? v52;
      category_eqb Zero (category v53);
      returns o54;
      bitwise_eq v53 v55;
      returns o56;
      OK =? v58;
      category_eqb NaN (category v59);
      returns o60]) = true.
Proof. vm_compute. reflexivity. Qed.

Example test_multiply_7 : (
   let v0 := neg (ZERO SingleS) in
   let v1 := NAN SingleS in
   let o2 := unwrap_parse (from_str SingleS (bytes "snan123")) in
   let v3 := get junk o2 in
   let o4 := unwrap_parse (from_str SingleS (bytes "0x1p+0")) in
   let v5 := get junk o4 in
   let o6 := unwrap_parse (from_str SingleS (bytes "-0x1p+0")) in
   let v7 := get junk o6 in
   let v8 := largest SingleS in
   let v9 := neg (largest SingleS) in
   let v10 := SMALLEST SingleS in
   let v11 := neg (SMALLEST SingleS) in
   let v12 := smallest_normalized SingleS in
   let o13 := op_mul SingleS v0 v1 in
   let v14 := get (0, junk) o13 in
   let v15 := snd v14 in
   let o16 := unwrap_parse (from_str SingleS (bytes "nan")) in
   let v17 := get junk o16 in
   let o18 := op_mul SingleS v0 v3 in
   let v19 := get (0, junk) o18 in
   let v20 := fst v19 in
   let v21 := snd v19 in
   let o22 := unwrap_parse (from_str SingleS (bytes "nan123")) in
   let v23 := get junk o22 in
   let o24 := op_mul SingleS v0 v5 in
   let v25 := get (0, junk) o24 in
   let v26 := fst v25 in
   let v27 := snd v25 in
   let o28 := unwrap_parse (from_str SingleS (bytes "-0x0p+0")) in
   let v29 := get junk o28 in
   let o30 := op_mul SingleS v0 v7 in
   let v31 := get (0, junk) o30 in
   let v32 := fst v31 in
   let v33 := snd v31 in
   let o34 := unwrap_parse (from_str SingleS (bytes "0x0p+0")) in
   let v35 := get junk o34 in
   let o36 := op_mul SingleS v0 v8 in
   let v37 := get (0, junk) o36 in
   let v38 := fst v37 in
   let v39 := snd v37 in
   let o40 := unwrap_parse (from_str SingleS (bytes "-0x0p+0")) in
   let v41 := get junk o40 in
   let o42 := op_mul SingleS v0 v9 in
   let v43 := get (0, junk) o42 in
   let v44 := fst v43 in
   let v45 := snd v43 in
   let o46 := unwrap_parse (from_str SingleS (bytes "0x0p+0")) in
   let v47 := get junk o46 in
   let o48 := op_mul SingleS v0 v10 in
   let v49 := get (0, junk) o48 in
   let v50 := fst v49 in
   let v51 := snd v49 in
   let o52 := unwrap_parse (from_str SingleS (bytes "-0x0p+0")) in
   let v53 := get junk o52 in
   let o54 := op_mul SingleS v0 v11 in
   let v55 := get (0, junk) o54 in
   let v56 := fst v55 in
   let v57 := snd v55 in
   let o58 := unwrap_parse (from_str SingleS (bytes "0x0p+0")) in
   let v59 := get junk o58 in
   let o60 := op_mul SingleS v0 v12 in
   let v61 := get (0, junk) o60 in
   let v62 := fst v61 in
   let v63 := snd v61 in
   let o64 := unwrap_parse (from_str SingleS (bytes "-0x0p+0")) in
   all_true [
      bitwise_eq v15 v17;
      returns o18;
      INVALID_OP =? v20;
      category_eqb NaN (category v21);
      returns o22;
      bitwise_eq v21 v23;
      returns o24;
      OK =? v26;
      category_eqb Zero (category v27);
      returns o28;
      bitwise_eq v27 v29;
      returns o30;
      OK =? v32;
      category_eqb Zero (category v33);
      returns o34;
      bitwise_eq v33 v35;
      returns o36;
      OK =? v38;
      category_eqb Zero (category v39);
      returns o40;
      bitwise_eq v39 v41;
      returns o42;
      OK =? v44;
      category_eqb Zero (category v45);
      returns o46;
      bitwise_eq v45 v47;
      returns o48;
      OK =? v50;
      category_eqb Zero (category v51);
      returns o52;
      bitwise_eq v51 v53;
      returns o54;
      OK =? v56;
      category_eqb Zero (category v57);
      returns o58;
      bitwise_eq v57 v59;
      returns o60;
      OK =? v62;
      category_eqb Zero (category v63);
      returns o64]) = true.
Proof. vm_compute. reflexivity. Qed.

Example test_multiply_8 : (
   let v0 := INFINITY SingleS in
   let v1 := neg (INFINITY SingleS) in
   let v2 := ZERO SingleS in
   let v3 := neg (ZERO SingleS) in
   let v4 := NAN SingleS in
   let o5 := unwrap_parse (from_str SingleS (bytes "snan123")) in
   let v6 := get junk o5 in
   let o7 := unwrap_parse (from_str SingleS (bytes "0x1p+0")) in
   let v8 := get junk o7 in
   let v9 := smallest_normalized SingleS in
   let v10 := neg (smallest_normalized SingleS) in
   let o11 := op_mul SingleS v3 v9 in
   let v12 := get (0, junk) o11 in
   let v13 := snd v12 in
   let o14 := unwrap_parse (from_str SingleS (bytes "-0x0p+0")) in
   let v15 := get junk o14 in
   let o16 := op_mul SingleS v3 v10 in
   let v17 := get (0, junk) o16 in
   let v18 := fst v17 in
   let v19 := snd v17 in
   let o20 := unwrap_parse (from_str SingleS (bytes "0x0p+0")) in
   let v21 := get junk o20 in
   let o22 := op_mul SingleS v4 v0 in
   let v23 := get (0, junk) o22 in
   let v24 := fst v23 in
   let v25 := snd v23 in
   let o26 := unwrap_parse (from_str SingleS (bytes "nan")) in
   let v27 := get junk o26 in
   let o28 := op_mul SingleS v4 v1 in
   let v29 := get (0, junk) o28 in
   let v30 := fst v29 in
   let v31 := snd v29 in
   let o32 := unwrap_parse (from_str SingleS (bytes "nan")) in
   let v33 := get junk o32 in
   let o34 := op_mul SingleS v4 v2 in
   let v35 := get (0, junk) o34 in
   let v36 := fst v35 in
   let v37 := snd v35 in
   let o38 := unwrap_parse (from_str SingleS (bytes "nan")) in
   let v39 := get junk o38 in
   let o40 := op_mul SingleS v4 v3 in
   let v41 := get (0, junk) o40 in
   let v42 := fst v41 in
   let v43 := snd v41 in
   let o44 := unwrap_parse (from_str SingleS (bytes "nan")) in
   let v45 := get junk o44 in
   let o46 := op_mul SingleS v4 v4 in
   let v47 := get (0, junk) o46 in
   let v48 := fst v47 in
   let v49 := snd v47 in
   let o50 := unwrap_parse (from_str SingleS (bytes "nan")) in
   let v51 := get junk o50 in
   let o52 := op_mul SingleS v4 v6 in
   let v53 := get (0, junk) o52 in
   let v54 := fst v53 in
   let v55 := snd v53 in
   let o56 := unwrap_parse (from_str SingleS (bytes "nan")) in
   let v57 := get junk o56 in
   let o58 := op_mul SingleS v4 v8 in
   let v59 := get (0, junk) o58 in
   let v60 := fst v59 in
   let v61 := snd v59 in
   let o62 := unwrap_parse (from_str SingleS (bytes "nan")) in
   all_true [
      bitwise_eq v13 v15;
      returns o16;
      OK =? v18;
      category_eqb Zero (category v19);
      returns o20;
      bitwise_eq v19 v21;
      returns o22;
      OK =? v24;
      category_eqb NaN (category v25);
      returns o26;
      bitwise_eq v25 v27;
      returns o28;
      OK =? v30;
      category_eqb NaN (category v31);
      returns o32;
      bitwise_eq v31 v33;
      returns o34;
      OK =? v36;
      category_eqb NaN (category v37);
      returns o38;
      bitwise_eq v37 v39;
      returns o40;
      OK =? v42;
      category_eqb NaN (category v43);
      returns o44;
      bitwise_eq v43 v45;
      returns o46;
      OK =? v48;
      category_eqb NaN (category v49);
      returns o50;
      bitwise_eq v49 v51;
      returns o52;
      INVALID_OP =? v54;
      category_eqb NaN (category v55);
      returns o56;
      bitwise_eq v55 v57;
      returns o58;
      OK =? v60;
      category_eqb NaN (category v61);
      returns o62]) = true.
Proof. vm_compute. reflexivity. Qed.

Example test_multiply_9 : (
   let v0 := INFINITY SingleS in
   let v1 := NAN SingleS in
   let o2 := unwrap_parse (from_str SingleS (bytes "snan123")) in
   let v3 := get junk o2 in
   let o4 := unwrap_parse (from_str SingleS (bytes "0x1p+0")) in
   let v5 := get junk o4 in
   let o6 := unwrap_parse (from_str SingleS (bytes "-0x1p+0")) in
   let v7 := get junk o6 in
   let v8 := largest SingleS in
   let v9 := neg (largest SingleS) in
   let v10 := SMALLEST SingleS in
   let v11 := neg (SMALLEST SingleS) in
   let v12 := smallest_normalized SingleS in
   let v13 := neg (smallest_normalized SingleS) in
   let o14 := op_mul SingleS v1 v5 in
   let v15 := get (0, junk) o14 in
   let v16 := snd v15 in
   let o17 := unwrap_parse (from_str SingleS (bytes "nan")) in
   let v18 := get junk o17 in
   let o19 := op_mul SingleS v1 v7 in
   let v20 := get (0, junk) o19 in
   let v21 := fst v20 in
   let v22 := snd v20 in
   let o23 := unwrap_parse (from_str SingleS (bytes "nan")) in
   let v24 := get junk o23 in
   let o25 := op_mul SingleS v1 v8 in
   let v26 := get (0, junk) o25 in
   let v27 := fst v26 in
   let v28 := snd v26 in
   let o29 := unwrap_parse (from_str SingleS (bytes "nan")) in
   let v30 := get junk o29 in
   let o31 := op_mul SingleS v1 v9 in
   let v32 := get (0, junk) o31 in
   let v33 := fst v32 in
   let v34 := snd v32 in
   let o35 := unwrap_parse (from_str SingleS (bytes "nan")) in
   let v36 := get junk o35 in
   let o37 := op_mul SingleS v1 v10 in
   let v38 := get (0, junk) o37 in
   let v39 := fst v38 in
   let v40 := snd v38 in
   let o41 := unwrap_parse (from_str SingleS (bytes "nan")) in
   let v42 := get junk o41 in
   let o43 := op_mul SingleS v1 v11 in
   let v44 := get (0, junk) o43 in
   let v45 := fst v44 in
   let v46 := snd v44 in
   let o47 := unwrap_parse (from_str SingleS (bytes "nan")) in
   let v48 := get junk o47 in
   let o49 := op_mul SingleS v1 v12 in
   let v50 := get (0, junk) o49 in
   let v51 := fst v50 in
   let v52 := snd v50 in
   let o53 := unwrap_parse (from_str SingleS (bytes "nan")) in
   let v54 := get junk o53 in
   let o55 := op_mul SingleS v1 v13 in
   let v56 := get (0, junk) o55 in
   let v57 := fst v56 in
   let v58 := snd v56 in
   let o59 := unwrap_parse (from_str SingleS (bytes "nan")) in
   let v60 := get junk o59 in
   let o61 := op_mul SingleS v3 v0 in
   let v62 := get (0, junk) o61 in
   let v63 := fst v62 in
   let v64 := snd v62 in
   let o65 := unwrap_parse (from_str SingleS (bytes "nan123")) in
   all_true [
      bitwise_eq v16 v18;
      returns o19;
      OK =? v21;
      category_eqb NaN (category v22);
      returns o23;
      bitwise_eq v22 v24;
      returns o25;
      OK =? v27;
      category_eqb NaN (category v28);
      returns o29;
      bitwise_eq v28 v30;
      returns o31;
      OK =? v33;
      category_eqb NaN (category v34);
      returns o35;
      bitwise_eq v34 v36;
      returns o37;
      OK =? v39;
      category_eqb NaN (category v40);
      returns o41;
      bitwise_eq v40 v42;
      returns o43;
      OK =? v45;
      category_eqb NaN (category v46);
      returns o47;
      bitwise_eq v46 v48;
      returns o49;
      OK =? v51;
      category_eqb NaN (category v52);
      returns o53;
      bitwise_eq v52 v54;
      returns o55;
      OK =? v57;
      category_eqb NaN (category v58);
      returns o59;
      bitwise_eq v58 v60;
      returns o61;
      INVALID_OP =? v63;
      category_eqb NaN (category v64);
      returns o65]) = true.
Proof. vm_compute. reflexivity. Qed.

Example test_multiply_10 : (
   let v0 := INFINITY SingleS in
   let v1 := neg (INFINITY SingleS) in
   let v2 := ZERO SingleS in
   let v3 := neg (ZERO SingleS) in
   let v4 := NAN SingleS in
   let o5 := unwrap_parse (from_str SingleS (bytes "snan123")) in
   let v6 := get junk o5 in
   let o7 := unwrap_parse (from_str SingleS (bytes "0x1p+0")) in
   let v8 := get junk o7 in
   let o9 := unwrap_parse (from_str SingleS (bytes "-0x1p+0")) in
   let v10 := get junk o9 in
   let v11 := largest SingleS in
   let o12 := op_mul SingleS v6 v0 in
   let v13 := get (0, junk) o12 in
   let v14 := snd v13 in
   let o15 := unwrap_parse (from_str SingleS (bytes "nan123")) in
   let v16 := get junk o15 in
   let o17 := op_mul SingleS v6 v1 in
   let v18 := get (0, junk) o17 in
   let v19 := fst v18 in
   let v20 := snd v18 in
   let o21 := unwrap_parse (from_str SingleS (bytes "nan123")) in
   let v22 := get junk o21 in
   let o23 := op_mul SingleS v6 v2 in
   let v24 := get (0, junk) o23 in
   let v25 := fst v24 in
   let v26 := snd v24 in
   let o27 := unwrap_parse (from_str SingleS (bytes "nan123")) in
   let v28 := get junk o27 in
   let o29 := op_mul SingleS v6 v3 in
   let v30 := get (0, junk) o29 in
   let v31 := fst v30 in
   let v32 := snd v30 in
   let o33 := unwrap_parse (from_str SingleS (bytes "nan123")) in
   let v34 := get junk o33 in
   let o35 := op_mul SingleS v6 v4 in
   let v36 := get (0, junk) o35 in
   let v37 := fst v36 in
   let v38 := snd v36 in
   let o39 := unwrap_parse (from_str SingleS (bytes "nan123")) in
   let v40 := get junk o39 in
   let o41 := op_mul SingleS v6 v6 in
   let v42 := get (0, junk) o41 in
   let v43 := fst v42 in
   let v44 := snd v42 in
   let o45 := unwrap_parse (from_str SingleS (bytes "nan123")) in
   let v46 := get junk o45 in
   let o47 := op_mul SingleS v6 v8 in
   let v48 := get (0, junk) o47 in
   let v49 := fst v48 in
   let v50 := snd v48 in
   let o51 := unwrap_parse (from_str SingleS (bytes "nan123")) in
   let v52 := get junk o51 in
   let o53 := op_mul SingleS v6 v10 in
   let v54 := get (0, junk) o53 in
   let v55 := fst v54 in
   let v56 := snd v54 in
   let o57 := unwrap_parse (from_str SingleS (bytes "nan123")) in
   let v58 := get junk o57 in
   let o59 := op_mul SingleS v6 v11 in
   let v60 := get (0, junk) o59 in
   let v61 := fst v60 in
   let v62 := snd v60 in
   let o63 := unwrap_parse (from_str SingleS (bytes "nan123")) in
   all_true [
      bitwise_eq v14 v16;
      returns o17;
      INVALID_OP =? v19;
      category_eqb NaN (category v20);
      returns o21;
      bitwise_eq v20 v22;
      returns o23;
      INVALID_OP =? v25;
      category_eqb NaN (category v26);
      returns o27;
      bitwise_eq v26 v28;
      returns o29;
      INVALID_OP =? v31;
      category_eqb NaN (category v32);
      returns o33;
      bitwise_eq v32 v34;
      returns o35;
      INVALID_OP =? v37;
      category_eqb NaN (category v38);
      returns o39;
      bitwise_eq v38 v40;
      returns o41;
      INVALID_OP =? v43;
      category_eqb NaN (category v44);
      returns o45;
      bitwise_eq v44 v46;
      returns o47;
      INVALID_OP =? v49;
      category_eqb NaN (category v50);
      returns o51;
      bitwise_eq v50 v52;
      returns o53;
      INVALID_OP =? v55;
      category_eqb NaN (category v56);
      returns o57;
      bitwise_eq v56 v58;
      returns o59;
      INVALID_OP =? v61;
      category_eqb NaN (category v62);
      returns o63]) = true.
Proof. vm_compute. reflexivity. Qed.

Example test_multiply_11 : (
   let v0 := INFINITY SingleS in
   let v1 := neg (INFINITY SingleS) in
   let v2 := ZERO SingleS in
   let o3 := unwrap_parse (from_str SingleS (bytes "snan123")) in
   let v4 := get junk o3 in
   let o5 := unwrap_parse (from_str SingleS (bytes "0x1p+0")) in
   let v6 := get junk o5 in
   let v7 := largest SingleS in
   let v8 := neg (largest SingleS) in
   let v9 := SMALLEST SingleS in
   let v10 := neg (SMALLEST SingleS) in
   let v11 := smallest_normalized SingleS in
   let v12 := neg (smallest_normalized SingleS) in
   let o13 := op_mul SingleS v4 v7 in
   let v14 := get (0, junk) o13 in
   let v15 := snd v14 in
   let o16 := unwrap_parse (from_str SingleS (bytes "nan123")) in
   let v17 := get junk o16 in
   let o18 := op_mul SingleS v4 v8 in
   let v19 := get (0, junk) o18 in
   let v20 := fst v19 in
   let v21 := snd v19 in
   let o22 := unwrap_parse (from_str SingleS (bytes "nan123")) in
   let v23 := get junk o22 in
   let o24 := op_mul SingleS v4 v9 in
   let v25 := get (0, junk) o24 in
   let v26 := fst v25 in
   let v27 := snd v25 in
   let o28 := unwrap_parse (from_str SingleS (bytes "nan123")) in
   let v29 := get junk o28 in
   let o30 := op_mul SingleS v4 v10 in
   let v31 := get (0, junk) o30 in
   let v32 := fst v31 in
   let v33 := snd v31 in
   let o34 := unwrap_parse (from_str SingleS (bytes "nan123")) in
   let v35 := get junk o34 in
   let o36 := op_mul SingleS v4 v11 in
   let v37 := get (0, junk) o36 in
   let v38 := fst v37 in
   let v39 := snd v37 in
   let o40 := unwrap_parse (from_str SingleS (bytes "nan123")) in
   let v41 := get junk o40 in
   let o42 := op_mul SingleS v4 v12 in
   let v43 := get (0, junk) o42 in
   let v44 := fst v43 in
   let v45 := snd v43 in
   let o46 := unwrap_parse (from_str SingleS (bytes "nan123")) in
   let v47 := get junk o46 in
   let o48 := op_mul SingleS v6 v0 in
   let v49 := get (0, junk) o48 in
   let v50 := fst v49 in
   let v51 := snd v49 in
   let o52 := unwrap_parse (from_str SingleS (bytes "inf")) in
   let v53 := get junk o52 in
   let o54 := op_mul SingleS v6 v1 in
   let v55 := get (0, junk) o54 in
   let v56 := fst v55 in
   let v57 := snd v55 in
   let o58 := unwrap_parse (from_str SingleS (bytes "-inf")) in
   let v59 := get junk o58 in
   let o60 := op_mul SingleS v6 v2 in
   let v61 := get (0, junk) o60 in
   let v62 := fst v61 in
   let v63 := snd v61 in
   let o64 := unwrap_parse (from_str SingleS (bytes "0x0p+0")) in
   all_true [
      bitwise_eq v15 v17;
      returns o18;
      INVALID_OP =? v20;
      category_eqb NaN (category v21);
      returns o22;
      bitwise_eq v21 v23;
      returns o24;
      INVALID_OP =? v26;
      category_eqb NaN (category v27);
      returns o28;
      bitwise_eq v27 v29;
      returns o30;
      INVALID_OP =? v32;
      category_eqb NaN (category v33);
      returns o34;
      bitwise_eq v33 v35;
      returns o36;
      INVALID_OP =? v38;
      category_eqb NaN (category v39);
      returns o40;
      bitwise_eq v39 v41;
      returns o42;
      INVALID_OP =? v44;
      category_eqb NaN (category v45);
      returns o46;
      bitwise_eq v45 v47;
      returns o48;
      OK =? v50;
      category_eqb Infinity (category v51);
      returns o52;
      bitwise_eq v51 v53;
      returns o54;
      OK =? v56;
      category_eqb Infinity (category v57);
      returns o58;
      bitwise_eq v57 v59;
      returns o60;
      OK =? v62;
      category_eqb Zero (category v63);
      returns o64]) = true.
Proof. vm_compute. reflexivity. Qed.

Example test_multiply_12 : (
   let v0 := ZERO SingleS in
   let v1 := neg (ZERO SingleS) in
   let v2 := NAN SingleS in
   let o3 := unwrap_parse (from_str SingleS (bytes "snan123")) in
   let v4 := get junk o3 in
   let o5 := unwrap_parse (from_str SingleS (bytes "0x1p+0")) in
   let v6 := get junk o5 in
   let o7 := unwrap_parse (from_str SingleS (bytes "-0x1p+0")) in
   let v8 := get junk o7 in
   let v9 := largest SingleS in
   let v10 := neg (largest SingleS) in
   let v11 := SMALLEST SingleS in
   let o12 := op_mul SingleS v6 v0 in
   let v13 := get (0, junk) o12 in
   let v14 := snd v13 in
   let o15 := unwrap_parse (from_str SingleS (bytes "0x0p+0")) in
   let v16 := get junk o15 in
   let o17 := op_mul SingleS v6 v1 in
   let v18 := get (0, junk) o17 in
   let v19 := fst v18 in
   let v20 := snd v18 in
   let o21 := unwrap_parse (from_str SingleS (bytes "-0x0p+0")) in
   let v22 := get junk o21 in
   let o23 := op_mul SingleS v6 v2 in
   let v24 := get (0, junk) o23 in
   let v25 := fst v24 in
   let v26 := snd v24 in
   let o27 := unwrap_parse (from_str SingleS (bytes "nan")) in
   let v28 := get junk o27 in
   let o29 := op_mul SingleS v6 v4 in
   let v30 := get (0, junk) o29 in
   let v31 := fst v30 in
   let v32 := snd v30 in
   let o33 := unwrap_parse (from_str SingleS (bytes "nan123")) in
   let v34 := get junk o33 in
   let o35 := op_mul SingleS v6 v6 in
   let v36 := get (0, junk) o35 in
   let v37 := fst v36 in
   let v38 := snd v36 in
   let o39 := unwrap_parse (from_str SingleS (bytes "0x1p+0")) in
   let v40 := get junk o39 in
   let o41 := op_mul SingleS v6 v8 in
   let v42 := get (0, junk) o41 in
   let v43 := fst v42 in
   let v44 := snd v42 in
   let o45 := unwrap_parse (from_str SingleS (bytes "-0x1p+0")) in
   let v46 := get junk o45 in
   let o47 := op_mul SingleS v6 v9 in
   let v48 := get (0, junk) o47 in
   let v49 := fst v48 in
   let v50 := snd v48 in
   let o51 := unwrap_parse (from_str SingleS (bytes "0x1.fffffep+127")) in
   let v52 := get junk o51 in
   let o53 := op_mul SingleS v6 v10 in
   let v54 := get (0, junk) o53 in
   let v55 := fst v54 in
   let v56 := snd v54 in
   let o57 := unwrap_parse (from_str SingleS (bytes "-0x1.fffffep+127")) in
   let v58 := get junk o57 in
   let o59 := op_mul SingleS v6 v11 in
   let v60 := get (0, junk) o59 in
   let v61 := fst v60 in
   let v62 := snd v60 in
   let o63 := unwrap_parse (from_str SingleS (bytes "0x1p-149")) in
   all_true [
      bitwise_eq v14 v16;
      returns o17;
      OK =? v19;
      category_eqb Zero (category v20);
      returns o21;
      bitwise_eq v20 v22;
      returns o23;
      OK =? v25;
      category_eqb NaN (category v26);
      returns o27;
      bitwise_eq v26 v28;
      returns o29;
      INVALID_OP =? v31;
      category_eqb NaN (category v32);
      returns o33;
      bitwise_eq v32 v34;
      returns o35;
      OK =? v37;
      category_eqb Normal (category v38);
      returns o39;
      bitwise_eq v38 v40;
      returns o41;
      OK =? v43;
      category_eqb Normal (category v44);
      returns o45;
      bitwise_eq v44 v46;
      returns o47;
      OK =? v49;
      category_eqb Normal (category v50);
      returns o51;
      bitwise_eq v50 v52;
      returns o53;
      OK =? v55;
      category_eqb Normal (category v56);
      returns o57;
      bitwise_eq v56 v58;
      returns o59;
      OK =? v61;
      category_eqb Normal (category v62);
      returns o63]) = true.
Proof. vm_compute. reflexivity. Qed.

Example test_multiply_13 : (
   let v0 := INFINITY SingleS in
   let v1 := neg (INFINITY SingleS) in
   let v2 := ZERO SingleS in
   let v3 := neg (ZERO SingleS) in
   let v4 := NAN SingleS in
   let o5 := unwrap_parse (from_str SingleS (bytes "0x1p+0")) in
   let v6 := get junk o5 in
   let o7 := unwrap_parse (from_str SingleS (bytes "-0x1p+0")) in
   let v8 := get junk o7 in
   let v9 := SMALLEST SingleS in
   let v10 := neg (SMALLEST SingleS) in
   let v11 := smallest_normalized SingleS in
   let v12 := neg (smallest_normalized SingleS) in
   let o13 := op_mul SingleS v6 v9 in
   let v14 := get (0, junk) o13 in
   let v15 := snd v14 in
   let o16 := unwrap_parse (from_str SingleS (bytes "0x1p-149")) in
   let v17 := get junk o16 in
   let o18 := op_mul SingleS v6 v10 in
   let v19 := get (0, junk) o18 in
   let v20 := fst v19 in
   let v21 := snd v19 in
   let o22 := unwrap_parse (from_str SingleS (bytes "-0x1p-149")) in
   let v23 := get junk o22 in
   let o24 := op_mul SingleS v6 v11 in
   let v25 := get (0, junk) o24 in
   let v26 := fst v25 in
   let v27 := snd v25 in
   let o28 := unwrap_parse (from_str SingleS (bytes "0x1p-126")) in
   let v29 := get junk o28 in
   let o30 := op_mul SingleS v6 v12 in
   let v31 := get (0, junk) o30 in
   let v32 := fst v31 in
   let v33 := snd v31 in
   let o34 := unwrap_parse (from_str SingleS (bytes "-0x1p-126")) in
   let v35 := get junk o34 in
   let o36 := op_mul SingleS v8 v0 in
   let v37 := get (0, junk) o36 in
   let v38 := fst v37 in
   let v39 := snd v37 in
   let o40 := unwrap_parse (from_str SingleS (bytes "-inf")) in
   let v41 := get junk o40 in
   let o42 := op_mul SingleS v8 v1 in
   let v43 := get (0, junk) o42 in
   let v44 := fst v43 in
   let v45 := snd v43 in
   let o46 := unwrap_parse (from_str SingleS (bytes "inf")) in
   let v47 := get junk o46 in
   let o48 := op_mul SingleS v8 v2 in
   let v49 := get (0, junk) o48 in
   let v50 := fst v49 in
   let v51 := snd v49 in
   let o52 := unwrap_parse (from_str SingleS (bytes "-0x0p+0")) in
   let v53 := get junk o52 in
   let o54 := op_mul SingleS v8 v3 in
   let v55 := get (0, junk) o54 in
   let v56 := fst v55 in
   let v57 := snd v55 in
   let o58 := unwrap_parse (from_str SingleS (bytes "0x0p+0")) in
   let v59 := get junk o58 in
   let o60 := op_mul SingleS v8 v4 in
   let v61 := get (0, junk) o60 in
   let v62 := fst v61 in
   let v63 := snd v61 in
   let o64 := unwrap_parse (from_str SingleS (bytes "nan")) in
   all_true [
      bitwise_eq v15 v17;
      returns o18;
      OK =? v20;
      category_eqb Normal (category v21);
      returns o22;
      bitwise_eq v21 v23;
      returns o24;
      OK =? v26;
      category_eqb Normal (category v27);
      returns o28;
      bitwise_eq v27 v29;
      returns o30;
      OK =? v32;
      category_eqb Normal (category v33);
      returns o34;
      bitwise_eq v33 v35;
      returns o36;
      OK =? v38;
      category_eqb Infinity (category v39);
      returns o40;
      bitwise_eq v39 v41;
      returns o42;
      OK =? v44;
      category_eqb Infinity (category v45);
      returns o46;
      bitwise_eq v45 v47;
      returns o48;
      OK =? v50;
      category_eqb Zero (category v51);
      returns o52;
      bitwise_eq v51 v53;
      returns o54;
      OK =? v56;
      category_eqb Zero (category v57);
      returns o58;
      bitwise_eq v57 v59;
      returns o60;
      OK =? v62;
      category_eqb NaN (category v63);
      returns o64]) = true.
Proof. vm_compute. reflexivity. Qed.

Example test_multiply_14 : (
   let v0 := NAN SingleS in
   let o1 := unwrap_parse (from_str SingleS (bytes "snan123")) in
   let v2 := get junk o1 in
   let o3 := unwrap_parse (from_str SingleS (bytes "0x1p+0")) in
   let v4 := get junk o3 in
   let o5 := unwrap_parse (from_str SingleS (bytes "-0x1p+0")) in
   let v6 := get junk o5 in
   let v7 := largest SingleS in
   let v8 := neg (largest SingleS) in
   let v9 := SMALLEST SingleS in
   let v10 := neg (SMALLEST SingleS) in
   let v11 := smallest_normalized SingleS in
   let o12 := op_mul SingleS v6 v0 in
   let v13 := get (0, junk) o12 in
   let v14 := snd v13 in
   let o15 := unwrap_parse (from_str SingleS (bytes "nan")) in
   let v16 := get junk o15 in
   let o17 := op_mul SingleS v6 v2 in
   let v18 := get (0, junk) o17 in
   let v19 := fst v18 in
   let v20 := snd v18 in
   let o21 := unwrap_parse (from_str SingleS (bytes "nan123")) in
   let v22 := get junk o21 in
   let o23 := op_mul SingleS v6 v4 in
   let v24 := get (0, junk) o23 in
   let v25 := fst v24 in
   let v26 := snd v24 in
   let o27 := unwrap_parse (from_str SingleS (bytes "-0x1p+0")) in
   let v28 := get junk o27 in
   let o29 := op_mul SingleS v6 v6 in
   let v30 := get (0, junk) o29 in
   let v31 := fst v30 in
   let v32 := snd v30 in
   let o33 := unwrap_parse (from_str SingleS (bytes "0x1p+0")) in
   let v34 := get junk o33 in
   let o35 := op_mul SingleS v6 v7 in
   let v36 := get (0, junk) o35 in
   let v37 := fst v36 in
   let v38 := snd v36 in
   let o39 := unwrap_parse (from_str SingleS (bytes "-0x1.fffffep+127")) in
   let v40 := get junk o39 in
   let o41 := op_mul SingleS v6 v8 in
   let v42 := get (0, junk) o41 in
   let v43 := fst v42 in
   let v44 := snd v42 in
   let o45 := unwrap_parse (from_str SingleS (bytes "0x1.fffffep+127")) in
   let v46 := get junk o45 in
   let o47 := op_mul SingleS v6 v9 in
   let v48 := get (0, junk) o47 in
   let v49 := fst v48 in
   let v50 := snd v48 in
   let o51 := unwrap_parse (from_str SingleS (bytes "-0x1p-149")) in
   let v52 := get junk o51 in
   let o53 := op_mul SingleS v6 v10 in
   let v54 := get (0, junk) o53 in
   let v55 := fst v54 in
   let v56 := snd v54 in
   let o57 := unwrap_parse (from_str SingleS (bytes "0x1p-149")) in
   let v58 := get junk o57 in
   let o59 := op_mul SingleS v6 v11 in
   let v60 := get (0, junk) o59 in
   let v61 := fst v60 in
   let v62 := snd v60 in
   let o63 := unwrap_parse (from_str SingleS (bytes "-0x1p-126")) in
   all_true [
      bitwise_eq v14 v16;
      returns o17;
      INVALID_OP =? v19;
      category_eqb NaN (category v20);
      returns o21;
      bitwise_eq v20 v22;
      returns o23;
      OK =? v25;
      category_eqb Normal (category v26);
      returns o27;
      bitwise_eq v26 v28;
      returns o29;
      OK =? v31;
      category_eqb Normal (category v32);
      returns o33;
      bitwise_eq v32 v34;
      returns o35;
      OK =? v37;
      category_eqb Normal (category v38);
      returns o39;
      bitwise_eq v38 v40;
      returns o41;
      OK =? v43;
      category_eqb Normal (category v44);
      returns o45;
      bitwise_eq v44 v46;
      returns o47;
      OK =? v49;
      category_eqb Normal (category v50);
      returns o51;
      bitwise_eq v50 v52;
      returns o53;
      OK =? v55;
      category_eqb Normal (category v56);
      returns o57;
      bitwise_eq v56 v58;
      returns o59;
      OK =? v61;
      category_eqb Normal (category v62);
      returns o63]) = true.
Proof. vm_compute. reflexivity. Qed.

Example test_multiply_15 : (
   let v0 := INFINITY SingleS in
   let v1 := neg (INFINITY SingleS) in
   let v2 := ZERO SingleS in
   let v3 := neg (ZERO SingleS) in
   let v4 := NAN SingleS in
   let o5 := unwrap_parse (from_str SingleS (bytes "snan123")) in
   let v6 := get junk o5 in
   let o7 := unwrap_parse (from_str SingleS (bytes "0x1p+0")) in
   let v8 := get junk o7 in
   let o9 := unwrap_parse (from_str SingleS (bytes "-0x1p+0")) in
   let v10 := get junk o9 in
   let v11 := largest SingleS in
   let v12 := smallest_normalized SingleS in
   let v13 := neg (smallest_normalized SingleS) in
   let o14 := op_mul SingleS v10 v12 in
   let v15 := get (0, junk) o14 in
   let v16 := snd v15 in
   let o17 := unwrap_parse (from_str SingleS (bytes "-0x1p-126")) in
   let v18 := get junk o17 in
   let o19 := op_mul SingleS v10 v13 in
   let v20 := get (0, junk) o19 in
   let v21 := fst v20 in
   let v22 := snd v20 in
   let o23 := unwrap_parse (from_str SingleS (bytes "0x1p-126")) in
   let v24 := get junk o23 in
   let o25 := op_mul SingleS v11 v0 in
   let v26 := get (0, junk) o25 in
   let v27 := fst v26 in
   let v28 := snd v26 in
   let o29 := unwrap_parse (from_str SingleS (bytes "inf")) in
   let v30 := get junk o29 in
   let o31 := op_mul SingleS v11 v1 in
   let v32 := get (0, junk) o31 in
   let v33 := fst v32 in
   let v34 := snd v32 in
   let o35 := unwrap_parse (from_str SingleS (bytes "-inf")) in
   let v36 := get junk o35 in
   let o37 := op_mul SingleS v11 v2 in
   let v38 := get (0, junk) o37 in
   let v39 := fst v38 in
   let v40 := snd v38 in
   let o41 := unwrap_parse (from_str SingleS (bytes "0x0p+0")) in
   let v42 := get junk o41 in
   let o43 := op_mul SingleS v11 v3 in
   let v44 := get (0, junk) o43 in
   let v45 := fst v44 in
   let v46 := snd v44 in
   let o47 := unwrap_parse (from_str SingleS (bytes "-0x0p+0")) in
   let v48 := get junk o47 in
   let o49 := op_mul SingleS v11 v4 in
   let v50 := get (0, junk) o49 in
   let v51 := fst v50 in
   let v52 := snd v50 in
   let o53 := unwrap_parse (from_str SingleS (bytes "nan")) in
   let v54 := get junk o53 in
   let o55 := op_mul SingleS v11 v6 in
   let v56 := get (0, junk) o55 in
   let v57 := fst v56 in
   let v58 := snd v56 in
   let o59 := unwrap_parse (from_str SingleS (bytes "nan123")) in
   let v60 := get junk o59 in
   let o61 := op_mul SingleS v11 v8 in
   let v62 := get (0, junk) o61 in
   let v63 := fst v62 in
   let v64 := snd v62 in
   let o65 := unwrap_parse (from_str SingleS (bytes "0x1.fffffep+127")) in
   all_true [
      bitwise_eq v16 v18;
      returns o19;
      OK =? v21;
      category_eqb Normal (category v22);
      returns o23;
      bitwise_eq v22 v24;
      returns o25;
      OK =? v27;
      category_eqb Infinity (category v28);
      returns o29;
      bitwise_eq v28 v30;
      returns o31;
      OK =? v33;
      category_eqb Infinity (category v34);
      returns o35;
      bitwise_eq v34 v36;
      returns o37;
      OK =? v39;
      category_eqb Zero (category v40);
      returns o41;
      bitwise_eq v40 v42;
      returns o43;
      OK =? v45;
      category_eqb Zero (category v46);
      returns o47;
      bitwise_eq v46 v48;
      returns o49;
      OK =? v51;
      category_eqb NaN (category v52);
      returns o53;
      bitwise_eq v52 v54;
      returns o55;
      INVALID_OP =? v57;
      category_eqb NaN (category v58);
      returns o59;
      bitwise_eq v58 v60;
      returns o61;
      OK =? v63;
      category_eqb Normal (category v64);
      returns o65]) = true.
Proof. vm_compute. reflexivity. Qed.

Example test_multiply_16 : (
   let v0 := INFINITY SingleS in
   let o1 := unwrap_parse (from_str SingleS (bytes "0x1p+0")) in
   let v2 := get junk o1 in
   let o3 := unwrap_parse (from_str SingleS (bytes "-0x1p+0")) in
   let v4 := get junk o3 in
   let v5 := largest SingleS in
   let v6 := neg (largest SingleS) in
   let v7 := SMALLEST SingleS in
   let v8 := neg (SMALLEST SingleS) in
   let v9 := smallest_normalized SingleS in
   let v10 := neg (smallest_normalized SingleS) in
   let v11 := Z.lor OVERFLOW INEXACT in
   let o12 := op_mul SingleS v5 v2 in
   let v13 := get (0, junk) o12 in
   let v14 := snd v13 in
   let o15 := unwrap_parse (from_str SingleS (bytes "0x1.fffffep+127")) in
   let v16 := get junk o15 in
   let o17 := op_mul SingleS v5 v4 in
   let v18 := get (0, junk) o17 in
   let v19 := fst v18 in
   let v20 := snd v18 in
   let o21 := unwrap_parse (from_str SingleS (bytes "-0x1.fffffep+127")) in
   let v22 := get junk o21 in
   let o23 := op_mul SingleS v5 v5 in
   let v24 := get (0, junk) o23 in
   let v25 := fst v24 in
   let v26 := snd v24 in
   let o27 := unwrap_parse (from_str SingleS (bytes "inf")) in
   let v28 := get junk o27 in
   let o29 := op_mul SingleS v5 v6 in
   let v30 := get (0, junk) o29 in
   let v31 := fst v30 in
   let v32 := snd v30 in
   let o33 := unwrap_parse (from_str SingleS (bytes "-inf")) in
   let v34 := get junk o33 in
   let o35 := op_mul SingleS v5 v7 in
   let v36 := get (0, junk) o35 in
   let v37 := fst v36 in
   let v38 := snd v36 in
   let o39 := unwrap_parse (from_str SingleS (bytes "0x1.fffffep-22")) in
   let v40 := get junk o39 in
   let o41 := op_mul SingleS v5 v8 in
   let v42 := get (0, junk) o41 in
   let v43 := fst v42 in
   let v44 := snd v42 in
   let o45 := unwrap_parse (from_str SingleS (bytes "-0x1.fffffep-22")) in
   let v46 := get junk o45 in
   let o47 := op_mul SingleS v5 v9 in
   let v48 := get (0, junk) o47 in
   let v49 := fst v48 in
   let v50 := snd v48 in
   let o51 := unwrap_parse (from_str SingleS (bytes "0x1.fffffep+1")) in
   let v52 := get junk o51 in
   let o53 := op_mul SingleS v5 v10 in
   let v54 := get (0, junk) o53 in
   let v55 := fst v54 in
   let v56 := snd v54 in
   let o57 := unwrap_parse (from_str SingleS (bytes "-0x1.fffffep+1")) in
   let v58 := get junk o57 in
   let o59 := op_mul SingleS v6 v0 in
   let v60 := get (0, junk) o59 in
   let v61 := fst v60 in
   let v62 := snd v60 in
   let o63 := unwrap_parse (from_str SingleS (bytes "-inf")) in
   all_true [
      bitwise_eq v14 v16;
      returns o17;
      OK =? v19;
      category_eqb Normal (category v20);
      returns o21;
      bitwise_eq v20 v22;
      returns o23;
      v11 =? v25;
      category_eqb Infinity (category v26);
      returns o27;
      bitwise_eq v26 v28;
      returns o29;
      v11 =? v31;
      category_eqb Infinity (category v32);
      returns o33;
      bitwise_eq v32 v34;
      returns o35;
      OK =? v37;
      category_eqb Normal (category v38);
      returns o39;
      bitwise_eq v38 v40;
      returns o41;
      OK =? v43;
      category_eqb Normal (category v44);
      returns o45;
      bitwise_eq v44 v46;
      returns o47;
      OK =? v49;
      category_eqb Normal (category v50);
      returns o51;
      bitwise_eq v50 v52;
      returns o53;
      OK =? v55;
      category_eqb Normal (category v56);
      returns o57;
      bitwise_eq v56 v58;
      returns o59;
      OK =? v61;
      category_eqb Infinity (category v62);
      returns o63]) = true.
Proof. vm_compute. reflexivity. Qed.

Example test_multiply_17 : (
   let v0 := INFINITY SingleS in
   let v1 := neg (INFINITY SingleS) in
   let v2 := ZERO SingleS in
   let v3 := neg (ZERO SingleS) in
   let v4 := NAN SingleS in
   let o5 := unwrap_parse (from_str SingleS (bytes "snan123")) in
   let v6 := get junk o5 in
   let o7 := unwrap_parse (from_str SingleS (bytes "0x1p+0")) in
   let v8 := get junk o7 in
   let o9 := unwrap_parse (from_str SingleS (bytes "-0x1p+0")) in
   let v10 := get junk o9 in
   let v11 := largest SingleS in
   let v12 := neg (largest SingleS) in
   let v13 := Z.lor OVERFLOW INEXACT in
   let o14 := op_mul SingleS v12 v0 in
   let v15 := get (0, junk) o14 in
   let v16 := snd v15 in
   let o17 := unwrap_parse (from_str SingleS (bytes "-inf")) in
   let v18 := get junk o17 in
   let o19 := op_mul SingleS v12 v1 in
   let v20 := get (0, junk) o19 in
   let v21 := fst v20 in
   let v22 := snd v20 in
   let o23 := unwrap_parse (from_str SingleS (bytes "inf")) in
   let v24 := get junk o23 in
   let o25 := op_mul SingleS v12 v2 in
   let v26 := get (0, junk) o25 in
   let v27 := fst v26 in
   let v28 := snd v26 in
   let o29 := unwrap_parse (from_str SingleS (bytes "-0x0p+0")) in
   let v30 := get junk o29 in
   let o31 := op_mul SingleS v12 v3 in
   let v32 := get (0, junk) o31 in
   let v33 := fst v32 in
   let v34 := snd v32 in
   let o35 := unwrap_parse (from_str SingleS (bytes "0x0p+0")) in
   let v36 := get junk o35 in
   let o37 := op_mul SingleS v12 v4 in
   let v38 := get (0, junk) o37 in
   let v39 := fst v38 in
   let v40 := snd v38 in
   let o41 := unwrap_parse (from_str SingleS (bytes "nan")) in
   let v42 := get junk o41 in
   let o43 := op_mul SingleS v12 v6 in
   let v44 := get (0, junk) o43 in
   let v45 := fst v44 in
   let v46 := snd v44 in
   let o47 := unwrap_parse (from_str SingleS (bytes "nan123")) in
   let v48 := get junk o47 in
   let o49 := op_mul SingleS v12 v8 in
   let v50 := get (0, junk) o49 in
   let v51 := fst v50 in
   let v52 := snd v50 in
   let o53 := unwrap_parse (from_str SingleS (bytes "-0x1.fffffep+127")) in
   let v54 := get junk o53 in
   let o55 := op_mul SingleS v12 v10 in
   let v56 := get (0, junk) o55 in
   let v57 := fst v56 in
   let v58 := snd v56 in
   let o59 := unwrap_parse (from_str SingleS (bytes "0x1.fffffep+127")) in
   let v60 := get junk o59 in
   let o61 := op_mul SingleS v12 v11 in
   let v62 := get (0, junk) o61 in
   let v63 := fst v62 in
   let v64 := snd v62 in
   let o65 := unwrap_parse (from_str SingleS (bytes "-inf")) in
   all_true [
      bitwise_eq v16 v18;
      returns o19;
      OK =? v21;
      category_eqb Infinity (category v22);
      returns o23;
      bitwise_eq v22 v24;
      returns o25;
      OK =? v27;
      category_eqb Zero (category v28);
      returns o29;
      bitwise_eq v28 v30;
      returns o31;
      OK =? v33;
      category_eqb Zero (category v34);
      returns o35;
      bitwise_eq v34 v36;
      returns o37;
      OK =? v39;
      category_eqb NaN (category v40);
      returns o41;
      bitwise_eq v40 v42;
      returns o43;
      INVALID_OP =? v45;
      category_eqb NaN (category v46);
      returns o47;
      bitwise_eq v46 v48;
      returns o49;
      OK =? v51;
      category_eqb Normal (category v52);
      returns o53;
      bitwise_eq v52 v54;
      returns o55;
      OK =? v57;
      category_eqb Normal (category v58);
      returns o59;
      bitwise_eq v58 v60;
      returns o61;
      v13 =? v63;
      category_eqb Infinity (category v64);
      returns o65]) = true.
Proof. vm_compute. reflexivity. Qed.

Example test_multiply_18 : (
   let v0 := INFINITY SingleS in
   let v1 := neg (INFINITY SingleS) in
   let v2 := ZERO SingleS in
   let v3 := largest SingleS in
   let v4 := neg (largest SingleS) in
   let v5 := SMALLEST SingleS in
   let v6 := neg (SMALLEST SingleS) in
   let v7 := smallest_normalized SingleS in
   let v8 := neg (smallest_normalized SingleS) in
   let v9 := Z.lor OVERFLOW INEXACT in
   let o10 := op_mul SingleS v4 v3 in
   let v11 := get (0, junk) o10 in
   let v12 := snd v11 in
   let o13 := unwrap_parse (from_str SingleS (bytes "-inf")) in
   let v14 := get junk o13 in
   let o15 := op_mul SingleS v4 v4 in
   let v16 := get (0, junk) o15 in
   let v17 := fst v16 in
   let v18 := snd v16 in
   let o19 := unwrap_parse (from_str SingleS (bytes "inf")) in
   let v20 := get junk o19 in
   let o21 := op_mul SingleS v4 v5 in
   let v22 := get (0, junk) o21 in
   let v23 := fst v22 in
   let v24 := snd v22 in
   let o25 := unwrap_parse (from_str SingleS (bytes "-0x1.fffffep-22")) in
   let v26 := get junk o25 in
   let o27 := op_mul SingleS v4 v6 in
   let v28 := get (0, junk) o27 in
   let v29 := fst v28 in
   let v30 := snd v28 in
   let o31 := unwrap_parse (from_str SingleS (bytes "0x1.fffffep-22")) in
   let v32 := get junk o31 in
   let o33 := op_mul SingleS v4 v7 in
   let v34 := get (0, junk) o33 in
   let v35 := fst v34 in
   let v36 := snd v34 in
   let o37 := unwrap_parse (from_str SingleS (bytes "-0x1.fffffep+1")) in
   let v38 := get junk o37 in
   let o39 := op_mul SingleS v4 v8 in
   let v40 := get (0, junk) o39 in
   let v41 := fst v40 in
   let v42 := snd v40 in
   let o43 := unwrap_parse (from_str SingleS (bytes "0x1.fffffep+1")) in
   let v44 := get junk o43 in
   let o45 := op_mul SingleS v5 v0 in
   let v46 := get (0, junk) o45 in
   let v47 := fst v46 in
   let v48 := snd v46 in
   let o49 := unwrap_parse (from_str SingleS (bytes "inf")) in
   let v50 := get junk o49 in
   let o51 := op_mul SingleS v5 v1 in
   let v52 := get (0, junk) o51 in
   let v53 := fst v52 in
   let v54 := snd v52 in
   let o55 := unwrap_parse (from_str SingleS (bytes "-inf")) in
   let v56 := get junk o55 in
   let o57 := op_mul SingleS v5 v2 in
   let v58 := get (0, junk) o57 in
   let v59 := fst v58 in
   let v60 := snd v58 in
   let o61 := unwrap_parse (from_str SingleS (bytes "0x0p+0")) in
   all_true [
      bitwise_eq v12 v14;
      returns o15;
      v9 =? v17;
      category_eqb Infinity (category v18);
      returns o19;
      bitwise_eq v18 v20;
      returns o21;
      OK =? v23;
      category_eqb Normal (category v24);
      returns o25;
      bitwise_eq v24 v26;
      returns o27;
      OK =? v29;
      category_eqb Normal (category v30);
      returns o31;
      bitwise_eq v30 v32;
      returns o33;
      OK =? v35;
      category_eqb Normal (category v36);
      returns o37;
      bitwise_eq v36 v38;
      returns o39;
      OK =? v41;
      category_eqb Normal (category v42);
      returns o43;
      bitwise_eq v42 v44;
      returns o45;
      OK =? v47;
      category_eqb Infinity (category v48);
      returns o49;
      bitwise_eq v48 v50;
      returns o51;
      OK =? v53;
      category_eqb Infinity (category v54);
      returns o55;
      bitwise_eq v54 v56;
      returns o57;
      OK =? v59;
      category_eqb Zero (category v60);
      returns o61]) = true.
Proof. vm_compute. reflexivity. Qed.

Example test_multiply_19 : (
   let v0 := ZERO SingleS in
   let v1 := neg (ZERO SingleS) in
   let v2 := NAN SingleS in
   let o3 := unwrap_parse (from_str SingleS (bytes "snan123")) in
   let v4 := get junk o3 in
   let o5 := unwrap_parse (from_str SingleS (bytes "0x1p+0")) in
   let v6 := get junk o5 in
   let o7 := unwrap_parse (from_str SingleS (bytes "-0x1p+0")) in
   let v8 := get junk o7 in
   let v9 := largest SingleS in
   let v10 := neg (largest SingleS) in
   let v11 := SMALLEST SingleS in
   let v12 := Z.lor UNDERFLOW INEXACT in
   let o13 := op_mul SingleS v11 v0 in
   let v14 := get (0, junk) o13 in
   let v15 := snd v14 in
   let o16 := unwrap_parse (from_str SingleS (bytes "0x0p+0")) in
   let v17 := get junk o16 in
   let o18 := op_mul SingleS v11 v1 in
   let v19 := get (0, junk) o18 in
   let v20 := fst v19 in
   let v21 := snd v19 in
   let o22 := unwrap_parse (from_str SingleS (bytes "-0x0p+0")) in
   let v23 := get junk o22 in
   let o24 := op_mul SingleS v11 v2 in
   let v25 := get (0, junk) o24 in
   let v26 := fst v25 in
   let v27 := snd v25 in
   let o28 := unwrap_parse (from_str SingleS (bytes "nan")) in
   let v29 := get junk o28 in
   let o30 := op_mul SingleS v11 v4 in
   let v31 := get (0, junk) o30 in
   let v32 := fst v31 in
   let v33 := snd v31 in
   let o34 := unwrap_parse (from_str SingleS (bytes "nan123")) in
   let v35 := get junk o34 in
   let o36 := op_mul SingleS v11 v6 in
   let v37 := get (0, junk) o36 in
   let v38 := fst v37 in
   let v39 := snd v37 in
   let o40 := unwrap_parse (from_str SingleS (bytes "0x1p-149")) in
   let v41 := get junk o40 in
   let o42 := op_mul SingleS v11 v8 in
   let v43 := get (0, junk) o42 in
   let v44 := fst v43 in
   let v45 := snd v43 in
   let o46 := unwrap_parse (from_str SingleS (bytes "-0x1p-149")) in
   let v47 := get junk o46 in
   let o48 := op_mul SingleS v11 v9 in
   let v49 := get (0, junk) o48 in
   let v50 := fst v49 in
   let v51 := snd v49 in
   let o52 := unwrap_parse (from_str SingleS (bytes "0x1.fffffep-22")) in
   let v53 := get junk o52 in
   let o54 := op_mul SingleS v11 v10 in
   let v55 := get (0, junk) o54 in
   let v56 := fst v55 in
   let v57 := snd v55 in
   let o58 := unwrap_parse (from_str SingleS (bytes "-0x1.fffffep-22")) in
   let v59 := get junk o58 in
   let o60 := op_mul SingleS v11 v11 in
   let v61 := get (0, junk) o60 in
   let v62 := fst v61 in
   let v63 := snd v61 in
   let o64 := unwrap_parse (from_str SingleS (bytes "0x0p+0")) in
   all_true [
      bitwise_eq v15 v17;
      returns o18;
      OK =? v20;
      category_eqb Zero (category v21);
      returns o22;
      bitwise_eq v21 v23;
      returns o24;
      OK =? v26;
      category_eqb NaN (category v27);
      returns o28;
      bitwise_eq v27 v29;
      returns o30;
      INVALID_OP =? v32;
      category_eqb NaN (category v33);
      returns o34;
      bitwise_eq v33 v35;
      returns o36;
      OK =? v38;
      category_eqb Normal (category v39);
      returns o40;
      bitwise_eq v39 v41;
      returns o42;
      OK =? v44;
      category_eqb Normal (category v45);
      returns o46;
      bitwise_eq v45 v47;
      returns o48;
      OK =? v50;
      category_eqb Normal (category v51);
      returns o52;
      bitwise_eq v51 v53;
      returns o54;
      OK =? v56;
      category_eqb Normal (category v57);
      returns o58;
      bitwise_eq v57 v59;
      returns o60;
      v12 =? v62;
      category_eqb Zero (category v63);
      returns o64]) = true.
Proof. vm_compute. reflexivity. Qed.

Example test_multiply_20 : (
   let v0 := INFINITY SingleS in
   let v1 := neg (INFINITY SingleS) in
   let v2 := ZERO SingleS in
   let v3 := neg (ZERO SingleS) in
   let v4 := NAN SingleS in
   let v5 := SMALLEST SingleS in
   let v6 := neg (SMALLEST SingleS) in
   let v7 := smallest_normalized SingleS in
   let v8 := neg (smallest_normalized SingleS) in
   let v9 := Z.lor UNDERFLOW INEXACT in
   let o10 := op_mul SingleS v5 v5 in
   let v11 := get (0, junk) o10 in
   let v12 := snd v11 in
   let o13 := unwrap_parse (from_str SingleS (bytes "0x0p+0")) in
   let v14 := get junk o13 in
   let o15 := op_mul SingleS v5 v6 in
   let v16 := get (0, junk) o15 in
   let v17 := fst v16 in
   let v18 := snd v16 in
   let o19 := unwrap_parse (from_str SingleS (bytes "-0x0p+0")) in
   let v20 := get junk o19 in
   let o21 := op_mul SingleS v5 v7 in
   let v22 := get (0, junk) o21 in
   let v23 := fst v22 in
   let v24 := snd v22 in
   let o25 := unwrap_parse (from_str SingleS (bytes "0x0p+0")) in
   let v26 := get junk o25 in
   let o27 := op_mul SingleS v5 v8 in
   let v28 := get (0, junk) o27 in
   let v29 := fst v28 in
   let v30 := snd v28 in
   let o31 := unwrap_parse (from_str SingleS (bytes "-0x0p+0")) in
   let v32 := get junk o31 in
   let o33 := op_mul SingleS v6 v0 in
   let v34 := get (0, junk) o33 in
   let v35 := fst v34 in
   let v36 := snd v34 in
   let o37 := unwrap_parse (from_str SingleS (bytes "-inf")) in
   let v38 := get junk o37 in
   let o39 := op_mul SingleS v6 v1 in
   let v40 := get (0, junk) o39 in
   let v41 := fst v40 in
   let v42 := snd v40 in
   let o43 := unwrap_parse (from_str SingleS (bytes "inf")) in
   let v44 := get junk o43 in
   let o45 := op_mul SingleS v6 v2 in
   let v46 := get (0, junk) o45 in
   let v47 := fst v46 in
   let v48 := snd v46 in
   let o49 := unwrap_parse (from_str SingleS (bytes "-0x0p+0")) in
   let v50 := get junk o49 in
   let o51 := op_mul SingleS v6 v3 in
   let v52 := get (0, junk) o51 in
   let v53 := fst v52 in
   let v54 := snd v52 in
   let o55 := unwrap_parse (from_str SingleS (bytes "0x0p+0")) in
   let v56 := get junk o55 in
   let o57 := op_mul SingleS v6 v4 in
   let v58 := get (0, junk) o57 in
   let v59 := fst v58 in
   let v60 := snd v58 in
   let o61 := unwrap_parse (from_str SingleS (bytes "nan")) in
   all_true [
      bitwise_eq v12 v14;
      returns o15;
      v9 =? v17;
      category_eqb Zero (category v18);
      returns o19;
      bitwise_eq v18 v20;
      returns o21;
      v9 =? v23;
      category_eqb Zero (category v24);
      returns o25;
      bitwise_eq v24 v26;
      returns o27;
      v9 =? v29;
      category_eqb Zero (category v30);
      returns o31;
      bitwise_eq v30 v32;
      returns o33;
      OK =? v35;
      category_eqb Infinity (category v36);
      returns o37;
      bitwise_eq v36 v38;
      returns o39;
      OK =? v41;
      category_eqb Infinity (category v42);
      returns o43;
      bitwise_eq v42 v44;
      returns o45;
      OK =? v47;
      category_eqb Zero (category v48);
      returns o49;
      bitwise_eq v48 v50;
      returns o51;
      OK =? v53;
      category_eqb Zero (category v54);
      returns o55;
      bitwise_eq v54 v56;
      returns o57;
      OK =? v59;
      category_eqb NaN (category v60);
      returns o61]) = true.
Proof. vm_compute. reflexivity. Qed.

Example test_multiply_21 : (
   let v0 := NAN SingleS in
   let o1 := unwrap_parse (from_str SingleS (bytes "snan123")) in
   let v2 := get junk o1 in
   let o3 := unwrap_parse (from_str SingleS (bytes "0x1p+0")) in
   let v4 := get junk o3 in
   let o5 := unwrap_parse (from_str SingleS (bytes "-0x1p+0")) in
   let v6 := get junk o5 in
   let v7 := largest SingleS in
   let v8 := neg (largest SingleS) in
   let v9 := SMALLEST SingleS in
   let v10 := neg (SMALLEST SingleS) in
   let v11 := smallest_normalized SingleS in
   let v12 := Z.lor UNDERFLOW INEXACT in
   let o13 := op_mul SingleS v10 v0 in
   let v14 := get (0, junk) o13 in
   let v15 := snd v14 in
   let o16 := unwrap_parse (from_str SingleS (bytes "nan")) in
   let v17 := get junk o16 in
   let o18 := op_mul SingleS v10 v2 in
   let v19 := get (0, junk) o18 in
   let v20 := fst v19 in
   let v21 := snd v19 in
   let o22 := unwrap_parse (from_str SingleS (bytes "nan123")) in
   let v23 := get junk o22 in
   let o24 := op_mul SingleS v10 v4 in
   let v25 := get (0, junk) o24 in
   let v26 := fst v25 in
   let v27 := snd v25 in
   let o28 := unwrap_parse (from_str SingleS (bytes "-0x1p-149")) in
   let v29 := get junk o28 in
   let o30 := op_mul SingleS v10 v6 in
   let v31 := get (0, junk) o30 in
   let v32 := fst v31 in
   let v33 := snd v31 in
   let o34 := unwrap_parse (from_str SingleS (bytes "0x1p-149")) in
   let v35 := get junk o34 in
   let o36 := op_mul SingleS v10 v7 in
   let v37 := get (0, junk) o36 in
   let v38 := fst v37 in
   let v39 := snd v37 in
   let o40 := unwrap_parse (from_str SingleS (bytes "-0x1.fffffep-22")) in
   let v41 := get junk o40 in
   let o42 := op_mul SingleS v10 v8 in
   let v43 := get (0, junk) o42 in
   let v44 := fst v43 in
   let v45 := snd v43 in
   let o46 := unwrap_parse (from_str SingleS (bytes "0x1.fffffep-22")) in
   let v47 := get junk o46 in
   let o48 := op_mul SingleS v10 v9 in
   let v49 := get (0, junk) o48 in
   let v50 := fst v49 in
   let v51 := snd v49 in
   let o52 := unwrap_parse (from_str SingleS (bytes "-0x0p+0")) in
   let v53 := get junk o52 in
   let o54 := op_mul SingleS v10 v10 in
   let v55 := get (0, junk) o54 in
   let v56 := fst v55 in
   let v57 := snd v55 in
   let o58 := unwrap_parse (from_str SingleS (bytes "0x0p+0")) in
   let v59 := get junk o58 in
   let o60 := op_mul SingleS v10 v11 in
   let v61 := get (0, junk) o60 in
   let v62 := fst v61 in
   let v63 := snd v61 in
   let o64 := unwrap_parse (from_str SingleS (bytes "-0x0p+0")) in
   all_true [
      bitwise_eq v15 v17;
      returns o18;
      INVALID_OP =? v20;
      category_eqb NaN (category v21);
      returns o22;
      bitwise_eq v21 v23;
      returns o24;
      OK =? v26;
      category_eqb Normal (category v27);
      returns o28;
      bitwise_eq v27 v29;
      returns o30;
      OK =? v32;
      category_eqb Normal (category v33);
      returns o34;
      bitwise_eq v33 v35;
      returns o36;
      OK =? v38;
      category_eqb Normal (category v39);
      returns o40;
      bitwise_eq v39 v41;
      returns o42;
      OK =? v44;
      category_eqb Normal (category v45);
      returns o46;
      bitwise_eq v45 v47;
      returns o48;
      v12 =? v50;
      category_eqb Zero (category v51);
      returns o52;
      bitwise_eq v51 v53;
      returns o54;
      v12 =? v56;
      category_eqb Zero (category v57);
      returns o58;
      bitwise_eq v57 v59;
      returns o60;
      v12 =? v62;
      category_eqb Zero (category v63);
      returns o64]) = true.
Proof. vm_compute. reflexivity. Qed.

Example test_multiply_22 : (
   let v0 := INFINITY SingleS in
   let v1 := neg (INFINITY SingleS) in
   let v2 := ZERO SingleS in
   let v3 := neg (ZERO SingleS) in
   let v4 := NAN SingleS in
   let o5 := unwrap_parse (from_str SingleS (bytes "snan123")) in
   let v6 := get junk o5 in
   let o7 := unwrap_parse (from_str SingleS (bytes "0x1p+0")) in
   let v8 := get junk o7 in
   let v9 := neg (SMALLEST SingleS) in
   let v10 := smallest_normalized SingleS in
   let v11 := neg (smallest_normalized SingleS) in
   let v12 := Z.lor UNDERFLOW INEXACT in
   let o13 := op_mul SingleS v9 v10 in
   let v14 := get (0, junk) o13 in
   let v15 := snd v14 in
   let o16 := unwrap_parse (from_str SingleS (bytes "-0x0p+0")) in
   let v17 := get junk o16 in
   let o18 := op_mul SingleS v9 v11 in
   let v19 := get (0, junk) o18 in
   let v20 := fst v19 in
   let v21 := snd v19 in
   let o22 := unwrap_parse (from_str SingleS (bytes "0x0p+0")) in
   let v23 := get junk o22 in
   let o24 := op_mul SingleS v10 v0 in
   let v25 := get (0, junk) o24 in
   let v26 := fst v25 in
   let v27 := snd v25 in
   let o28 := unwrap_parse (from_str SingleS (bytes "inf")) in
   let v29 := get junk o28 in
   let o30 := op_mul SingleS v10 v1 in
   let v31 := get (0, junk) o30 in
   let v32 := fst v31 in
   let v33 := snd v31 in
   let o34 := unwrap_parse (from_str SingleS (bytes "-inf")) in
   let v35 := get junk o34 in
   let o36 := op_mul SingleS v10 v2 in
   let v37 := get (0, junk) o36 in
   let v38 := fst v37 in
   let v39 := snd v37 in
   let o40 := unwrap_parse (from_str SingleS (bytes "0x0p+0")) in
   let v41 := get junk o40 in
   let o42 := op_mul SingleS v10 v3 in
   let v43 := get (0, junk) o42 in
   let v44 := fst v43 in
   let v45 := snd v43 in
   let o46 := unwrap_parse (from_str SingleS (bytes "-0x0p+0")) in
   let v47 := get junk o46 in
   let o48 := op_mul SingleS v10 v4 in
   let v49 := get (0, junk) o48 in
   let v50 := fst v49 in
   let v51 := snd v49 in
   let o52 := unwrap_parse (from_str SingleS (bytes "nan")) in
   let v53 := get junk o52 in
   let o54 := op_mul SingleS v10 v6 in
   let v55 := get (0, junk) o54 in
   let v56 := fst v55 in
   let v57 := snd v55 in
   let o58 := unwrap_parse (from_str SingleS (bytes "nan123")) in
   let v59 := get junk o58 in
   let o60 := op_mul SingleS v10 v8 in
   let v61 := get (0, junk) o60 in
   let v62 := fst v61 in
   let v63 := snd v61 in
   let o64 := unwrap_parse (from_str SingleS (bytes "0x1p-126")) in
   all_true [
      bitwise_eq v15 v17;
      returns o18;
      v12 =? v20;
      category_eqb Zero (category v21);
      returns o22;
      bitwise_eq v21 v23;
      returns o24;
      OK =? v26;
      category_eqb Infinity (category v27);
      returns o28;
      bitwise_eq v27 v29;
      returns o30;
      OK =? v32;
      category_eqb Infinity (category v33);
      returns o34;
      bitwise_eq v33 v35;
      returns o36;
      OK =? v38;
      category_eqb Zero (category v39);
      returns o40;
      bitwise_eq v39 v41;
      returns o42;
      OK =? v44;
      category_eqb Zero (category v45);
      returns o46;
      bitwise_eq v45 v47;
      returns o48;
      OK =? v50;
      category_eqb NaN (category v51);
      returns o52;
      bitwise_eq v51 v53;
      returns o54;
      INVALID_OP =? v56;
      category_eqb NaN (category v57);
      returns o58;
      bitwise_eq v57 v59;
      returns o60;
      OK =? v62;
      category_eqb Normal (category v63);
      returns o64]) = true.
Proof. vm_compute. reflexivity. Qed.

Example test_multiply_23 : (
   let v0 := INFINITY SingleS in
   let o1 := unwrap_parse (from_str SingleS (bytes "0x1p+0")) in
   let v2 := get junk o1 in
   let o3 := unwrap_parse (from_str SingleS (bytes "-0x1p+0")) in
   let v4 := get junk o3 in
   let v5 := largest SingleS in
   let v6 := neg (largest SingleS) in
   let v7 := SMALLEST SingleS in
   let v8 := neg (SMALLEST SingleS) in
   let v9 := smallest_normalized SingleS in
   let v10 := neg (smallest_normalized SingleS) in
   let v11 := Z.lor UNDERFLOW INEXACT in
   let o12 := op_mul SingleS v9 v2 in
   let v13 := get (0, junk) o12 in
   let v14 := snd v13 in
   let o15 := unwrap_parse (from_str SingleS (bytes "0x1p-126")) in
   let v16 := get junk o15 in
   let o17 := op_mul SingleS v9 v4 in
   let v18 := get (0, junk) o17 in
   let v19 := fst v18 in
   let v20 := snd v18 in
   let o21 := unwrap_parse (from_str SingleS (bytes "-0x1p-126")) in
   let v22 := get junk o21 in
   let o23 := op_mul SingleS v9 v5 in
   let v24 := get (0, junk) o23 in
   let v25 := fst v24 in
   let v26 := snd v24 in
   let o27 := unwrap_parse (from_str SingleS (bytes "0x1.fffffep+1")) in
   let v28 := get junk o27 in
   let o29 := op_mul SingleS v9 v6 in
   let v30 := get (0, junk) o29 in
   let v31 := fst v30 in
   let v32 := snd v30 in
   let o33 := unwrap_parse (from_str SingleS (bytes "-0x1.fffffep+1")) in
   let v34 := get junk o33 in
   let o35 := op_mul SingleS v9 v7 in
   let v36 := get (0, junk) o35 in
   let v37 := fst v36 in
   let v38 := snd v36 in
   let o39 := unwrap_parse (from_str SingleS (bytes "0x0p+0")) in
   let v40 := get junk o39 in
   let o41 := op_mul SingleS v9 v8 in
   let v42 := get (0, junk) o41 in
   let v43 := fst v42 in
   let v44 := snd v42 in
   let o45 := unwrap_parse (from_str SingleS (bytes "-0x0p+0")) in
   let v46 := get junk o45 in
   let o47 := op_mul SingleS v9 v9 in
   let v48 := get (0, junk) o47 in
   let v49 := fst v48 in
   let v50 := snd v48 in
   let o51 := unwrap_parse (from_str SingleS (bytes "0x0p+0")) in
   let v52 := get junk o51 in
   let o53 := op_mul SingleS v9 v10 in
   let v54 := get (0, junk) o53 in
   let v55 := fst v54 in
   let v56 := snd v54 in
   let o57 := unwrap_parse (from_str SingleS (bytes "-0x0p+0")) in
   let v58 := get junk o57 in
   let o59 := op_mul SingleS v10 v0 in
   let v60 := get (0, junk) o59 in
   let v61 := fst v60 in
   let v62 := snd v60 in
   let o63 := unwrap_parse (from_str SingleS (bytes "-inf")) in
   all_true [
      bitwise_eq v14 v16;
      returns o17;
      OK =? v19;
      category_eqb Normal (category v20);
      returns o21;
      bitwise_eq v20 v22;
      returns o23;
      OK =? v25;
      category_eqb Normal (category v26);
      returns o27;
      bitwise_eq v26 v28;
      returns o29;
      OK =? v31;
      category_eqb Normal (category v32);
      returns o33;
      bitwise_eq v32 v34;
      returns o35;
      v11 =? v37;
      category_eqb Zero (category v38);
      returns o39;
      bitwise_eq v38 v40;
      returns o41;
      v11 =? v43;
      category_eqb Zero (category v44);
      returns o45;
      bitwise_eq v44 v46;
      returns o47;
      v11 =? v49;
      category_eqb Zero (category v50);
      returns o51;
      bitwise_eq v50 v52;
      returns o53;
      v11 =? v55;
      category_eqb Zero (category v56);
      returns o57;
      bitwise_eq v56 v58;
      returns o59;
      OK =? v61;
      category_eqb Infinity (category v62);
      returns o63]) = true.
Proof. vm_compute. reflexivity. Qed.

Example test_multiply_24 : (
   let v0 := INFINITY SingleS in
   let v1 := neg (INFINITY SingleS) in
   let v2 := ZERO SingleS in
   let v3 := neg (ZERO SingleS) in
   let v4 := NAN SingleS in
   let o5 := unwrap_parse (from_str SingleS (bytes "snan123")) in
   let v6 := get junk o5 in
   let o7 := unwrap_parse (from_str SingleS (bytes "0x1p+0")) in
   let v8 := get junk o7 in
   let o9 := unwrap_parse (from_str SingleS (bytes "-0x1p+0")) in
   let v10 := get junk o9 in
   let v11 := largest SingleS in
   let v12 := neg (smallest_normalized SingleS) in
   let o13 := op_mul SingleS v12 v0 in
   let v14 := get (0, junk) o13 in
   let v15 := snd v14 in
   let o16 := unwrap_parse (from_str SingleS (bytes "-inf")) in
   let v17 := get junk o16 in
   let o18 := op_mul SingleS v12 v1 in
   let v19 := get (0, junk) o18 in
   let v20 := fst v19 in
   let v21 := snd v19 in
   let o22 := unwrap_parse (from_str SingleS (bytes "inf")) in
   let v23 := get junk o22 in
   let o24 := op_mul SingleS v12 v2 in
   let v25 := get (0, junk) o24 in
   let v26 := fst v25 in
   let v27 := snd v25 in
   let o28 := unwrap_parse (from_str SingleS (bytes "-0x0p+0")) in
   let v29 := get junk o28 in
   let o30 := op_mul SingleS v12 v3 in
   let v31 := get (0, junk) o30 in
   let v32 := fst v31 in
   let v33 := snd v31 in
   let o34 := unwrap_parse (from_str SingleS (bytes "0x0p+0")) in
   let v35 := get junk o34 in
   let o36 := op_mul SingleS v12 v4 in
   let v37 := get (0, junk) o36 in
   let v38 := fst v37 in
   let v39 := snd v37 in
   let o40 := unwrap_parse (from_str SingleS (bytes "nan")) in
   let v41 := get junk o40 in
   let o42 := op_mul SingleS v12 v6 in
   let v43 := get (0, junk) o42 in
   let v44 := fst v43 in
   let v45 := snd v43 in
   let o46 := unwrap_parse (from_str SingleS (bytes "nan123")) in
   let v47 := get junk o46 in
   let o48 := op_mul SingleS v12 v8 in
   let v49 := get (0, junk) o48 in
   let v50 := fst v49 in
   let v51 := snd v49 in
   let o52 := unwrap_parse (from_str SingleS (bytes "-0x1p-126")) in
   let v53 := get junk o52 in
   let o54 := op_mul SingleS v12 v10 in
   let v55 := get (0, junk) o54 in
   let v56 := fst v55 in
   let v57 := snd v55 in
   let o58 := unwrap_parse (from_str SingleS (bytes "0x1p-126")) in
   let v59 := get junk o58 in
   let o60 := op_mul SingleS v12 v11 in
   let v61 := get (0, junk) o60 in
   let v62 := fst v61 in
   let v63 := snd v61 in
   let o64 := unwrap_parse (from_str SingleS (bytes "-0x1.fffffep+1")) in
   all_true [
      bitwise_eq v15 v17;
      returns o18;
      OK =? v20;
      category_eqb Infinity (category v21);
      returns o22;
      bitwise_eq v21 v23;
      returns o24;
      OK =? v26;
      category_eqb Zero (category v27);
      returns o28;
      bitwise_eq v27 v29;
      returns o30;
      OK =? v32;
      category_eqb Zero (category v33);
      returns o34;
      bitwise_eq v33 v35;
      returns o36;
      OK =? v38;
      category_eqb NaN (category v39);
      returns o40;
      bitwise_eq v39 v41;
      returns o42;
      INVALID_OP =? v44;
      category_eqb NaN (category v45);
      returns o46;
      bitwise_eq v45 v47;
      returns o48;
      OK =? v50;
      category_eqb Normal (category v51);
      returns o52;
      bitwise_eq v51 v53;
      returns o54;
      OK =? v56;
      category_eqb Normal (category v57);
      returns o58;
      bitwise_eq v57 v59;
      returns o60;
      OK =? v62;
      category_eqb Normal (category v63);
      returns o64]) = true.
Proof. vm_compute. reflexivity. Qed.

Example test_multiply_25 : (
   let v0 := largest SingleS in
   let v1 := neg (largest SingleS) in
   let v2 := SMALLEST SingleS in
   let v3 := neg (SMALLEST SingleS) in
   let v4 := smallest_normalized SingleS in
   let v5 := neg (smallest_normalized SingleS) in
   let o6 := unwrap_parse (from_str QuadS (bytes "0x1.ffffffffffffffffffffffffffffp+16383")) in
   let v7 := get junk o6 in
   let o8 := unwrap_parse (from_str QuadS (bytes "0x0.0000000000000000000000000001p-16382")) in
   let v9 := get junk o8 in
   let v10 := Z.lor UNDERFLOW INEXACT in
   let o11 := op_mul SingleS v5 v0 in
   let v12 := get (0, junk) o11 in
   let v13 := snd v12 in
   let o14 := unwrap_parse (from_str SingleS (bytes "-0x1.fffffep+1")) in
   let v15 := get junk o14 in
   let o16 := op_mul SingleS v5 v1 in
   let v17 := get (0, junk) o16 in
   let v18 := fst v17 in
   let v19 := snd v17 in
   let o20 := unwrap_parse (from_str SingleS (bytes "0x1.fffffep+1")) in
   let v21 := get junk o20 in
   let o22 := op_mul SingleS v5 v2 in
   let v23 := get (0, junk) o22 in
   let v24 := fst v23 in
   let v25 := snd v23 in
   let o26 := unwrap_parse (from_str SingleS (bytes "-0x0p+0")) in
   let v27 := get junk o26 in
   let o28 := op_mul SingleS v5 v3 in
   let v29 := get (0, junk) o28 in
   let v30 := fst v29 in
   let v31 := snd v29 in
   let o32 := unwrap_parse (from_str SingleS (bytes "0x0p+0")) in
   let v33 := get junk o32 in
   let o34 := op_mul SingleS v5 v4 in
   let v35 := get (0, junk) o34 in
   let v36 := fst v35 in
   let v37 := snd v35 in
   let o38 := unwrap_parse (from_str SingleS (bytes "-0x0p+0")) in
   let v39 := get junk o38 in
   let o40 := op_mul SingleS v5 v5 in
   let v41 := get (0, junk) o40 in
   let v42 := fst v41 in
   let v43 := snd v41 in
   let o44 := unwrap_parse (from_str SingleS (bytes "0x0p+0")) in
   let v45 := get junk o44 in
   let o46 := mul_r QuadS v7 v9 NearestTiesToEven in
   let v47 := get (0, junk) o46 in
   let v48 := fst v47 in
   let v49 := snd v47 in
   let o50 := unwrap_parse (from_str QuadS (bytes "0x1.ffffffffffffffffffffffffffffp-111")) in
   let v51 := get junk o50 in
   let o52 := mul_r QuadS v7 v9 TowardPositive in
   let v53 := get (0, junk) o52 in
   let v54 := fst v53 in
   let v55 := snd v53 in
   let o56 := unwrap_parse (from_str QuadS (bytes "0x1.ffffffffffffffffffffffffffffp-111")) in
   let v57 := get junk o56 in
   let o58 := mul_r QuadS v7 v9 TowardNegative in
   let v59 := get (0, junk) o58 in
   let v60 := fst v59 in
   let v61 := snd v59 in
   let o62 := unwrap_parse (from_str QuadS (bytes "0x1.ffffffffffffffffffffffffffffp-111")) in
   all_true [
      bitwise_eq v13 v15;
      returns o16;
      OK =? v18;
      category_eqb Normal (category v19);
      returns o20;
      bitwise_eq v19 v21;
      returns o22;
      v10 =? v24;
      category_eqb Zero (category v25);
      returns o26;
      bitwise_eq v25 v27;
      returns o28;
      v10 =? v30;
      category_eqb Zero (category v31);
      returns o32;
      bitwise_eq v31 v33;
      returns o34;
      v10 =? v36;
      category_eqb Zero (category v37);
      returns o38;
      bitwise_eq v37 v39;
      returns o40;
      v10 =? v42;
      category_eqb Zero (category v43);
      returns o44;
      bitwise_eq v43 v45;
      returns o46;
      OK =? v48;
      category_eqb Normal (category v49);
      returns o50;
      bitwise_eq v49 v51;
      returns o52;
      OK =? v54;
      category_eqb Normal (category v55);
      returns o56;
      bitwise_eq v55 v57;
      returns o58;
      OK =? v60;
      category_eqb Normal (category v61);
      returns o62]) = true.
Proof. vm_compute. reflexivity. Qed.

Example test_multiply_26 : (
   let o0 := unwrap_parse (from_str QuadS (bytes "0x1.ffffffffffffffffffffffffffffp+16383")) in
   let v1 := get junk o0 in
   let o2 := unwrap_parse (from_str QuadS (bytes "0x0.0000000000000000000000000001p-16382")) in
   let v3 := get junk o2 in
   let o4 := unwrap_parse (from_str QuadS (bytes "-0x0.0000000000000000000000000001p-16382")) in
   let v5 := get junk o4 in
   let v6 := Z.lor OVERFLOW INEXACT in
   let o7 := mul_r QuadS v1 v3 TowardNegative in
   let v8 := get (0, junk) o7 in
   let v9 := snd v8 in
   let o10 := unwrap_parse (from_str QuadS (bytes "0x1.ffffffffffffffffffffffffffffp-111")) in
   let v11 := get junk o10 in
   let o12 := mul_r QuadS v1 v3 TowardZero in
   let v13 := get (0, junk) o12 in
   let v14 := fst v13 in
   let v15 := snd v13 in
   let o16 := unwrap_parse (from_str QuadS (bytes "0x1.ffffffffffffffffffffffffffffp-111")) in
   let v17 := get junk o16 in
   let o18 := mul_r QuadS v1 v3 NearestTiesToAway in
   let v19 := get (0, junk) o18 in
   let v20 := fst v19 in
   let v21 := snd v19 in
   let o22 := unwrap_parse (from_str QuadS (bytes "0x1.ffffffffffffffffffffffffffffp-111")) in
   let v23 := get junk o22 in
   let o24 := mul_r QuadS v1 v5 NearestTiesToEven in
   let v25 := get (0, junk) o24 in
   let v26 := fst v25 in
   let v27 := snd v25 in
   let o28 := unwrap_parse (from_str QuadS (bytes "-0x1.ffffffffffffffffffffffffffffp-111")) in
   let v29 := get junk o28 in
   let o30 := mul_r QuadS v1 v5 TowardPositive in
   let v31 := get (0, junk) o30 in
   let v32 := fst v31 in
   let v33 := snd v31 in
   let o34 := unwrap_parse (from_str QuadS (bytes "-0x1.ffffffffffffffffffffffffffffp-111")) in
   let v35 := get junk o34 in
   let o36 := mul_r QuadS v1 v5 TowardNegative in
   let v37 := get (0, junk) o36 in
   let v38 := fst v37 in
   let v39 := snd v37 in
   let o40 := unwrap_parse (from_str QuadS (bytes "-0x1.ffffffffffffffffffffffffffffp-111")) in
   let v41 := get junk o40 in
   let o42 := mul_r QuadS v1 v5 TowardZero in
   let v43 := get (0, junk) o42 in
   let v44 := fst v43 in
   let v45 := snd v43 in
   let o46 := unwrap_parse (from_str QuadS (bytes "-0x1.ffffffffffffffffffffffffffffp-111")) in
   let v47 := get junk o46 in
   let o48 := mul_r QuadS v1 v5 NearestTiesToAway in
   let v49 := get (0, junk) o48 in
   let v50 := fst v49 in
   let v51 := snd v49 in
   let o52 := unwrap_parse (from_str QuadS (bytes "-0x1.ffffffffffffffffffffffffffffp-111")) in
   let v53 := get junk o52 in
   let o54 := mul_r QuadS v1 v1 NearestTiesToEven in
   let v55 := get (0, junk) o54 in
   let v56 := fst v55 in
   let v57 := snd v55 in
   let o58 := unwrap_parse (from_str QuadS (bytes "inf")) in
   all_true [
      bitwise_eq v9 v11;
      returns o12;
      OK =? v14;
      category_eqb Normal (category v15);
      returns o16;
      bitwise_eq v15 v17;
      returns o18;
      OK =? v20;
      category_eqb Normal (category v21);
      returns o22;
      bitwise_eq v21 v23;
      returns o24;
      OK =? v26;
      category_eqb Normal (category v27);
      returns o28;
      bitwise_eq v27 v29;
      returns o30;
      OK =? v32;
      category_eqb Normal (category v33);
      returns o34;
      bitwise_eq v33 v35;
      returns o36;
      OK =? v38;
      category_eqb Normal (category v39);
      returns o40;
      bitwise_eq v39 v41;
      returns o42;
      OK =? v44;
      category_eqb Normal (category v45);
      returns o46;
      bitwise_eq v45 v47;
      returns o48;
      OK =? v50;
      category_eqb Normal (category v51);
      returns o52;
      bitwise_eq v51 v53;
      returns o54;
      v6 =? v56;
      category_eqb Infinity (category v57);
      returns o58]) = true.
Proof. vm_compute. reflexivity. Qed.

Example test_multiply_27 : (
   let o0 := unwrap_parse (from_str QuadS (bytes "0x1.ffffffffffffffffffffffffffffp+16383")) in
   let v1 := get junk o0 in
   let o2 := unwrap_parse (from_str QuadS (bytes "0x0.0000000000000000000000000001p-16382")) in
   let v3 := get junk o2 in
   let v4 := Z.lor OVERFLOW INEXACT in
   let v5 := Z.lor UNDERFLOW INEXACT in
   let o6 := mul_r QuadS v1 v1 NearestTiesToEven in
   let v7 := get (0, junk) o6 in
   let v8 := snd v7 in
   let o9 := unwrap_parse (from_str QuadS (bytes "inf")) in
   let v10 := get junk o9 in
   let o11 := mul_r QuadS v1 v1 TowardPositive in
   let v12 := get (0, junk) o11 in
   let v13 := fst v12 in
   let v14 := snd v12 in
   let o15 := unwrap_parse (from_str QuadS (bytes "inf")) in
   let v16 := get junk o15 in
   let o17 := mul_r QuadS v1 v1 TowardNegative in
   let v18 := get (0, junk) o17 in
   let v19 := fst v18 in
   let v20 := snd v18 in
   let o21 := unwrap_parse (from_str QuadS (bytes "0x1.ffffffffffffffffffffffffffffp+16383")) in
   let v22 := get junk o21 in
   let o23 := mul_r QuadS v1 v1 TowardZero in
   let v24 := get (0, junk) o23 in
   let v25 := fst v24 in
   let v26 := snd v24 in
   let o27 := unwrap_parse (from_str QuadS (bytes "0x1.ffffffffffffffffffffffffffffp+16383")) in
   let v28 := get junk o27 in
   let o29 := mul_r QuadS v1 v1 NearestTiesToAway in
   let v30 := get (0, junk) o29 in
   let v31 := fst v30 in
   let v32 := snd v30 in
   let o33 := unwrap_parse (from_str QuadS (bytes "inf")) in
   let v34 := get junk o33 in
   let o35 := mul_r QuadS v3 v3 NearestTiesToEven in
   let v36 := get (0, junk) o35 in
   let v37 := fst v36 in
   let v38 := snd v36 in
   let o39 := unwrap_parse (from_str QuadS (bytes "0")) in
   let v40 := get junk o39 in
   let o41 := mul_r QuadS v3 v3 TowardPositive in
   let v42 := get (0, junk) o41 in
   let v43 := fst v42 in
   let v44 := snd v42 in
   let o45 := unwrap_parse (from_str QuadS (bytes "0x0.0000000000000000000000000001p-16382")) in
   let v46 := get junk o45 in
   let o47 := mul_r QuadS v3 v3 TowardNegative in
   let v48 := get (0, junk) o47 in
   let v49 := fst v48 in
   let v50 := snd v48 in
   let o51 := unwrap_parse (from_str QuadS (bytes "0")) in
   let v52 := get junk o51 in
   let o53 := mul_r QuadS v3 v3 TowardZero in
   let v54 := get (0, junk) o53 in
   let v55 := fst v54 in
   let v56 := snd v54 in
   let o57 := unwrap_parse (from_str QuadS (bytes "0")) in
   all_true [
      bitwise_eq v8 v10;
      returns o11;
      v4 =? v13;
      category_eqb Infinity (category v14);
      returns o15;
      bitwise_eq v14 v16;
      returns o17;
      INEXACT =? v19;
      category_eqb Normal (category v20);
      returns o21;
      bitwise_eq v20 v22;
      returns o23;
      INEXACT =? v25;
      category_eqb Normal (category v26);
      returns o27;
      bitwise_eq v26 v28;
      returns o29;
      v4 =? v31;
      category_eqb Infinity (category v32);
      returns o33;
      bitwise_eq v32 v34;
      returns o35;
      v5 =? v37;
      category_eqb Zero (category v38);
      returns o39;
      bitwise_eq v38 v40;
      returns o41;
      v5 =? v43;
      category_eqb Normal (category v44);
      returns o45;
      bitwise_eq v44 v46;
      returns o47;
      v5 =? v49;
      category_eqb Zero (category v50);
      returns o51;
      bitwise_eq v50 v52;
      returns o53;
      v5 =? v55;
      category_eqb Zero (category v56);
      returns o57]) = true.
Proof. vm_compute. reflexivity. Qed.

Example test_multiply_28 : (
   let o0 := unwrap_parse (from_str QuadS (bytes "0x0.0000000000000000000000000001p-16382")) in
   let v1 := get junk o0 in
   let o2 := unwrap_parse (from_str QuadS (bytes "-0x0.0000000000000000000000000001p-16382")) in
   let v3 := get junk o2 in
   let v4 := Z.lor UNDERFLOW INEXACT in
   let o5 := mul_r QuadS v1 v1 TowardZero in
   let v6 := get (0, junk) o5 in
   let v7 := snd v6 in
   let o8 := unwrap_parse (from_str QuadS (bytes "0")) in
   let v9 := get junk o8 in
   let o10 := mul_r QuadS v1 v1 NearestTiesToAway in
   let v11 := get (0, junk) o10 in
   let v12 := fst v11 in
   let v13 := snd v11 in
   let o14 := unwrap_parse (from_str QuadS (bytes "0")) in
   let v15 := get junk o14 in
   let o16 := mul_r QuadS v1 v3 NearestTiesToEven in
   let v17 := get (0, junk) o16 in
   let v18 := fst v17 in
   let v19 := snd v17 in
   let o20 := unwrap_parse (from_str QuadS (bytes "-0")) in
   let v21 := get junk o20 in
   let o22 := mul_r QuadS v1 v3 TowardPositive in
   let v23 := get (0, junk) o22 in
   let v24 := fst v23 in
   let v25 := snd v23 in
   let o26 := unwrap_parse (from_str QuadS (bytes "-0")) in
   let v27 := get junk o26 in
   let o28 := mul_r QuadS v1 v3 TowardNegative in
   let v29 := get (0, junk) o28 in
   let v30 := fst v29 in
   let v31 := snd v29 in
   let o32 := unwrap_parse (from_str QuadS (bytes "-0x0.0000000000000000000000000001p-16382")) in
   let v33 := get junk o32 in
   let o34 := mul_r QuadS v1 v3 TowardZero in
   let v35 := get (0, junk) o34 in
   let v36 := fst v35 in
   let v37 := snd v35 in
   let o38 := unwrap_parse (from_str QuadS (bytes "-0")) in
   let v39 := get junk o38 in
   let o40 := mul_r QuadS v1 v3 NearestTiesToAway in
   let v41 := get (0, junk) o40 in
   let v42 := fst v41 in
   let v43 := snd v41 in
   let o44 := unwrap_parse (from_str QuadS (bytes "-0")) in
   let v45 := get junk o44 in
   all_true [
      bitwise_eq v7 v9;
      returns o10;
      v4 =? v12;
      category_eqb Zero (category v13);
      returns o14;
      bitwise_eq v13 v15;
      returns o16;
      v4 =? v18;
      category_eqb Zero (category v19);
      returns o20;
      bitwise_eq v19 v21;
      returns o22;
      v4 =? v24;
      category_eqb Zero (category v25);
      returns o26;
      bitwise_eq v25 v27;
      returns o28;
      v4 =? v30;
      category_eqb Normal (category v31);
      returns o32;
      bitwise_eq v31 v33;
      returns o34;
      v4 =? v36;
      category_eqb Zero (category v37);
      returns o38;
      bitwise_eq v37 v39;
      returns o40;
      v4 =? v42;
      category_eqb Zero (category v43);
      returns o44;
      bitwise_eq v43 v45]) = true.
Proof. vm_compute. reflexivity. Qed.

(** ieee.rs:2916 [divide] *)
Example test_divide_1 : (
   let v0 := INFINITY SingleS in
   let v1 := neg (INFINITY SingleS) in
   let v2 := ZERO SingleS in
   let v3 := neg (ZERO SingleS) in
   let v4 := NAN SingleS in
   let o5 := unwrap_parse (from_str SingleS (bytes "snan123")) in
   let v6 := get junk o5 in
   let o7 := unwrap_parse (from_str SingleS (bytes "0x1p+0")) in
   let v8 := get junk o7 in
   let o9 := unwrap_parse (from_str SingleS (bytes "-0x1p+0")) in
   let o10 := unwrap_parse (from_str QuadS (bytes "0x1.ffffffffffffffffffffffffffffp+16383")) in
   let o11 := unwrap_parse (from_str QuadS (bytes "0x0.0000000000000000000000000001p-16382")) in
   let o12 := unwrap_parse (from_str QuadS (bytes "-0x0.0000000000000000000000000001p-16382")) in
   let o13 := op_div SingleS v0 v0 in
   let v14 := get (0, junk) o13 in
   let v15 := fst v14 in
   let v16 := snd v14 in
   let o17 := unwrap_parse (from_str SingleS (bytes "nan")) in
   let v18 := get junk o17 in
   let o19 := op_div SingleS v0 v1 in
   let v20 := get (0, junk) o19 in
   let v21 := fst v20 in
   let v22 := snd v20 in
   let o23 := unwrap_parse (from_str SingleS (bytes "nan")) in
   let v24 := get junk o23 in
   let o25 := op_div SingleS v0 v2 in
   let v26 := get (0, junk) o25 in
   let v27 := fst v26 in
   let v28 := snd v26 in
   let o29 := unwrap_parse (from_str SingleS (bytes "inf")) in
   let v30 := get junk o29 in
   let o31 := op_div SingleS v0 v3 in
   let v32 := get (0, junk) o31 in
   let v33 := fst v32 in
   let v34 := snd v32 in
   let o35 := unwrap_parse (from_str SingleS (bytes "-inf")) in
   let v36 := get junk o35 in
   let o37 := op_div SingleS v0 v4 in
   let v38 := get (0, junk) o37 in
   let v39 := fst v38 in
   let v40 := snd v38 in
   let o41 := unwrap_parse (from_str SingleS (bytes "nan")) in
   let v42 := get junk o41 in
   let o43 := op_div SingleS v0 v6 in
   let v44 := get (0, junk) o43 in
   let v45 := fst v44 in
   let v46 := snd v44 in
   let o47 := unwrap_parse (from_str SingleS (bytes "nan123")) in
   let v48 := get junk o47 in
   let o49 := op_div SingleS v0 v8 in
   let v50 := get (0, junk) o49 in
   let v51 := fst v50 in
   let v52 := snd v50 in
   let o53 := unwrap_parse (from_str SingleS (bytes "inf")) in
   all_true [
      returns o5;
      returns o7;
      returns o9;
      returns o10;
      returns o11;
      returns o12;
      returns o13;
      INVALID_OP =? v15;
      category_eqb NaN (category v16);
      returns o17;
      bitwise_eq v16 v18;
      returns o19;
      INVALID_OP =? v21;
      category_eqb NaN (category v22);
      returns o23;
      bitwise_eq v22 v24;
      returns o25;
      OK =? v27;
      category_eqb Infinity (category v28);
      returns o29;
      bitwise_eq v28 v30;
      returns o31;
      OK =? v33;
      category_eqb Infinity (category v34);
      returns o35;
      bitwise_eq v34 v36;
      returns o37;
      OK =? v39;
      category_eqb NaN (category v40);
      returns o41;
      bitwise_eq v40 v42;
      returns o43;
      INVALID_OP =? v45;
      category_eqb NaN (category v46);
      returns o47;
      bitwise_eq v46 v48;
      returns o49;
      OK =? v51;
      category_eqb Infinity (category v52);
      returns o53]) = true.
Proof. vm_compute. reflexivity. Qed.

Example test_divide_2 : (
   let v0 := INFINITY SingleS in
   let v1 := neg (INFINITY SingleS) in
   let o2 := unwrap_parse (from_str SingleS (bytes "0x1p+0")) in
   let v3 := get junk o2 in
   let o4 := unwrap_parse (from_str SingleS (bytes "-0x1p+0")) in
   let v5 := get junk o4 in
   let v6 := largest SingleS in
   let v7 := neg (largest SingleS) in
   let v8 := SMALLEST SingleS in
   let v9 := neg (SMALLEST SingleS) in
   let v10 := smallest_normalized SingleS in
   let v11 := neg (smallest_normalized SingleS) in
   let o12 := op_div SingleS v0 v3 in
   let v13 := get (0, junk) o12 in
   let v14 := snd v13 in
   let o15 := unwrap_parse (from_str SingleS (bytes "inf")) in
   let v16 := get junk o15 in
   let o17 := op_div SingleS v0 v5 in
   let v18 := get (0, junk) o17 in
   let v19 := fst v18 in
   let v20 := snd v18 in
   let o21 := unwrap_parse (from_str SingleS (bytes "-inf")) in
   let v22 := get junk o21 in
   let o23 := op_div SingleS v0 v6 in
   let v24 := get (0, junk) o23 in
   let v25 := fst v24 in
   let v26 := snd v24 in
   let o27 := unwrap_parse (from_str SingleS (bytes "inf")) in
   let v28 := get junk o27 in
   let o29 := op_div SingleS v0 v7 in
   let v30 := get (0, junk) o29 in
   let v31 := fst v30 in
   let v32 := snd v30 in
   let o33 := unwrap_parse (from_str SingleS (bytes "-inf")) in
   let v34 := get junk o33 in
   let o35 := op_div SingleS v0 v8 in
   let v36 := get (0, junk) o35 in
   let v37 := fst v36 in
   let v38 := snd v36 in
   let o39 := unwrap_parse (from_str SingleS (bytes "inf")) in
   let v40 := get junk o39 in
   let o41 := op_div SingleS v0 v9 in
   let v42 := get (0, junk) o41 in
   let v43 := fst v42 in
   let v44 := snd v42 in
   let o45 := unwrap_parse (from_str SingleS (bytes "-inf")) in
   let v46 := get junk o45 in
   let o47 := op_div SingleS v0 v10 in
   let v48 := get (0, junk) o47 in
   let v49 := fst v48 in
   let v50 := snd v48 in
   let o51 := unwrap_parse (from_str SingleS (bytes "inf")) in
   let v52 := get junk o51 in
   let o53 := op_div SingleS v0 v11 in
   let v54 := get (0, junk) o53 in
   let v55 := fst v54 in
   let v56 := snd v54 in
   let o57 := unwrap_parse (from_str SingleS (bytes "-inf")) in
   let v58 := get junk o57 in
   let o59 := op_div SingleS v1 v0 in
   let v60 := get (0, junk) o59 in
   let v61 := fst v60 in
   let v62 := snd v60 in
   let o63 := unwrap_parse (from_str SingleS (bytes "nan")) in
   all_true [
      bitwise_eq v14 v16;
      returns o17;
      OK =? v19;
      category_eqb Infinity (category v20);
      returns o21;
      bitwise_eq v20 v22;
      returns o23;
      OK =? v25;
      category_eqb Infinity (category v26);
      returns o27;
      bitwise_eq v26 v28;
      returns o29;
      OK =? v31;
      category_eqb Infinity (category v32);
      returns o33;
      bitwise_eq v32 v34;
      returns o35;
      OK =? v37;
      category_eqb Infinity (category v38);
      returns o39;
      bitwise_eq v38 v40;
      returns o41;
      OK =? v43;
      category_eqb Infinity (category v44);
      returns o45;
      bitwise_eq v44 v46;
      returns o47;
      OK =? v49;
      category_eqb Infinity (category v50);
      returns o51;
      bitwise_eq v50 v52;
      returns o53;
      OK =? v55;
      category_eqb Infinity (category v56);
      returns o57;
      bitwise_eq v56 v58;
      returns o59;
      INVALID_OP =? v61;
      category_eqb NaN (category v62);
      returns o63]) = true.
Proof. vm_compute. reflexivity. Qed.

Example test_divide_3 : (
   let v0 := INFINITY SingleS in
   let v1 := neg (INFINITY SingleS) in
   let v2 := ZERO SingleS in
   let v3 := neg (ZERO SingleS) in
   let v4 := NAN SingleS in
   let o5 := unwrap_parse (from_str SingleS (bytes "snan123")) in
   let v6 := get junk o5 in
   let o7 := unwrap_parse (from_str SingleS (bytes "0x1p+0")) in
   let v8 := get junk o7 in
   let o9 := unwrap_parse (from_str SingleS (bytes "-0x1p+0")) in
   let v10 := get junk o9 in
   let v11 := largest SingleS in
   let o12 := op_div SingleS v1 v0 in
   let v13 := get (0, junk) o12 in
   let v14 := snd v13 in
   let o15 := unwrap_parse (from_str SingleS (bytes "nan")) in
   let v16 := get junk o15 in
   let o17 := op_div SingleS v1 v1 in
   let v18 := get (0, junk) o17 in
   let v19 := fst v18 in
   let v20 := snd v18 in
   let o21 := unwrap_parse (from_str SingleS (bytes "nan")) in
   let v22 := get junk o21 in
   let o23 := op_div SingleS v1 v2 in
   let v24 := get (0, junk) o23 in
   let v25 := fst v24 in
   let v26 := snd v24 in
   let o27 := unwrap_parse (from_str SingleS (bytes "-inf")) in
   let v28 := get junk o27 in
   let o29 := op_div SingleS v1 v3 in
   let v30 := get (0, junk) o29 in
   let v31 := fst v30 in
   let v32 := snd v30 in
   let o33 := unwrap_parse (from_str SingleS (bytes "inf")) in
   let v34 := get junk o33 in
   let o35 := op_div SingleS v1 v4 in
   let v36 := get (0, junk) o35 in
   let v37 := fst v36 in
   let v38 := snd v36 in
   let o39 := unwrap_parse (from_str SingleS (bytes "nan")) in
   let v40 := get junk o39 in
   let o41 := op_div SingleS v1 v6 in
   let v42 := get (0, junk) o41 in
   let v43 := fst v42 in
   let v44 := snd v42 in
   let o45 := unwrap_parse (from_str SingleS (bytes "nan123")) in
   let v46 := get junk o45 in
   let o47 := op_div SingleS v1 v8 in
   let v48 := get (0, junk) o47 in
   let v49 := fst v48 in
   let v50 := snd v48 in
   let o51 := unwrap_parse (from_str SingleS (bytes "-inf")) in
   let v52 := get junk o51 in
   let o53 := op_div SingleS v1 v10 in
   let v54 := get (0, junk) o53 in
   let v55 := fst v54 in
   let v56 := snd v54 in
   let o57 := unwrap_parse (from_str SingleS (bytes "inf")) in
   let v58 := get junk o57 in
   let o59 := op_div SingleS v1 v11 in
   let v60 := get (0, junk) o59 in
   let v61 := fst v60 in
   let v62 := snd v60 in
   let o63 := unwrap_parse (from_str SingleS (bytes "-inf")) in
   all_true [
      bitwise_eq v14 v16;
      returns o17;
      INVALID_OP =? v19;
      category_eqb NaN (category v20);
      returns o21;
      bitwise_eq v20 v22;
      returns o23;
      OK =? v25;
      category_eqb Infinity (category v26);
      returns o27;
      bitwise_eq v26 v28;
      returns o29;
      OK =? v31;
      category_eqb Infinity (category v32);
      returns o33;
      bitwise_eq v32 v34;
      returns o35;
      OK =? v37;
      category_eqb NaN (category v38);
      returns o39;
      bitwise_eq v38 v40;
      returns o41;
      INVALID_OP =? v43;
      category_eqb NaN (category v44);
      returns o45;
      bitwise_eq v44 v46;
      returns o47;
      OK =? v49;
      category_eqb Infinity (category v50);
      returns o51;
      bitwise_eq v50 v52;
      returns o53;
      OK =? v55;
      category_eqb Infinity (category v56);
      returns o57;
      bitwise_eq v56 v58;
      returns o59;
      OK =? v61;
      category_eqb Infinity (category v62);
      returns o63]) = true.
Proof. vm_compute. reflexivity. Qed.

Example test_divide_4 : (
   let v0 := INFINITY SingleS in
   let v1 := neg (INFINITY SingleS) in
   let v2 := ZERO SingleS in
   let v3 := largest SingleS in
   let v4 := neg (largest SingleS) in
   let v5 := SMALLEST SingleS in
   let v6 := neg (SMALLEST SingleS) in
   let v7 := smallest_normalized SingleS in
   let v8 := neg (smallest_normalized SingleS) in
   let o9 := op_div SingleS v1 v3 in
   let v10 := get (0, junk) o9 in
   let v11 := snd v10 in
   let o12 := unwrap_parse (from_str SingleS (bytes "-inf")) in
   let v13 := get junk o12 in
   let o14 := op_div SingleS v1 v4 in
   let v15 := get (0, junk) o14 in
   let v16 := fst v15 in
   let v17 := snd v15 in
   let o18 := unwrap_parse (from_str SingleS (bytes "inf")) in
   let v19 := get junk o18 in
   let o20 := op_div SingleS v1 v5 in
   let v21 := get (0, junk) o20 in
   let v22 := fst v21 in
   let v23 := snd v21 in
   let o24 := unwrap_parse (from_str SingleS (bytes "-inf")) in
   let v25 := get junk o24 in
   let o26 := op_div SingleS v1 v6 in
   let v27 := get (0, junk) o26 in
   let v28 := fst v27 in
   let v29 := snd v27 in
   let o30 := unwrap_parse (from_str SingleS (bytes "inf")) in
   let v31 := get junk o30 in
   let o32 := op_div SingleS v1 v7 in
   let v33 := get (0, junk) o32 in
   let v34 := fst v33 in
   let v35 := snd v33 in
   let o36 := unwrap_parse (from_str SingleS (bytes "-inf")) in
   let v37 := get junk o36 in
   let o38 := op_div SingleS v1 v8 in
   let v39 := get (0, junk) o38 in
   let v40 := fst v39 in
   let v41 := snd v39 in
   let o42 := unwrap_parse (from_str SingleS (bytes "inf")) in
   let v43 := get junk o42 in
   let o44 := op_div SingleS v2 v0 in
   let v45 := get (0, junk) o44 in
   let v46 := fst v45 in
   let v47 := snd v45 in
   let o48 := unwrap_parse (from_str SingleS (bytes "0x0p+0")) in
   let v49 := get junk o48 in
   let o50 := op_div SingleS v2 v1 in
   let v51 := get (0, junk) o50 in
   let v52 := fst v51 in
   let v53 := snd v51 in
   let o54 := unwrap_parse (from_str SingleS (bytes "-0x0p+0")) in
   let v55 := get junk o54 in
   let o56 := op_div SingleS v2 v2 in
   let v57 := get (0, junk) o56 in
   let v58 := fst v57 in
   let v59 := snd v57 in
   let o60 := unwrap_parse (from_str SingleS (bytes "nan")) in
   all_true [
      bitwise_eq v11 v13;
      returns o14;
      OK =? v16;
      category_eqb Infinity (category v17);
      returns o18;
      bitwise_eq v17 v19;
      returns o20;
      OK =? v22;
      category_eqb Infinity (category v23);
      returns o24;
      bitwise_eq v23 v25;
      returns o26;
      OK =? v28;
      category_eqb Infinity (category v29);
      returns o30;
      bitwise_eq v29 v31;
      returns o32;
      OK =? v34;
      category_eqb Infinity (category v35);
      returns o36;
      bitwise_eq v35 v37;
      returns o38;
      OK =? v40;
      category_eqb Infinity (category v41);
      returns o42;
      bitwise_eq v41 v43;
      returns o44;
      OK =? v46;
      category_eqb Zero (category v47);
      returns o48;
      bitwise_eq v47 v49;
      returns o50;
      OK =? v52;
      category_eqb Zero (category v53);
      returns o54;
      bitwise_eq v53 v55;
      returns o56;
      INVALID_OP =? v58;
      category_eqb NaN (category v59);
      returns o60]) = true.
Proof. vm_compute. reflexivity. Qed.

Example test_divide_5 : (
   let v0 := ZERO SingleS in
   let v1 := neg (ZERO SingleS) in
   let v2 := NAN SingleS in
   let o3 := unwrap_parse (from_str SingleS (bytes "snan123")) in
   let v4 := get junk o3 in
   let o5 := unwrap_parse (from_str SingleS (bytes "0x1p+0")) in
   let v6 := get junk o5 in
   let o7 := unwrap_parse (from_str SingleS (bytes "-0x1p+0")) in
   let v8 := get junk o7 in
   let v9 := largest SingleS in
   let v10 := neg (largest SingleS) in
   let v11 := SMALLEST SingleS in
   let o12 := op_div SingleS v0 v0 in
   let v13 := get (0, junk) o12 in
   let v14 := snd v13 in
   let o15 := unwrap_parse (from_str SingleS (bytes "nan")) in
   let v16 := get junk o15 in
   let o17 := op_div SingleS v0 v1 in
   let v18 := get (0, junk) o17 in
   let v19 := fst v18 in
   let v20 := snd v18 in
   let o21 := unwrap_parse (from_str SingleS (bytes "nan")) in
   let v22 := get junk o21 in
   let o23 := op_div SingleS v0 v2 in
   let v24 := get (0, junk) o23 in
   let v25 := fst v24 in
   let v26 := snd v24 in
   let o27 := unwrap_parse (from_str SingleS (bytes "nan")) in
   let v28 := get junk o27 in
   let o29 := op_div SingleS v0 v4 in
   let v30 := get (0, junk) o29 in
   let v31 := fst v30 in
   let v32 := snd v30 in
   let o33 := unwrap_parse (from_str SingleS (bytes "nan123")) in
   let v34 := get junk o33 in
   let o35 := op_div SingleS v0 v6 in
   let v36 := get (0, junk) o35 in
   let v37 := fst v36 in
   let v38 := snd v36 in
   let o39 := unwrap_parse (from_str SingleS (bytes "0x0p+0")) in
   let v40 := get junk o39 in
   let o41 := op_div SingleS v0 v8 in
   let v42 := get (0, junk) o41 in
   let v43 := fst v42 in
   let v44 := snd v42 in
   let o45 := unwrap_parse (from_str SingleS (bytes "-0x0p+0")) in
   let v46 := get junk o45 in
   let o47 := op_div SingleS v0 v9 in
   let v48 := get (0, junk) o47 in
   let v49 := fst v48 in
   let v50 := snd v48 in
   let o51 := unwrap_parse (from_str SingleS (bytes "0x0p+0")) in
   let v52 := get junk o51 in
   let o53 := op_div SingleS v0 v10 in
   let v54 := get (0, junk) o53 in
   let v55 := fst v54 in
   let v56 := snd v54 in
   let o57 := unwrap_parse (from_str SingleS (bytes "-0x0p+0")) in
   let v58 := get junk o57 in
   let o59 := op_div SingleS v0 v11 in
   let v60 := get (0, junk) o59 in
   let v61 := fst v60 in
   let v62 := snd v60 in
   let o63 := unwrap_parse (from_str SingleS (bytes "0x0p+0")) in
   all_true [
      bitwise_eq v14 v16;
      returns o17;
      INVALID_OP =? v19;
      category_eqb NaN (category v20);
      returns o21;
      bitwise_eq v20 v22;
      returns o23;
      OK =? v25;
      category_eqb NaN (category v26);
      returns o27;
      bitwise_eq v26 v28;
      returns o29;
      INVALID_OP =? v31;
      category_eqb NaN (category v32);
      returns o33;
      bitwise_eq v32 v34;
      returns o35;
      OK =? v37;
      category_eqb Zero (category v38);
      returns o39;
      bitwise_eq v38 v40;
      returns o41;
      OK =? v43;
      category_eqb Zero (category v44);
      returns o45;
      bitwise_eq v44 v46;
      returns o47;
      OK =? v49;
      category_eqb Zero (category v50);
      returns o51;
      bitwise_eq v50 v52;
      returns o53;
      OK =? v55;
      category_eqb Zero (category v56);
      returns o57;
      bitwise_eq v56 v58;
      returns o59;
      OK =? v61;
      category_eqb Zero (category v62);
      returns o63]) = true.
Proof. vm_compute. reflexivity. Qed.

Example test_divide_6 : (
   let v0 := INFINITY SingleS in
   let v1 := neg (INFINITY SingleS) in
   let v2 := ZERO SingleS in
   let v3 := neg (ZERO SingleS) in
   let v4 := NAN SingleS in
   let v5 := SMALLEST SingleS in
   let v6 := neg (SMALLEST SingleS) in
   let v7 := smallest_normalized SingleS in
   let v8 := neg (smallest_normalized SingleS) in
   let o9 := op_div SingleS v2 v5 in
   let v10 := get (0, junk) o9 in
   let v11 := snd v10 in
   let o12 := unwrap_parse (from_str SingleS (bytes "0x0p+0")) in
   let v13 := get junk o12 in
   let o14 := op_div SingleS v2 v6 in
   let v15 := get (0, junk) o14 in
   let v16 := fst v15 in
   let v17 := snd v15 in
   let o18 := unwrap_parse (from_str SingleS (bytes "-0x0p+0")) in
   let v19 := get junk o18 in
   let o20 := op_div SingleS v2 v7 in
   let v21 := get (0, junk) o20 in
   let v22 := fst v21 in
   let v23 := snd v21 in
   let o24 := unwrap_parse (from_str SingleS (bytes "0x0p+0")) in
   let v25 := get junk o24 in
   let o26 := op_div SingleS v2 v8 in
   let v27 := get (0, junk) o26 in
   let v28 := fst v27 in
   let v29 := snd v27 in
   let o30 := unwrap_parse (from_str SingleS (bytes "-0x0p+0")) in
   let v31 := get junk o30 in
   let o32 := op_div SingleS v3 v0 in
   let v33 := get (0, junk) o32 in
   let v34 := fst v33 in
   let v35 := snd v33 in
   let o36 := unwrap_parse (from_str SingleS (bytes "-0x0p+0")) in
   let v37 := get junk o36 in
   let o38 := op_div SingleS v3 v1 in
   let v39 := get (0, junk) o38 in
   let v40 := fst v39 in
   let v41 := snd v39 in
   let o42 := unwrap_parse (from_str SingleS (bytes "0x0p+0")) in
   let v43 := get junk o42 in
   let o44 := op_div SingleS v3 v2 in
   let v45 := get (0, junk) o44 in
   let v46 := fst v45 in
   let v47 := snd v45 in
   let o48 := unwrap_parse (from_str SingleS (bytes "nan")) in
   let v49 := get junk o48 in
   let o50 := op_div SingleS v3 v3 in
   let v51 := get (0, junk) o50 in
   let v52 := fst v51 in
   let v53 := snd v51 in
   let o54 := unwrap_parse (from_str SingleS (bytes "nan")) in
   let v55 := get junk o54 in
   let o56 := op_div SingleS v3 v4 in
   let v57 := get (0, junk) o56 in
   let v58 := fst v57 in
   let v59 := snd v57 in
   let o60 := unwrap_parse (from_str SingleS (bytes "nan")) in
   all_true [
      bitwise_eq v11 v13;
      returns o14;
      OK =? v16;
      category_eqb Zero (category v17);
      returns o18;
      bitwise_eq v17 v19;
      returns o20;
      OK =? v22;
      category_eqb Zero (category v23);
      returns o24;
      bitwise_eq v23 v25;
      returns o26;
      OK =? v28;
      category_eqb Zero (category v29);
      returns o30;
      bitwise_eq v29 v31;
      returns o32;
      OK =? v34;
      category_eqb Zero (category v35);
      returns o36;
      bitwise_eq v35 v37;
      returns o38;
      OK =? v40;
      category_eqb Zero (category v41);
      returns o42;
      bitwise_eq v41 v43;
      returns o44;
      INVALID_OP =? v46;
      category_eqb NaN (category v47);
      returns o48;
      bitwise_eq v47 v49;
      returns o50;
      INVALID_OP =? v52;
      category_eqb NaN (category v53);
      returns o54;
      bitwise_eq v53 v55;
      returns o56;
      OK =? v58;
      category_eqb NaN (category v59);
      returns o60]) = true.
Proof. vm_compute. reflexivity. Qed.

Example test_divide_7 : (
   let v0 := neg (ZERO SingleS) in
   let v1 := NAN SingleS in
   let o2 := unwrap_parse (from_str SingleS (bytes "snan123")) in
   let v3 := get junk o2 in
   let o4 := unwrap_parse (from_str SingleS (bytes "0x1p+0")) in
   let v5 := get junk o4 in
   let o6 := unwrap_parse (from_str SingleS (bytes "-0x1p+0")) in
   let v7 := get junk o6 in
   let v8 := largest SingleS in
   let v9 := neg (largest SingleS) in
   let v10 := SMALLEST SingleS in
   let v11 := neg (SMALLEST SingleS) in
   let v12 := smallest_normalized SingleS in
   let o13 := op_div SingleS v0 v1 in
   let v14 := get (0, junk) o13 in
   let v15 := snd v14 in
   let o16 := unwrap_parse (from_str SingleS (bytes "nan")) in
   let v17 := get junk o16 in
   let o18 := op_div SingleS v0 v3 in
   let v19 := get (0, junk) o18 in
   let v20 := fst v19 in
   let v21 := snd v19 in
   let o22 := unwrap_parse (from_str SingleS (bytes "nan123")) in
   let v23 := get junk o22 in
   let o24 := op_div SingleS v0 v5 in
   let v25 := get (0, junk) o24 in
   let v26 := fst v25 in
   let v27 := snd v25 in
   let o28 := unwrap_parse (from_str SingleS (bytes "-0x0p+0")) in
   let v29 := get junk o28 in
   let o30 := op_div SingleS v0 v7 in
   let v31 := get (0, junk) o30 in
   let v32 := fst v31 in
   let v33 := snd v31 in
   let o34 := unwrap_parse (from_str SingleS (bytes "0x0p+0")) in
   let v35 := get junk o34 in
   let o36 := op_div SingleS v0 v8 in
   let v37 := get (0, junk) o36 in
   let v38 := fst v37 in
   let v39 := snd v37 in
   let o40 := unwrap_parse (from_str SingleS (bytes "-0x0p+0")) in
   let v41 := get junk o40 in
   let o42 := op_div SingleS v0 v9 in
   let v43 := get (0, junk) o42 in
   let v44 := fst v43 in
   let v45 := snd v43 in
   let o46 := unwrap_parse (from_str SingleS (bytes "0x0p+0")) in
   let v47 := get junk o46 in
   let o48 := op_div SingleS v0 v10 in
   let v49 := get (0, junk) o48 in
   let v50 := fst v49 in
   let v51 := snd v49 in
   let o52 := unwrap_parse (from_str SingleS (bytes "-0x0p+0")) in
   let v53 := get junk o52 in
   let o54 := op_div SingleS v0 v11 in
   let v55 := get (0, junk) o54 in
   let v56 := fst v55 in
   let v57 := snd v55 in
   let o58 := unwrap_parse (from_str SingleS (bytes "0x0p+0")) in
   let v59 := get junk o58 in
   let o60 := op_div SingleS v0 v12 in
   let v61 := get (0, junk) o60 in
   let v62 := fst v61 in
   let v63 := snd v61 in
   let o64 := unwrap_parse (from_str SingleS (bytes "-0x0p+0")) in
   all_true [
      bitwise_eq v15 v17;
      returns o18;
      INVALID_OP =? v20;
      category_eqb NaN (category v21);
      returns o22;
      bitwise_eq v21 v23;
      returns o24;
      OK =? v26;
      category_eqb Zero (category v27);
      returns o28;
      bitwise_eq v27 v29;
      returns o30;
      OK =? v32;
      category_eqb Zero (category v33);
      returns o34;
      bitwise_eq v33 v35;
      returns o36;
      OK =? v38;
      category_eqb Zero (category v39);
      returns o40;
      bitwise_eq v39 v41;
      returns o42;
      OK =? v44;
      category_eqb Zero (category v45);
      returns o46;
      bitwise_eq v45 v47;
      returns o48;
      OK =? v50;
      category_eqb Zero (category v51);
      returns o52;
      bitwise_eq v51 v53;
      returns o54;
      OK =? v56;
      category_eqb Zero (category v57);
      returns o58;
      bitwise_eq v57 v59;
      returns o60;
      OK =? v62;
      category_eqb Zero (category v63);
      returns o64]) = true.
Proof. vm_compute. reflexivity. Qed.

Example test_divide_8 : (
   let v0 := INFINITY SingleS in
   let v1 := neg (INFINITY SingleS) in
   let v2 := ZERO SingleS in
   let v3 := neg (ZERO SingleS) in
   let v4 := NAN SingleS in
   let o5 := unwrap_parse (from_str SingleS (bytes "snan123")) in
   let v6 := get junk o5 in
   let o7 := unwrap_parse (from_str SingleS (bytes "0x1p+0")) in
   let v8 := get junk o7 in
   let v9 := smallest_normalized SingleS in
   let v10 := neg (smallest_normalized SingleS) in
   let o11 := op_div SingleS v3 v9 in
   let v12 := get (0, junk) o11 in
   let v13 := snd v12 in
   let o14 := unwrap_parse (from_str SingleS (bytes "-0x0p+0")) in
   let v15 := get junk o14 in
   let o16 := op_div SingleS v3 v10 in
   let v17 := get (0, junk) o16 in
   let v18 := fst v17 in
   let v19 := snd v17 in
   let o20 := unwrap_parse (from_str SingleS (bytes "0x0p+0")) in
   let v21 := get junk o20 in
   let o22 := op_div SingleS v4 v0 in
   let v23 := get (0, junk) o22 in
   let v24 := fst v23 in
   let v25 := snd v23 in
   let o26 := unwrap_parse (from_str SingleS (bytes "nan")) in
   let v27 := get junk o26 in
   let o28 := op_div SingleS v4 v1 in
   let v29 := get (0, junk) o28 in
   let v30 := fst v29 in
   let v31 := snd v29 in
   let o32 := unwrap_parse (from_str SingleS (bytes "nan")) in
   let v33 := get junk o32 in
   let o34 := op_div SingleS v4 v2 in
   let v35 := get (0, junk) o34 in
   let v36 := fst v35 in
   let v37 := snd v35 in
   let o38 := unwrap_parse (from_str SingleS (bytes "nan")) in
   let v39 := get junk o38 in
   let o40 := op_div SingleS v4 v3 in
   let v41 := get (0, junk) o40 in
   let v42 := fst v41 in
   let v43 := snd v41 in
   let o44 := unwrap_parse (from_str SingleS (bytes "nan")) in
   let v45 := get junk o44 in
   let o46 := op_div SingleS v4 v4 in
   let v47 := get (0, junk) o46 in
   let v48 := fst v47 in
   let v49 := snd v47 in
   let o50 := unwrap_parse (from_str SingleS (bytes "nan")) in
   let v51 := get junk o50 in
   let o52 := op_div SingleS v4 v6 in
   let v53 := get (0, junk) o52 in
   let v54 := fst v53 in
   let v55 := snd v53 in
   let o56 := unwrap_parse (from_str SingleS (bytes "nan")) in
   let v57 := get junk o56 in
   let o58 := op_div SingleS v4 v8 in
   let v59 := get (0, junk) o58 in
   let v60 := fst v59 in
   let v61 := snd v59 in
   let o62 := unwrap_parse (from_str SingleS (bytes "nan")) in
   all_true [
      bitwise_eq v13 v15;
      returns o16;
      OK =? v18;
      category_eqb Zero (category v19);
      returns o20;
      bitwise_eq v19 v21;
      returns o22;
      OK =? v24;
      category_eqb NaN (category v25);
      returns o26;
      bitwise_eq v25 v27;
      returns o28;
      OK =? v30;
      category_eqb NaN (category v31);
      returns o32;
      bitwise_eq v31 v33;
      returns o34;
      OK =? v36;
      category_eqb NaN (category v37);
      returns o38;
      bitwise_eq v37 v39;
      returns o40;
      OK =? v42;
      category_eqb NaN (category v43);
      returns o44;
      bitwise_eq v43 v45;
      returns o46;
      OK =? v48;
      category_eqb NaN (category v49);
      returns o50;
      bitwise_eq v49 v51;
      returns o52;
      INVALID_OP =? v54;
      category_eqb NaN (category v55);
      returns o56;
      bitwise_eq v55 v57;
      returns o58;
      OK =? v60;
      category_eqb NaN (category v61);
      returns o62]) = true.
Proof. vm_compute. reflexivity. Qed.

Example test_divide_9 : (
   let v0 := INFINITY SingleS in
   let v1 := NAN SingleS in
   let o2 := unwrap_parse (from_str SingleS (bytes "snan123")) in
   let v3 := get junk o2 in
   let o4 := unwrap_parse (from_str SingleS (bytes "0x1p+0")) in
   let v5 := get junk o4 in
   let o6 := unwrap_parse (from_str SingleS (bytes "-0x1p+0")) in
   let v7 := get junk o6 in
   let v8 := largest SingleS in
   let v9 := neg (largest SingleS) in
   let v10 := SMALLEST SingleS in
   let v11 := neg (SMALLEST SingleS) in
   let v12 := smallest_normalized SingleS in
   let v13 := neg (smallest_normalized SingleS) in
   let o14 := op_div SingleS v1 v5 in
   let v15 := get (0, junk) o14 in
   let v16 := snd v15 in
   let o17 := unwrap_parse (from_str SingleS (bytes "nan")) in
   let v18 := get junk o17 in
   let o19 := op_div SingleS v1 v7 in
   let v20 := get (0, junk) o19 in
   let v21 := fst v20 in
   let v22 := snd v20 in
   let o23 := unwrap_parse (from_str SingleS (bytes "nan")) in
   let v24 := get junk o23 in
   let o25 := op_div SingleS v1 v8 in
   let v26 := get (0, junk) o25 in
   let v27 := fst v26 in
   let v28 := snd v26 in
   let o29 := unwrap_parse (from_str SingleS (bytes "nan")) in
   let v30 := get junk o29 in
   let o31 := op_div SingleS v1 v9 in
   let v32 := get (0, junk) o31 in
   let v33 := fst v32 in
   let v34 := snd v32 in
   let o35 := unwrap_parse (from_str SingleS (bytes "nan")) in
   let v36 := get junk o35 in
   let o37 := op_div SingleS v1 v10 in
   let v38 := get (0, junk) o37 in
   let v39 := fst v38 in
   let v40 := snd v38 in
   let o41 := unwrap_parse (from_str SingleS (bytes "nan")) in
   let v42 := get junk o41 in
   let o43 := op_div SingleS v1 v11 in
   let v44 := get (0, junk) o43 in
   let v45 := fst v44 in
   let v46 := snd v44 in
   let o47 := unwrap_parse (from_str SingleS (bytes "nan")) in
   let v48 := get junk o47 in
   let o49 := op_div SingleS v1 v12 in
   let v50 := get (0, junk) o49 in
   let v51 := fst v50 in
   let v52 := snd v50 in
   let o53 := unwrap_parse (from_str SingleS (bytes "nan")) in
   let v54 := get junk o53 in
   let o55 := op_div SingleS v1 v13 in
   let v56 := get (0, junk) o55 in
   let v57 := fst v56 in
   let v58 := snd v56 in
   let o59 := unwrap_parse (from_str SingleS (bytes "nan")) in
   let v60 := get junk o59 in
   let o61 := op_div SingleS v3 v0 in
   let v62 := get (0, junk) o61 in
   let v63 := fst v62 in
   let v64 := snd v62 in
   let o65 := unwrap_parse (from_str SingleS (bytes "nan123")) in
   all_true [
      bitwise_eq v16 v18;
      returns o19;
      OK =? v21;
      category_eqb NaN (category v22);
      returns o23;
      bitwise_eq v22 v24;
      returns o25;
      OK =? v27;
      category_eqb NaN (category v28);
      returns o29;
      bitwise_eq v28 v30;
      returns o31;
      OK =? v33;
      category_eqb NaN (category v34);
      returns o35;
      bitwise_eq v34 v36;
      returns o37;
      OK =? v39;
      category_eqb NaN (category v40);
      returns o41;
      bitwise_eq v40 v42;
      returns o43;
      OK =? v45;
      category_eqb NaN (category v46);
      returns o47;
      bitwise_eq v46 v48;
      returns o49;
      OK =? v51;
      category_eqb NaN (category v52);
      returns o53;
      bitwise_eq v52 v54;
      returns o55;
      OK =? v57;
      category_eqb NaN (category v58);
      returns o59;
      bitwise_eq v58 v60;
      returns o61;
      INVALID_OP =? v63;
      category_eqb NaN (category v64);
      returns o65]) = true.
Proof. vm_compute. reflexivity. Qed.

Example test_divide_10 : (
   let v0 := INFINITY SingleS in
   let v1 := neg (INFINITY SingleS) in
   let v2 := ZERO SingleS in
   let v3 := neg (ZERO SingleS) in
   let v4 := NAN SingleS in
   let o5 := unwrap_parse (from_str SingleS (bytes "snan123")) in
   let v6 := get junk o5 in
   let o7 := unwrap_parse (from_str SingleS (bytes "0x1p+0")) in
   let v8 := get junk o7 in
   let o9 := unwrap_parse (from_str SingleS (bytes "-0x1p+0")) in
   let v10 := get junk o9 in
   let v11 := largest SingleS in
   let o12 := op_div SingleS v6 v0 in
   let v13 := get (0, junk) o12 in
   let v14 := snd v13 in
   let o15 := unwrap_parse (from_str SingleS (bytes "nan123")) in
   let v16 := get junk o15 in
   let o17 := op_div SingleS v6 v1 in
   let v18 := get (0, junk) o17 in
   let v19 := fst v18 in
   let v20 := snd v18 in
   let o21 := unwrap_parse (from_str SingleS (bytes "nan123")) in
   let v22 := get junk o21 in
   let o23 := op_div SingleS v6 v2 in
   let v24 := get (0, junk) o23 in
   let v25 := fst v24 in
   let v26 := snd v24 in
   let o27 := unwrap_parse (from_str SingleS (bytes "nan123")) in
   let v28 := get junk o27 in
   let o29 := op_div SingleS v6 v3 in
   let v30 := get (0, junk) o29 in
   let v31 := fst v30 in
   let v32 := snd v30 in
   let o33 := unwrap_parse (from_str SingleS (bytes "nan123")) in
   let v34 := get junk o33 in
   let o35 := op_div SingleS v6 v4 in
   let v36 := get (0, junk) o35 in
   let v37 := fst v36 in
   let v38 := snd v36 in
   let o39 := unwrap_parse (from_str SingleS (bytes "nan123")) in
   let v40 := get junk o39 in
   let o41 := op_div SingleS v6 v6 in
   let v42 := get (0, junk) o41 in
   let v43 := fst v42 in
   let v44 := snd v42 in
   let o45 := unwrap_parse (from_str SingleS (bytes "nan123")) in
   let v46 := get junk o45 in
   let o47 := op_div SingleS v6 v8 in
   let v48 := get (0, junk) o47 in
   let v49 := fst v48 in
   let v50 := snd v48 in
   let o51 := unwrap_parse (from_str SingleS (bytes "nan123")) in
   let v52 := get junk o51 in
   let o53 := op_div SingleS v6 v10 in
   let v54 := get (0, junk) o53 in
   let v55 := fst v54 in
   let v56 := snd v54 in
   let o57 := unwrap_parse (from_str SingleS (bytes "nan123")) in
   let v58 := get junk o57 in
   let o59 := op_div SingleS v6 v11 in
   let v60 := get (0, junk) o59 in
   let v61 := fst v60 in
   let v62 := snd v60 in
   let o63 := unwrap_parse (from_str SingleS (bytes "nan123")) in
   all_true [
      bitwise_eq v14 v16;
      returns o17;
      INVALID_OP =? v19;
      category_eqb NaN (category v20);
      returns o21;
      bitwise_eq v20 v22;
      returns o23;
      INVALID_OP =? v25;
      category_eqb NaN (category v26);
      returns o27;
      bitwise_eq v26 v28;
      returns o29;
      INVALID_OP =? v31;
      category_eqb NaN (category v32);
      returns o33;
      bitwise_eq v32 v34;
      returns o35;
      INVALID_OP =? v37;
      category_eqb NaN (category v38);
      returns o39;
      bitwise_eq v38 v40;
      returns o41;
      INVALID_OP =? v43;
      category_eqb NaN (category v44);
      returns o45;
      bitwise_eq v44 v46;
      returns o47;
      INVALID_OP =? v49;
      category_eqb NaN (category v50);
      returns o51;
      bitwise_eq v50 v52;
      returns o53;
      INVALID_OP =? v55;
      category_eqb NaN (category v56);
      returns o57;
      bitwise_eq v56 v58;
      returns o59;
      INVALID_OP =? v61;
      category_eqb NaN (category v62);
      returns o63]) = true.
Proof. vm_compute. reflexivity. Qed.

Example test_divide_11 : (
   let v0 := INFINITY SingleS in
   let v1 := neg (INFINITY SingleS) in
   let v2 := ZERO SingleS in
   let o3 := unwrap_parse (from_str SingleS (bytes "snan123")) in
   let v4 := get junk o3 in
   let o5 := unwrap_parse (from_str SingleS (bytes "0x1p+0")) in
   let v6 := get junk o5 in
   let v7 := largest SingleS in
   let v8 := neg (largest SingleS) in
   let v9 := SMALLEST SingleS in
   let v10 := neg (SMALLEST SingleS) in
   let v11 := smallest_normalized SingleS in
   let v12 := neg (smallest_normalized SingleS) in
   let o13 := op_div SingleS v4 v7 in
   let v14 := get (0, junk) o13 in
   let v15 := snd v14 in
   let o16 := unwrap_parse (from_str SingleS (bytes "nan123")) in
   let v17 := get junk o16 in
   let o18 := op_div SingleS v4 v8 in
   let v19 := get (0, junk) o18 in
   let v20 := fst v19 in
   let v21 := snd v19 in
   let o22 := unwrap_parse (from_str SingleS (bytes "nan123")) in
   let v23 := get junk o22 in
   let o24 := op_div SingleS v4 v9 in
   let v25 := get (0, junk) o24 in
   let v26 := fst v25 in
   let v27 := snd v25 in
   let o28 := unwrap_parse (from_str SingleS (bytes "nan123")) in
   let v29 := get junk o28 in
   let o30 := op_div SingleS v4 v10 in
   let v31 := get (0, junk) o30 in
   let v32 := fst v31 in
   let v33 := snd v31 in
   let o34 := unwrap_parse (from_str SingleS (bytes "nan123")) in
   let v35 := get junk o34 in
   let o36 := op_div SingleS v4 v11 in
   let v37 := get (0, junk) o36 in
   let v38 := fst v37 in
   let v39 := snd v37 in
   let o40 := unwrap_parse (from_str SingleS (bytes "nan123")) in
   let v41 := get junk o40 in
   let o42 := op_div SingleS v4 v12 in
   let v43 := get (0, junk) o42 in
   let v44 := fst v43 in
   let v45 := snd v43 in
   let o46 := unwrap_parse (from_str SingleS (bytes "nan123")) in
   let v47 := get junk o46 in
   let o48 := op_div SingleS v6 v0 in
   let v49 := get (0, junk) o48 in
   let v50 := fst v49 in
   let v51 := snd v49 in
   let o52 := unwrap_parse (from_str SingleS (bytes "0x0p+0")) in
   let v53 := get junk o52 in
   let o54 := op_div SingleS v6 v1 in
   let v55 := get (0, junk) o54 in
   let v56 := fst v55 in
   let v57 := snd v55 in
   let o58 := unwrap_parse (from_str SingleS (bytes "-0x0p+0")) in
   let v59 := get junk o58 in
   let o60 := op_div SingleS v6 v2 in
   let v61 := get (0, junk) o60 in
   let v62 := fst v61 in
   let v63 := snd v61 in
   let o64 := unwrap_parse (from_str SingleS (bytes "inf")) in
   all_true [
      bitwise_eq v15 v17;
      returns o18;
      INVALID_OP =? v20;
      category_eqb NaN (category v21);
      returns o22;
      bitwise_eq v21 v23;
      returns o24;
      INVALID_OP =? v26;
      category_eqb NaN (category v27);
      returns o28;
      bitwise_eq v27 v29;
      returns o30;
      INVALID_OP =? v32;
      category_eqb NaN (category v33);
      returns o34;
      bitwise_eq v33 v35;
      returns o36;
      INVALID_OP =? v38;
      category_eqb NaN (category v39);
      returns o40;
      bitwise_eq v39 v41;
      returns o42;
      INVALID_OP =? v44;
      category_eqb NaN (category v45);
      returns o46;
      bitwise_eq v45 v47;
      returns o48;
      OK =? v50;
      category_eqb Zero (category v51);
      returns o52;
      bitwise_eq v51 v53;
      returns o54;
      OK =? v56;
      category_eqb Zero (category v57);
      returns o58;
      bitwise_eq v57 v59;
      returns o60;
      DIV_BY_ZERO =? v62;
      category_eqb Infinity (category v63);
      returns o64]) = true.
Proof. vm_compute. reflexivity. Qed.

Example test_divide_12 : (
   let v0 := ZERO SingleS in
   let v1 := neg (ZERO SingleS) in
   let v2 := NAN SingleS in
   let o3 := unwrap_parse (from_str SingleS (bytes "snan123")) in
   let v4 := get junk o3 in
   let o5 := unwrap_parse (from_str SingleS (bytes "0x1p+0")) in
   let v6 := get junk o5 in
   let o7 := unwrap_parse (from_str SingleS (bytes "-0x1p+0")) in
   let v8 := get junk o7 in
   let v9 := largest SingleS in
   let v10 := neg (largest SingleS) in
   let v11 := SMALLEST SingleS in
   let v12 := Z.lor OVERFLOW INEXACT in
   let v13 := Z.lor UNDERFLOW INEXACT in
   let o14 := op_div SingleS v6 v0 in
   let v15 := get (0, junk) o14 in
   let v16 := snd v15 in
   let o17 := unwrap_parse (from_str SingleS (bytes "inf")) in
   let v18 := get junk o17 in
   let o19 := op_div SingleS v6 v1 in
   let v20 := get (0, junk) o19 in
   let v21 := fst v20 in
   let v22 := snd v20 in
   let o23 := unwrap_parse (from_str SingleS (bytes "-inf")) in
   let v24 := get junk o23 in
   let o25 := op_div SingleS v6 v2 in
   let v26 := get (0, junk) o25 in
   let v27 := fst v26 in
   let v28 := snd v26 in
   let o29 := unwrap_parse (from_str SingleS (bytes "nan")) in
   let v30 := get junk o29 in
   let o31 := op_div SingleS v6 v4 in
   let v32 := get (0, junk) o31 in
   let v33 := fst v32 in
   let v34 := snd v32 in
   let o35 := unwrap_parse (from_str SingleS (bytes "nan123")) in
   let v36 := get junk o35 in
   let o37 := op_div SingleS v6 v6 in
   let v38 := get (0, junk) o37 in
   let v39 := fst v38 in
   let v40 := snd v38 in
   let o41 := unwrap_parse (from_str SingleS (bytes "0x1p+0")) in
   let v42 := get junk o41 in
   let o43 := op_div SingleS v6 v8 in
   let v44 := get (0, junk) o43 in
   let v45 := fst v44 in
   let v46 := snd v44 in
   let o47 := unwrap_parse (from_str SingleS (bytes "-0x1p+0")) in
   let v48 := get junk o47 in
   let o49 := op_div SingleS v6 v9 in
   let v50 := get (0, junk) o49 in
   let v51 := fst v50 in
   let v52 := snd v50 in
   let o53 := unwrap_parse (from_str SingleS (bytes "0x1p-128")) in
   let v54 := get junk o53 in
   let o55 := op_div SingleS v6 v10 in
   let v56 := get (0, junk) o55 in
   let v57 := fst v56 in
   let v58 := snd v56 in
   let o59 := unwrap_parse (from_str SingleS (bytes "-0x1p-128")) in
   let v60 := get junk o59 in
   let o61 := op_div SingleS v6 v11 in
   let v62 := get (0, junk) o61 in
   let v63 := fst v62 in
   let v64 := snd v62 in
   let o65 := unwrap_parse (from_str SingleS (bytes "inf")) in
   all_true [
      bitwise_eq v16 v18;
      returns o19;
      DIV_BY_ZERO =? v21;
      category_eqb Infinity (category v22);
      returns o23;
      bitwise_eq v22 v24;
      returns o25;
      OK =? v27;
      category_eqb NaN (category v28);
      returns o29;
      bitwise_eq v28 v30;
      returns o31;
      INVALID_OP =? v33;
      category_eqb NaN (category v34);
      returns o35;
      bitwise_eq v34 v36;
      returns o37;
      OK =? v39;
      category_eqb Normal (category v40);
      returns o41;
      bitwise_eq v40 v42;
      returns o43;
      OK =? v45;
      category_eqb Normal (category v46);
      returns o47;
      bitwise_eq v46 v48;
      returns o49;
      v13 =? v51;
      category_eqb Normal (category v52);
      returns o53;
      bitwise_eq v52 v54;
      returns o55;
      v13 =? v57;
      category_eqb Normal (category v58);
      returns o59;
      bitwise_eq v58 v60;
      returns o61;
      v12 =? v63;
      category_eqb Infinity (category v64);
      returns o65]) = true.
Proof. vm_compute. reflexivity. Qed.

Example test_divide_13 : (
   let v0 := INFINITY SingleS in
   let v1 := neg (INFINITY SingleS) in
   let v2 := ZERO SingleS in
   let v3 := neg (ZERO SingleS) in
   let v4 := NAN SingleS in
   let o5 := unwrap_parse (from_str SingleS (bytes "0x1p+0")) in
   let v6 := get junk o5 in
   let o7 := unwrap_parse (from_str SingleS (bytes "-0x1p+0")) in
   let v8 := get junk o7 in
   let v9 := SMALLEST SingleS in
   let v10 := neg (SMALLEST SingleS) in
   let v11 := smallest_normalized SingleS in
   let v12 := neg (smallest_normalized SingleS) in
   let v13 := Z.lor OVERFLOW INEXACT in
   let o14 := op_div SingleS v6 v9 in
   let v15 := get (0, junk) o14 in
   let v16 := snd v15 in
   let o17 := unwrap_parse (from_str SingleS (bytes "inf")) in
   let v18 := get junk o17 in
   let o19 := op_div SingleS v6 v10 in
   let v20 := get (0, junk) o19 in
   let v21 := fst v20 in
   let v22 := snd v20 in
   let o23 := unwrap_parse (from_str SingleS (bytes "-inf")) in
   let v24 := get junk o23 in
   let o25 := op_div SingleS v6 v11 in
   let v26 := get (0, junk) o25 in
   let v27 := fst v26 in
   let v28 := snd v26 in
   let o29 := unwrap_parse (from_str SingleS (bytes "0x1p+126")) in
   let v30 := get junk o29 in
   let o31 := op_div SingleS v6 v12 in
   let v32 := get (0, junk) o31 in
   let v33 := fst v32 in
   let v34 := snd v32 in
   let o35 := unwrap_parse (from_str SingleS (bytes "-0x1p+126")) in
   let v36 := get junk o35 in
   let o37 := op_div SingleS v8 v0 in
   let v38 := get (0, junk) o37 in
   let v39 := fst v38 in
   let v40 := snd v38 in
   let o41 := unwrap_parse (from_str SingleS (bytes "-0x0p+0")) in
   let v42 := get junk o41 in
   let o43 := op_div SingleS v8 v1 in
   let v44 := get (0, junk) o43 in
   let v45 := fst v44 in
   let v46 := snd v44 in
   let o47 := unwrap_parse (from_str SingleS (bytes "0x0p+0")) in
   let v48 := get junk o47 in
   let o49 := op_div SingleS v8 v2 in
   let v50 := get (0, junk) o49 in
   let v51 := fst v50 in
   let v52 := snd v50 in
   let o53 := unwrap_parse (from_str SingleS (bytes "-inf")) in
   let v54 := get junk o53 in
   let o55 := op_div SingleS v8 v3 in
   let v56 := get (0, junk) o55 in
   let v57 := fst v56 in
   let v58 := snd v56 in
   let o59 := unwrap_parse (from_str SingleS (bytes "inf")) in
   let v60 := get junk o59 in
   let o61 := op_div SingleS v8 v4 in
   let v62 := get (0, junk) o61 in
   let v63 := fst v62 in
   let v64 := snd v62 in
   let o65 := unwrap_parse (from_str SingleS (bytes "nan")) in
   all_true [
      bitwise_eq v16 v18;
      returns o19;
      v13 =? v21;
      category_eqb Infinity (category v22);
      returns o23;
      bitwise_eq v22 v24;
      returns o25;
      OK =? v27;
      category_eqb Normal (category v28);
      returns o29;
      bitwise_eq v28 v30;
      returns o31;
      OK =? v33;
      category_eqb Normal (category v34);
      returns o35;
      bitwise_eq v34 v36;
      returns o37;
      OK =? v39;
      category_eqb Zero (category v40);
      returns o41;
      bitwise_eq v40 v42;
      returns o43;
      OK =? v45;
      category_eqb Zero (category v46);
      returns o47;
      bitwise_eq v46 v48;
      returns o49;
      DIV_BY_ZERO =? v51;
      category_eqb Infinity (category v52);
      returns o53;
      bitwise_eq v52 v54;
      returns o55;
      DIV_BY_ZERO =? v57;
      category_eqb Infinity (category v58);
      returns o59;
      bitwise_eq v58 v60;
      returns o61;
      OK =? v63;
      category_eqb NaN (category v64);
      returns o65]) = true.
Proof. vm_compute. reflexivity. Qed.

Example test_divide_14 : (
   let v0 := NAN SingleS in
   let o1 := unwrap_parse (from_str SingleS (bytes "snan123")) in
   let v2 := get junk o1 in
   let o3 := unwrap_parse (from_str SingleS (bytes "0x1p+0")) in
   let v4 := get junk o3 in
   let o5 := unwrap_parse (from_str SingleS (bytes "-0x1p+0")) in
   let v6 := get junk o5 in
   let v7 := largest SingleS in
   let v8 := neg (largest SingleS) in
   let v9 := SMALLEST SingleS in
   let v10 := neg (SMALLEST SingleS) in
   let v11 := smallest_normalized SingleS in
   let v12 := Z.lor OVERFLOW INEXACT in
   let v13 := Z.lor UNDERFLOW INEXACT in
   let o14 := op_div SingleS v6 v0 in
   let v15 := get (0, junk) o14 in
   let v16 := snd v15 in
   let o17 := unwrap_parse (from_str SingleS (bytes "nan")) in
   let v18 := get junk o17 in
   let o19 := op_div SingleS v6 v2 in
   let v20 := get (0, junk) o19 in
   let v21 := fst v20 in
   let v22 := snd v20 in
   let o23 := unwrap_parse (from_str SingleS (bytes "nan123")) in
   let v24 := get junk o23 in
   let o25 := op_div SingleS v6 v4 in
   let v26 := get (0, junk) o25 in
   let v27 := fst v26 in
   let v28 := snd v26 in
   let o29 := unwrap_parse (from_str SingleS (bytes "-0x1p+0")) in
   let v30 := get junk o29 in
   let o31 := op_div SingleS v6 v6 in
   let v32 := get (0, junk) o31 in
   let v33 := fst v32 in
   let v34 := snd v32 in
   let o35 := unwrap_parse (from_str SingleS (bytes "0x1p+0")) in
   let v36 := get junk o35 in
   let o37 := op_div SingleS v6 v7 in
   let v38 := get (0, junk) o37 in
   let v39 := fst v38 in
   let v40 := snd v38 in
   let o41 := unwrap_parse (from_str SingleS (bytes "-0x1p-128")) in
   let v42 := get junk o41 in
   let o43 := op_div SingleS v6 v8 in
   let v44 := get (0, junk) o43 in
   let v45 := fst v44 in
   let v46 := snd v44 in
   let o47 := unwrap_parse (from_str SingleS (bytes "0x1p-128")) in
   let v48 := get junk o47 in
   let o49 := op_div SingleS v6 v9 in
   let v50 := get (0, junk) o49 in
   let v51 := fst v50 in
   let v52 := snd v50 in
   let o53 := unwrap_parse (from_str SingleS (bytes "-inf")) in
   let v54 := get junk o53 in
   let o55 := op_div SingleS v6 v10 in
   let v56 := get (0, junk) o55 in
   let v57 := fst v56 in
   let v58 := snd v56 in
   let o59 := unwrap_parse (from_str SingleS (bytes "inf")) in
   let v60 := get junk o59 in
   let o61 := op_div SingleS v6 v11 in
   let v62 := get (0, junk) o61 in
   let v63 := fst v62 in
   let v64 := snd v62 in
   let o65 := unwrap_parse (from_str SingleS (bytes "-0x1p+126")) in
   all_true [
      bitwise_eq v16 v18;
      returns o19;
      INVALID_OP =? v21;
      category_eqb NaN (category v22);
      returns o23;
      bitwise_eq v22 v24;
      returns o25;
      OK =? v27;
      category_eqb Normal (category v28);
      returns o29;
      bitwise_eq v28 v30;
      returns o31;
      OK =? v33;
      category_eqb Normal (category v34);
      returns o35;
      bitwise_eq v34 v36;
      returns o37;
      v13 =? v39;
      category_eqb Normal (category v40);
      returns o41;
      bitwise_eq v40 v42;
      returns o43;
      v13 =? v45;
      category_eqb Normal (category v46);
      returns o47;
      bitwise_eq v46 v48;
      returns o49;
      v12 =? v51;
      category_eqb Infinity (category v52);
      returns o53;
      bitwise_eq v52 v54;
      returns o55;
      v12 =? v57;
      category_eqb Infinity (category v58);
      returns o59;
      bitwise_eq v58 v60;
      returns o61;
      OK =? v63;
      category_eqb Normal (category v64);
      returns o65]) = true.
Proof. vm_compute. reflexivity. Qed.

Example test_divide_15 : (
   let v0 := INFINITY SingleS in
   let v1 := neg (INFINITY SingleS) in
   let v2 := ZERO SingleS in
   let v3 := neg (ZERO SingleS) in
   let v4 := NAN SingleS in
   let o5 := unwrap_parse (from_str SingleS (bytes "snan123")) in
   let v6 := get junk o5 in
   let o7 := unwrap_parse (from_str SingleS (bytes "0x1p+0")) in
   let v8 := get junk o7 in
   let o9 := unwrap_parse (from_str SingleS (bytes "-0x1p+0")) in
   let v10 := get junk o9 in
   let v11 := largest SingleS in
   let v12 := smallest_normalized SingleS in
   let v13 := neg (smallest_normalized SingleS) in
   let o14 := op_div SingleS v10 v12 in
   let v15 := get (0, junk) o14 in
   let v16 := snd v15 in
   let o17 := unwrap_parse (from_str SingleS (bytes "-0x1p+126")) in
   let v18 := get junk o17 in
   let o19 := op_div SingleS v10 v13 in
   let v20 := get (0, junk) o19 in
   let v21 := fst v20 in
   let v22 := snd v20 in
   let o23 := unwrap_parse (from_str SingleS (bytes "0x1p+126")) in
   let v24 := get junk o23 in
   let o25 := op_div SingleS v11 v0 in
   let v26 := get (0, junk) o25 in
   let v27 := fst v26 in
   let v28 := snd v26 in
   let o29 := unwrap_parse (from_str SingleS (bytes "0x0p+0")) in
   let v30 := get junk o29 in
   let o31 := op_div SingleS v11 v1 in
   let v32 := get (0, junk) o31 in
   let v33 := fst v32 in
   let v34 := snd v32 in
   let o35 := unwrap_parse (from_str SingleS (bytes "-0x0p+0")) in
   let v36 := get junk o35 in
   let o37 := op_div SingleS v11 v2 in
   let v38 := get (0, junk) o37 in
   let v39 := fst v38 in
   let v40 := snd v38 in
   let o41 := unwrap_parse (from_str SingleS (bytes "inf")) in
   let v42 := get junk o41 in
   let o43 := op_div SingleS v11 v3 in
   let v44 := get (0, junk) o43 in
   let v45 := fst v44 in
   let v46 := snd v44 in
   let o47 := unwrap_parse (from_str SingleS (bytes "-inf")) in
   let v48 := get junk o47 in
   let o49 := op_div SingleS v11 v4 in
   let v50 := get (0, junk) o49 in
   let v51 := fst v50 in
   let v52 := snd v50 in
   let o53 := unwrap_parse (from_str SingleS (bytes "nan")) in
   let v54 := get junk o53 in
   let o55 := op_div SingleS v11 v6 in
   let v56 := get (0, junk) o55 in
   let v57 := fst v56 in
   let v58 := snd v56 in
   let o59 := unwrap_parse (from_str SingleS (bytes "nan123")) in
   let v60 := get junk o59 in
   let o61 := op_div SingleS v11 v8 in
   let v62 := get (0, junk) o61 in
   let v63 := fst v62 in
   let v64 := snd v62 in
   let o65 := unwrap_parse (from_str SingleS (bytes "0x1.fffffep+127")) in
   all_true [
      bitwise_eq v16 v18;
      returns o19;
      OK =? v21;
      category_eqb Normal (category v22);
      returns o23;
      bitwise_eq v22 v24;
      returns o25;
      OK =? v27;
      category_eqb Zero (category v28);
      returns o29;
      bitwise_eq v28 v30;
      returns o31;
      OK =? v33;
      category_eqb Zero (category v34);
      returns o35;
      bitwise_eq v34 v36;
      returns o37;
      DIV_BY_ZERO =? v39;
      category_eqb Infinity (category v40);
      returns o41;
      bitwise_eq v40 v42;
      returns o43;
      DIV_BY_ZERO =? v45;
      category_eqb Infinity (category v46);
      returns o47;
      bitwise_eq v46 v48;
      returns o49;
      OK =? v51;
      category_eqb NaN (category v52);
      returns o53;
      bitwise_eq v52 v54;
      returns o55;
      INVALID_OP =? v57;
      category_eqb NaN (category v58);
      returns o59;
      bitwise_eq v58 v60;
      returns o61;
      OK =? v63;
      category_eqb Normal (category v64);
      returns o65]) = true.
Proof. vm_compute. reflexivity. Qed.

Example test_divide_16 : (
   let v0 := INFINITY SingleS in
   let o1 := unwrap_parse (from_str SingleS (bytes "0x1p+0")) in
   let v2 := get junk o1 in
   let o3 := unwrap_parse (from_str SingleS (bytes "-0x1p+0")) in
   let v4 := get junk o3 in
   let v5 := largest SingleS in
   let v6 := neg (largest SingleS) in
   let v7 := SMALLEST SingleS in
   let v8 := neg (SMALLEST SingleS) in
   let v9 := smallest_normalized SingleS in
   let v10 := neg (smallest_normalized SingleS) in
   let v11 := Z.lor OVERFLOW INEXACT in
   let o12 := op_div SingleS v5 v2 in
   let v13 := get (0, junk) o12 in
   let v14 := snd v13 in
   let o15 := unwrap_parse (from_str SingleS (bytes "0x1.fffffep+127")) in
   let v16 := get junk o15 in
   let o17 := op_div SingleS v5 v4 in
   let v18 := get (0, junk) o17 in
   let v19 := fst v18 in
   let v20 := snd v18 in
   let o21 := unwrap_parse (from_str SingleS (bytes "-0x1.fffffep+127")) in
   let v22 := get junk o21 in
   let o23 := op_div SingleS v5 v5 in
   let v24 := get (0, junk) o23 in
   let v25 := fst v24 in
   let v26 := snd v24 in
   let o27 := unwrap_parse (from_str SingleS (bytes "0x1p+0")) in
   let v28 := get junk o27 in
   let o29 := op_div SingleS v5 v6 in
   let v30 := get (0, junk) o29 in
   let v31 := fst v30 in
   let v32 := snd v30 in
   let o33 := unwrap_parse (from_str SingleS (bytes "-0x1p+0")) in
   let v34 := get junk o33 in
   let o35 := op_div SingleS v5 v7 in
   let v36 := get (0, junk) o35 in
   let v37 := fst v36 in
   let v38 := snd v36 in
   let o39 := unwrap_parse (from_str SingleS (bytes "inf")) in
   let v40 := get junk o39 in
   let o41 := op_div SingleS v5 v8 in
   let v42 := get (0, junk) o41 in
   let v43 := fst v42 in
   let v44 := snd v42 in
   let o45 := unwrap_parse (from_str SingleS (bytes "-inf")) in
   let v46 := get junk o45 in
   let o47 := op_div SingleS v5 v9 in
   let v48 := get (0, junk) o47 in
   let v49 := fst v48 in
   let v50 := snd v48 in
   let o51 := unwrap_parse (from_str SingleS (bytes "inf")) in
   let v52 := get junk o51 in
   let o53 := op_div SingleS v5 v10 in
   let v54 := get (0, junk) o53 in
   let v55 := fst v54 in
   let v56 := snd v54 in
   let o57 := unwrap_parse (from_str SingleS (bytes "-inf")) in
   let v58 := get junk o57 in
   let o59 := op_div SingleS v6 v0 in
   let v60 := get (0, junk) o59 in
   let v61 := fst v60 in
   let v62 := snd v60 in
   let o63 := unwrap_parse (from_str SingleS (bytes "-0x0p+0")) in
   all_true [
      bitwise_eq v14 v16;
      returns o17;
      OK =? v19;
      category_eqb Normal (category v20);
      returns o21;
      bitwise_eq v20 v22;
      returns o23;
      OK =? v25;
      category_eqb Normal (category v26);
      returns o27;
      bitwise_eq v26 v28;
      returns o29;
      OK =? v31;
      category_eqb Normal (category v32);
      returns o33;
      bitwise_eq v32 v34;
      returns o35;
      v11 =? v37;
      category_eqb Infinity (category v38);
      returns o39;
      bitwise_eq v38 v40;
      returns o41;
      v11 =? v43;
      category_eqb Infinity (category v44);
      returns o45;
      bitwise_eq v44 v46;
      returns o47;
      v11 =? v49;
      category_eqb Infinity (category v50);
      returns o51;
      bitwise_eq v50 v52;
      returns o53;
      v11 =? v55;
      category_eqb Infinity (category v56);
      returns o57;
      bitwise_eq v56 v58;
      returns o59;
      OK =? v61;
      category_eqb Zero (category v62);
      returns o63]) = true.
Proof. vm_compute. reflexivity. Qed.

Example test_divide_17 : (
   let v0 := INFINITY SingleS in
   let v1 := neg (INFINITY SingleS) in
   let v2 := ZERO SingleS in
   let v3 := neg (ZERO SingleS) in
   let v4 := NAN SingleS in
   let o5 := unwrap_parse (from_str SingleS (bytes "snan123")) in
   let v6 := get junk o5 in
   let o7 := unwrap_parse (from_str SingleS (bytes "0x1p+0")) in
   let v8 := get junk o7 in
   let o9 := unwrap_parse (from_str SingleS (bytes "-0x1p+0")) in
   let v10 := get junk o9 in
   let v11 := largest SingleS in
   let v12 := neg (largest SingleS) in
   let o13 := op_div SingleS v12 v0 in
   let v14 := get (0, junk) o13 in
   let v15 := snd v14 in
   let o16 := unwrap_parse (from_str SingleS (bytes "-0x0p+0")) in
   let v17 := get junk o16 in
   let o18 := op_div SingleS v12 v1 in
   let v19 := get (0, junk) o18 in
   let v20 := fst v19 in
   let v21 := snd v19 in
   let o22 := unwrap_parse (from_str SingleS (bytes "0x0p+0")) in
   let v23 := get junk o22 in
   let o24 := op_div SingleS v12 v2 in
   let v25 := get (0, junk) o24 in
   let v26 := fst v25 in
   let v27 := snd v25 in
   let o28 := unwrap_parse (from_str SingleS (bytes "-inf")) in
   let v29 := get junk o28 in
   let o30 := op_div SingleS v12 v3 in
   let v31 := get (0, junk) o30 in
   let v32 := fst v31 in
   let v33 := snd v31 in
   let o34 := unwrap_parse (from_str SingleS (bytes "inf")) in
   let v35 := get junk o34 in
   let o36 := op_div SingleS v12 v4 in
   let v37 := get (0, junk) o36 in
   let v38 := fst v37 in
   let v39 := snd v37 in
   let o40 := unwrap_parse (from_str SingleS (bytes "nan")) in
   let v41 := get junk o40 in
   let o42 := op_div SingleS v12 v6 in
   let v43 := get (0, junk) o42 in
   let v44 := fst v43 in
   let v45 := snd v43 in
   let o46 := unwrap_parse (from_str SingleS (bytes "nan123")) in
   let v47 := get junk o46 in
   let o48 := op_div SingleS v12 v8 in
   let v49 := get (0, junk) o48 in
   let v50 := fst v49 in
   let v51 := snd v49 in
   let o52 := unwrap_parse (from_str SingleS (bytes "-0x1.fffffep+127")) in
   let v53 := get junk o52 in
   let o54 := op_div SingleS v12 v10 in
   let v55 := get (0, junk) o54 in
   let v56 := fst v55 in
   let v57 := snd v55 in
   let o58 := unwrap_parse (from_str SingleS (bytes "0x1.fffffep+127")) in
   let v59 := get junk o58 in
   let o60 := op_div SingleS v12 v11 in
   let v61 := get (0, junk) o60 in
   let v62 := fst v61 in
   let v63 := snd v61 in
   let o64 := unwrap_parse (from_str SingleS (bytes "-0x1p+0")) in
   all_true [
      bitwise_eq v15 v17;
      returns o18;
      OK =? v20;
      category_eqb Zero (category v21);
      returns o22;
      bitwise_eq v21 v23;
      returns o24;
      DIV_BY_ZERO =? v26;
      category_eqb Infinity (category v27);
      returns o28;
      bitwise_eq v27 v29;
      returns o30;
      DIV_BY_ZERO =? v32;
      category_eqb Infinity (category v33);
      returns o34;
      bitwise_eq v33 v35;
      returns o36;
      OK =? v38;
      category_eqb NaN (category v39);
      returns o40;
      bitwise_eq v39 v41;
      returns o42;
      INVALID_OP =? v44;
      category_eqb NaN (category v45);
      returns o46;
      bitwise_eq v45 v47;
      returns o48;
      OK =? v50;
      category_eqb Normal (category v51);
      returns o52;
      bitwise_eq v51 v53;
      returns o54;
      OK =? v56;
      category_eqb Normal (category v57);
      returns o58;
      bitwise_eq v57 v59;
      returns o60;
      OK =? v62;
      category_eqb Normal (category v63);
      returns o64]) = true.
Proof. vm_compute. reflexivity. Qed.

Example test_divide_18 : (
   let v0 := INFINITY SingleS in
   let v1 := neg (INFINITY SingleS) in
   let v2 := ZERO SingleS in
   let v3 := largest SingleS in
   let v4 := neg (largest SingleS) in
   let v5 := SMALLEST SingleS in
   let v6 := neg (SMALLEST SingleS) in
   let v7 := smallest_normalized SingleS in
   let v8 := neg (smallest_normalized SingleS) in
   let v9 := Z.lor OVERFLOW INEXACT in
   let o10 := op_div SingleS v4 v3 in
   let v11 := get (0, junk) o10 in
   let v12 := snd v11 in
   let o13 := unwrap_parse (from_str SingleS (bytes "-0x1p+0")) in
   let v14 := get junk o13 in
   let o15 := op_div SingleS v4 v4 in
   let v16 := get (0, junk) o15 in
   let v17 := fst v16 in
   let v18 := snd v16 in
   let o19 := unwrap_parse (from_str SingleS (bytes "0x1p+0")) in
   let v20 := get junk o19 in
   let o21 := op_div SingleS v4 v5 in
   let v22 := get (0, junk) o21 in
   let v23 := fst v22 in
   let v24 := snd v22 in
   let o25 := unwrap_parse (from_str SingleS (bytes "-inf")) in
   let v26 := get junk o25 in
   let o27 := op_div SingleS v4 v6 in
   let v28 := get (0, junk) o27 in
   let v29 := fst v28 in
   let v30 := snd v28 in
   let o31 := unwrap_parse (from_str SingleS (bytes "inf")) in
   let v32 := get junk o31 in
   let o33 := op_div SingleS v4 v7 in
   let v34 := get (0, junk) o33 in
   let v35 := fst v34 in
   let v36 := snd v34 in
   let o37 := unwrap_parse (from_str SingleS (bytes "-inf")) in
   let v38 := get junk o37 in
   let o39 := op_div SingleS v4 v8 in
   let v40 := get (0, junk) o39 in
   let v41 := fst v40 in
   let v42 := snd v40 in
   let o43 := unwrap_parse (from_str SingleS (bytes "inf")) in
   let v44 := get junk o43 in
   let o45 := op_div SingleS v5 v0 in
   let v46 := get (0, junk) o45 in
   let v47 := fst v46 in
   let v48 := snd v46 in
   let o49 := unwrap_parse (from_str SingleS (bytes "0x0p+0")) in
   let v50 := get junk o49 in
   let o51 := op_div SingleS v5 v1 in
   let v52 := get (0, junk) o51 in
   let v53 := fst v52 in
   let v54 := snd v52 in
   let o55 := unwrap_parse (from_str SingleS (bytes "-0x0p+0")) in
   let v56 := get junk o55 in
   let o57 := op_div SingleS v5 v2 in
   let v58 := get (0, junk) o57 in
   let v59 := fst v58 in
   let v60 := snd v58 in
   let o61 := unwrap_parse (from_str SingleS (bytes "inf")) in
   all_true [
      bitwise_eq v12 v14;
      returns o15;
      OK =? v17;
      category_eqb Normal (category v18);
      returns o19;
      bitwise_eq v18 v20;
      returns o21;
      v9 =? v23;
      category_eqb Infinity (category v24);
      returns o25;
      bitwise_eq v24 v26;
      returns o27;
      v9 =? v29;
      category_eqb Infinity (category v30);
      returns o31;
      bitwise_eq v30 v32;
      returns o33;
      v9 =? v35;
      category_eqb Infinity (category v36);
      returns o37;
      bitwise_eq v36 v38;
      returns o39;
      v9 =? v41;
      category_eqb Infinity (category v42);
      returns o43;
      bitwise_eq v42 v44;
      returns o45;
      OK =? v47;
      category_eqb Zero (category v48);
      returns o49;
      bitwise_eq v48 v50;
      returns o51;
      OK =? v53;
      category_eqb Zero (category v54);
      returns o55;
      bitwise_eq v54 v56;
      returns o57;
      DIV_BY_ZERO =? v59;
      category_eqb Infinity (category v60);
      returns o61]) = true.
Proof. vm_compute. reflexivity. Qed.

Example test_divide_19 : (
   let v0 := ZERO SingleS in
   let v1 := neg (ZERO SingleS) in
   let v2 := NAN SingleS in
   let o3 := unwrap_parse (from_str SingleS (bytes "snan123")) in
   let v4 := get junk o3 in
   let o5 := unwrap_parse (from_str SingleS (bytes "0x1p+0")) in
   let v6 := get junk o5 in
   let o7 := unwrap_parse (from_str SingleS (bytes "-0x1p+0")) in
   let v8 := get junk o7 in
   let v9 := largest SingleS in
   let v10 := neg (largest SingleS) in
   let v11 := SMALLEST SingleS in
   let v12 := Z.lor UNDERFLOW INEXACT in
   let o13 := op_div SingleS v11 v0 in
   let v14 := get (0, junk) o13 in
   let v15 := snd v14 in
   let o16 := unwrap_parse (from_str SingleS (bytes "inf")) in
   let v17 := get junk o16 in
   let o18 := op_div SingleS v11 v1 in
   let v19 := get (0, junk) o18 in
   let v20 := fst v19 in
   let v21 := snd v19 in
   let o22 := unwrap_parse (from_str SingleS (bytes "-inf")) in
   let v23 := get junk o22 in
   let o24 := op_div SingleS v11 v2 in
   let v25 := get (0, junk) o24 in
   let v26 := fst v25 in
   let v27 := snd v25 in
   let o28 := unwrap_parse (from_str SingleS (bytes "nan")) in
   let v29 := get junk o28 in
   let o30 := op_div SingleS v11 v4 in
   let v31 := get (0, junk) o30 in
   let v32 := fst v31 in
   let v33 := snd v31 in
   let o34 := unwrap_parse (from_str SingleS (bytes "nan123")) in
   let v35 := get junk o34 in
   let o36 := op_div SingleS v11 v6 in
   let v37 := get (0, junk) o36 in
   let v38 := fst v37 in
   let v39 := snd v37 in
   let o40 := unwrap_parse (from_str SingleS (bytes "0x1p-149")) in
   let v41 := get junk o40 in
   let o42 := op_div SingleS v11 v8 in
   let v43 := get (0, junk) o42 in
   let v44 := fst v43 in
   let v45 := snd v43 in
   let o46 := unwrap_parse (from_str SingleS (bytes "-0x1p-149")) in
   let v47 := get junk o46 in
   let o48 := op_div SingleS v11 v9 in
   let v49 := get (0, junk) o48 in
   let v50 := fst v49 in
   let v51 := snd v49 in
   let o52 := unwrap_parse (from_str SingleS (bytes "0x0p+0")) in
   let v53 := get junk o52 in
   let o54 := op_div SingleS v11 v10 in
   let v55 := get (0, junk) o54 in
   let v56 := fst v55 in
   let v57 := snd v55 in
   let o58 := unwrap_parse (from_str SingleS (bytes "-0x0p+0")) in
   let v59 := get junk o58 in
   let o60 := op_div SingleS v11 v11 in
   let v61 := get (0, junk) o60 in
   let v62 := fst v61 in
   let v63 := snd v61 in
   let o64 := unwrap_parse (from_str SingleS (bytes "0x1p+0")) in
   all_true [
      bitwise_eq v15 v17;
      returns o18;
      DIV_BY_ZERO =? v20;
      category_eqb Infinity (category v21);
      returns o22;
      bitwise_eq v21 v23;
      returns o24;
      OK =? v26;
      category_eqb NaN (category v27);
      returns o28;
      bitwise_eq v27 v29;
      returns o30;
      INVALID_OP =? v32;
      category_eqb NaN (category v33);
      returns o34;
      bitwise_eq v33 v35;
      returns o36;
      OK =? v38;
      category_eqb Normal (category v39);
      returns o40;
      bitwise_eq v39 v41;
      returns o42;
      OK =? v44;
      category_eqb Normal (category v45);
      returns o46;
      bitwise_eq v45 v47;
      returns o48;
      v12 =? v50;
      category_eqb Zero (category v51);
      returns o52;
      bitwise_eq v51 v53;
      returns o54;
      v12 =? v56;
      category_eqb Zero (category v57);
      returns o58;
      bitwise_eq v57 v59;
      returns o60;
      OK =? v62;
      category_eqb Normal (category v63);
      returns o64]) = true.
Proof. vm_compute. reflexivity. Qed.

Example test_divide_20 : (
   let v0 := INFINITY SingleS in
   let v1 := neg (INFINITY SingleS) in
   let v2 := ZERO SingleS in
   let v3 := neg (ZERO SingleS) in
   let v4 := NAN SingleS in
   let v5 := SMALLEST SingleS in
   let v6 := neg (SMALLEST SingleS) in
   let v7 := smallest_normalized SingleS in
   let v8 := neg (smallest_normalized SingleS) in
   let o9 := op_div SingleS v5 v5 in
   let v10 := get (0, junk) o9 in
   let v11 := snd v10 in
   let o12 := unwrap_parse (from_str SingleS (bytes "0x1p+0")) in
   let v13 := get junk o12 in
   let o14 := op_div SingleS v5 v6 in
   let v15 := get (0, junk) o14 in
   let v16 := fst v15 in
   let v17 := snd v15 in
   let o18 := unwrap_parse (from_str SingleS (bytes "-0x1p+0")) in
   let v19 := get junk o18 in
   let o20 := op_div SingleS v5 v7 in
   let v21 := get (0, junk) o20 in
   let v22 := fst v21 in
   let v23 := snd v21 in
   let o24 := unwrap_parse (from_str SingleS (bytes "0x1p-23")) in
   let v25 := get junk o24 in
   let o26 := op_div SingleS v5 v8 in
   let v27 := get (0, junk) o26 in
   let v28 := fst v27 in
   let v29 := snd v27 in
   let o30 := unwrap_parse (from_str SingleS (bytes "-0x1p-23")) in
   let v31 := get junk o30 in
   let o32 := op_div SingleS v6 v0 in
   let v33 := get (0, junk) o32 in
   let v34 := fst v33 in
   let v35 := snd v33 in
   let o36 := unwrap_parse (from_str SingleS (bytes "-0x0p+0")) in
   let v37 := get junk o36 in
   let o38 := op_div SingleS v6 v1 in
   let v39 := get (0, junk) o38 in
   let v40 := fst v39 in
   let v41 := snd v39 in
   let o42 := unwrap_parse (from_str SingleS (bytes "0x0p+0")) in
   let v43 := get junk o42 in
   let o44 := op_div SingleS v6 v2 in
   let v45 := get (0, junk) o44 in
   let v46 := fst v45 in
   let v47 := snd v45 in
   let o48 := unwrap_parse (from_str SingleS (bytes "-inf")) in
   let v49 := get junk o48 in
   let o50 := op_div SingleS v6 v3 in
   let v51 := get (0, junk) o50 in
   let v52 := fst v51 in
   let v53 := snd v51 in
   let o54 := unwrap_parse (from_str SingleS (bytes "inf")) in
   let v55 := get junk o54 in
   let o56 := op_div SingleS v6 v4 in
   let v57 := get (0, junk) o56 in
   let v58 := fst v57 in
   let v59 := snd v57 in
   let o60 := unwrap_parse (from_str SingleS (bytes "nan")) in
   all_true [
      bitwise_eq v11 v13;
      returns o14;
      OK =? v16;
      category_eqb Normal (category v17);
      returns o18;
      bitwise_eq v17 v19;
      returns o20;
      OK =? v22;
      category_eqb Normal (category v23);
      returns o24;
      bitwise_eq v23 v25;
      returns o26;
      OK =? v28;
      category_eqb Normal (category v29);
      returns o30;
      bitwise_eq v29 v31;
      returns o32;
      OK =? v34;
      category_eqb Zero (category v35);
      returns o36;
      bitwise_eq v35 v37;
      returns o38;
      OK =? v40;
      category_eqb Zero (category v41);
      returns o42;
      bitwise_eq v41 v43;
      returns o44;
      DIV_BY_ZERO =? v46;
      category_eqb Infinity (category v47);
      returns o48;
      bitwise_eq v47 v49;
      returns o50;
      DIV_BY_ZERO =? v52;
      category_eqb Infinity (category v53);
      returns o54;
      bitwise_eq v53 v55;
      returns o56;
      OK =? v58;
      category_eqb NaN (category v59);
      returns o60]) = true.
Proof. vm_compute. reflexivity. Qed.

Example test_divide_21 : (
   let v0 := NAN SingleS in
   let o1 := unwrap_parse (from_str SingleS (bytes "snan123")) in
   let v2 := get junk o1 in
   let o3 := unwrap_parse (from_str SingleS (bytes "0x1p+0")) in
   let v4 := get junk o3 in
   let o5 := unwrap_parse (from_str SingleS (bytes "-0x1p+0")) in
   let v6 := get junk o5 in
   let v7 := largest SingleS in
   let v8 := neg (largest SingleS) in
   let v9 := SMALLEST SingleS in
   let v10 := neg (SMALLEST SingleS) in
   let v11 := smallest_normalized SingleS in
   let v12 := Z.lor UNDERFLOW INEXACT in
   let o13 := op_div SingleS v10 v0 in
   let v14 := get (0, junk) o13 in
   let v15 := snd v14 in
   let o16 := unwrap_parse (from_str SingleS (bytes "nan")) in
   let v17 := get junk o16 in
   let o18 := op_div SingleS v10 v2 in
   let v19 := get (0, junk) o18 in
   let v20 := fst v19 in
   let v21 := snd v19 in
   let o22 := unwrap_parse (from_str SingleS (bytes "nan123")) in
   let v23 := get junk o22 in
   let o24 := op_div SingleS v10 v4 in
   let v25 := get (0, junk) o24 in
   let v26 := fst v25 in
   let v27 := snd v25 in
   let o28 := unwrap_parse (from_str SingleS (bytes "-0x1p-149")) in
   let v29 := get junk o28 in
   let o30 := op_div SingleS v10 v6 in
   let v31 := get (0, junk) o30 in
   let v32 := fst v31 in
   let v33 := snd v31 in
   let o34 := unwrap_parse (from_str SingleS (bytes "0x1p-149")) in
   let v35 := get junk o34 in
   let o36 := op_div SingleS v10 v7 in
   let v37 := get (0, junk) o36 in
   let v38 := fst v37 in
   let v39 := snd v37 in
   let o40 := unwrap_parse (from_str SingleS (bytes "-0x0p+0")) in
   let v41 := get junk o40 in
   let o42 := op_div SingleS v10 v8 in
   let v43 := get (0, junk) o42 in
   let v44 := fst v43 in
   let v45 := snd v43 in
   let o46 := unwrap_parse (from_str SingleS (bytes "0x0p+0")) in
   let v47 := get junk o46 in
   let o48 := op_div SingleS v10 v9 in
   let v49 := get (0, junk) o48 in
   let v50 := fst v49 in
   let v51 := snd v49 in
   let o52 := unwrap_parse (from_str SingleS (bytes "-0x1p+0")) in
   let v53 := get junk o52 in
   let o54 := op_div SingleS v10 v10 in
   let v55 := get (0, junk) o54 in
   let v56 := fst v55 in
   let v57 := snd v55 in
   let o58 := unwrap_parse (from_str SingleS (bytes "0x1p+0")) in
   let v59 := get junk o58 in
   let o60 := op_div SingleS v10 v11 in
   let v61 := get (0, junk) o60 in
   let v62 := fst v61 in
   let v63 := snd v61 in
   let o64 := unwrap_parse (from_str SingleS (bytes "-0x1p-23")) in
   all_true [
      bitwise_eq v15 v17;
      returns o18;
      INVALID_OP =? v20;
      category_eqb NaN (category v21);
      returns o22;
      bitwise_eq v21 v23;
      returns o24;
      OK =? v26;
      category_eqb Normal (category v27);
      returns o28;
      bitwise_eq v27 v29;
      returns o30;
      OK =? v32;
      category_eqb Normal (category v33);
      returns o34;
      bitwise_eq v33 v35;
      returns o36;
      v12 =? v38;
      category_eqb Zero (category v39);
      returns o40;
      bitwise_eq v39 v41;
      returns o42;
      v12 =? v44;
      category_eqb Zero (category v45);
      returns o46;
      bitwise_eq v45 v47;
      returns o48;
      OK =? v50;
      category_eqb Normal (category v51);
      returns o52;
      bitwise_eq v51 v53;
      returns o54;
      OK =? v56;
      category_eqb Normal (category v57);
      returns o58;
      bitwise_eq v57 v59;
      returns o60;
      OK =? v62;
      category_eqb Normal (category v63);
      returns o64]) = true.
Proof. vm_compute. reflexivity. Qed.

Example test_divide_22 : (
   let v0 := INFINITY SingleS in
   let v1 := neg (INFINITY SingleS) in
   let v2 := ZERO SingleS in
   let v3 := neg (ZERO SingleS) in
   let v4 := NAN SingleS in
   let o5 := unwrap_parse (from_str SingleS (bytes "snan123")) in
   let v6 := get junk o5 in
   let o7 := unwrap_parse (from_str SingleS (bytes "0x1p+0")) in
   let v8 := get junk o7 in
   let v9 := neg (SMALLEST SingleS) in
   let v10 := smallest_normalized SingleS in
   let v11 := neg (smallest_normalized SingleS) in
   let o12 := op_div SingleS v9 v10 in
   let v13 := get (0, junk) o12 in
   let v14 := snd v13 in
   let o15 := unwrap_parse (from_str SingleS (bytes "-0x1p-23")) in
   let v16 := get junk o15 in
   let o17 := op_div SingleS v9 v11 in
   let v18 := get (0, junk) o17 in
   let v19 := fst v18 in
   let v20 := snd v18 in
   let o21 := unwrap_parse (from_str SingleS (bytes "0x1p-23")) in
   let v22 := get junk o21 in
   let o23 := op_div SingleS v10 v0 in
   let v24 := get (0, junk) o23 in
   let v25 := fst v24 in
   let v26 := snd v24 in
   let o27 := unwrap_parse (from_str SingleS (bytes "0x0p+0")) in
   let v28 := get junk o27 in
   let o29 := op_div SingleS v10 v1 in
   let v30 := get (0, junk) o29 in
   let v31 := fst v30 in
   let v32 := snd v30 in
   let o33 := unwrap_parse (from_str SingleS (bytes "-0x0p+0")) in
   let v34 := get junk o33 in
   let o35 := op_div SingleS v10 v2 in
   let v36 := get (0, junk) o35 in
   let v37 := fst v36 in
   let v38 := snd v36 in
   let o39 := unwrap_parse (from_str SingleS (bytes "inf")) in
   let v40 := get junk o39 in
   let o41 := op_div SingleS v10 v3 in
   let v42 := get (0, junk) o41 in
   let v43 := fst v42 in
   let v44 := snd v42 in
   let o45 := unwrap_parse (from_str SingleS (bytes "-inf")) in
   let v46 := get junk o45 in
   let o47 := op_div SingleS v10 v4 in
   let v48 := get (0, junk) o47 in
   let v49 := fst v48 in
   let v50 := snd v48 in
   let o51 := unwrap_parse (from_str SingleS (bytes "nan")) in
   let v52 := get junk o51 in
   let o53 := op_div SingleS v10 v6 in
   let v54 := get (0, junk) o53 in
   let v55 := fst v54 in
   let v56 := snd v54 in
   let o57 := unwrap_parse (from_str SingleS (bytes "nan123")) in
   let v58 := get junk o57 in
   let o59 := op_div SingleS v10 v8 in
   let v60 := get (0, junk) o59 in
   let v61 := fst v60 in
   let v62 := snd v60 in
   let o63 := unwrap_parse (from_str SingleS (bytes "0x1p-126")) in
   all_true [
      bitwise_eq v14 v16;
      returns o17;
      OK =? v19;
      category_eqb Normal (category v20);
      returns o21;
      bitwise_eq v20 v22;
      returns o23;
      OK =? v25;
      category_eqb Zero (category v26);
      returns o27;
      bitwise_eq v26 v28;
      returns o29;
      OK =? v31;
      category_eqb Zero (category v32);
      returns o33;
      bitwise_eq v32 v34;
      returns o35;
      DIV_BY_ZERO =? v37;
      category_eqb Infinity (category v38);
      returns o39;
      bitwise_eq v38 v40;
      returns o41;
      DIV_BY_ZERO =? v43;
      category_eqb Infinity (category v44);
      returns o45;
      bitwise_eq v44 v46;
      returns o47;
      OK =? v49;
      category_eqb NaN (category v50);
      returns o51;
      bitwise_eq v50 v52;
      returns o53;
      INVALID_OP =? v55;
      category_eqb NaN (category v56);
      returns o57;
      bitwise_eq v56 v58;
      returns o59;
      OK =? v61;
      category_eqb Normal (category v62);
      returns o63]) = true.
Proof. vm_compute. reflexivity. Qed.

Example test_divide_23 : (
   let v0 := INFINITY SingleS in
   let o1 := unwrap_parse (from_str SingleS (bytes "0x1p+0")) in
   let v2 := get junk o1 in
   let o3 := unwrap_parse (from_str SingleS (bytes "-0x1p+0")) in
   let v4 := get junk o3 in
   let v5 := largest SingleS in
   let v6 := neg (largest SingleS) in
   let v7 := SMALLEST SingleS in
   let v8 := neg (SMALLEST SingleS) in
   let v9 := smallest_normalized SingleS in
   let v10 := neg (smallest_normalized SingleS) in
   let v11 := Z.lor UNDERFLOW INEXACT in
   let o12 := op_div SingleS v9 v2 in
   let v13 := get (0, junk) o12 in
   let v14 := snd v13 in
   let o15 := unwrap_parse (from_str SingleS (bytes "0x1p-126")) in
   let v16 := get junk o15 in
   let o17 := op_div SingleS v9 v4 in
   let v18 := get (0, junk) o17 in
   let v19 := fst v18 in
   let v20 := snd v18 in
   let o21 := unwrap_parse (from_str SingleS (bytes "-0x1p-126")) in
   let v22 := get junk o21 in
   let o23 := op_div SingleS v9 v5 in
   let v24 := get (0, junk) o23 in
   let v25 := fst v24 in
   let v26 := snd v24 in
   let o27 := unwrap_parse (from_str SingleS (bytes "0x0p+0")) in
   let v28 := get junk o27 in
   let o29 := op_div SingleS v9 v6 in
   let v30 := get (0, junk) o29 in
   let v31 := fst v30 in
   let v32 := snd v30 in
   let o33 := unwrap_parse (from_str SingleS (bytes "-0x0p+0")) in
   let v34 := get junk o33 in
   let o35 := op_div SingleS v9 v7 in
   let v36 := get (0, junk) o35 in
   let v37 := fst v36 in
   let v38 := snd v36 in
   let o39 := unwrap_parse (from_str SingleS (bytes "0x1p+23")) in
   let v40 := get junk o39 in
   let o41 := op_div SingleS v9 v8 in
   let v42 := get (0, junk) o41 in
   let v43 := fst v42 in
   let v44 := snd v42 in
   let o45 := unwrap_parse (from_str SingleS (bytes "-0x1p+23")) in
   let v46 := get junk o45 in
   let o47 := op_div SingleS v9 v9 in
   let v48 := get (0, junk) o47 in
   let v49 := fst v48 in
   let v50 := snd v48 in
   let o51 := unwrap_parse (from_str SingleS (bytes "0x1p+0")) in
   let v52 := get junk o51 in
   let o53 := op_div SingleS v9 v10 in
   let v54 := get (0, junk) o53 in
   let v55 := fst v54 in
   let v56 := snd v54 in
   let o57 := unwrap_parse (from_str SingleS (bytes "-0x1p+0")) in
   let v58 := get junk o57 in
   let o59 := op_div SingleS v10 v0 in
   let v60 := get (0, junk) o59 in
   let v61 := fst v60 in
   let v62 := snd v60 in
   let o63 := unwrap_parse (from_str SingleS (bytes "-0x0p+0")) in
   all_true [
      bitwise_eq v14 v16;
      returns o17;
      OK =? v19;
      category_eqb Normal (category v20);
      returns o21;
      bitwise_eq v20 v22;
      returns o23;
      v11 =? v25;
      category_eqb Zero (category v26);
      returns o27;
      bitwise_eq v26 v28;
      returns o29;
      v11 =? v31;
      category_eqb Zero (category v32);
      returns o33;
      bitwise_eq v32 v34;
      returns o35;
      OK =? v37;
      category_eqb Normal (category v38);
      returns o39;
      bitwise_eq v38 v40;
      returns o41;
      OK =? v43;
      category_eqb Normal (category v44);
      returns o45;
      bitwise_eq v44 v46;
      returns o47;
      OK =? v49;
      category_eqb Normal (category v50);
      returns o51;
      bitwise_eq v50 v52;
      returns o53;
      OK =? v55;
      category_eqb Normal (category v56);
      returns o57;
      bitwise_eq v56 v58;
      returns o59;
      OK =? v61;
      category_eqb Zero (category v62);
      returns o63]) = true.
Proof. vm_compute. reflexivity. Qed.

Example test_divide_24 : (
   let v0 := INFINITY SingleS in
   let v1 := neg (INFINITY SingleS) in
   let v2 := ZERO SingleS in
   let v3 := neg (ZERO SingleS) in
   let v4 := NAN SingleS in
   let o5 := unwrap_parse (from_str SingleS (bytes "snan123")) in
   let v6 := get junk o5 in
   let o7 := unwrap_parse (from_str SingleS (bytes "0x1p+0")) in
   let v8 := get junk o7 in
   let o9 := unwrap_parse (from_str SingleS (bytes "-0x1p+0")) in
   let v10 := get junk o9 in
   let v11 := largest SingleS in
   let v12 := neg (smallest_normalized SingleS) in
   let v13 := Z.lor UNDERFLOW INEXACT in
   let o14 := op_div SingleS v12 v0 in
   let v15 := get (0, junk) o14 in
   let v16 := snd v15 in
   let o17 := unwrap_parse (from_str SingleS (bytes "-0x0p+0")) in
   let v18 := get junk o17 in
   let o19 := op_div SingleS v12 v1 in
   let v20 := get (0, junk) o19 in
   let v21 := fst v20 in
   let v22 := snd v20 in
   let o23 := unwrap_parse (from_str SingleS (bytes "0x0p+0")) in
   let v24 := get junk o23 in
   let o25 := op_div SingleS v12 v2 in
   let v26 := get (0, junk) o25 in
   let v27 := fst v26 in
   let v28 := snd v26 in
   let o29 := unwrap_parse (from_str SingleS (bytes "-inf")) in
   let v30 := get junk o29 in
   let o31 := op_div SingleS v12 v3 in
   let v32 := get (0, junk) o31 in
   let v33 := fst v32 in
   let v34 := snd v32 in
   let o35 := unwrap_parse (from_str SingleS (bytes "inf")) in
   let v36 := get junk o35 in
   let o37 := op_div SingleS v12 v4 in
   let v38 := get (0, junk) o37 in
   let v39 := fst v38 in
   let v40 := snd v38 in
   let o41 := unwrap_parse (from_str SingleS (bytes "nan")) in
   let v42 := get junk o41 in
   let o43 := op_div SingleS v12 v6 in
   let v44 := get (0, junk) o43 in
   let v45 := fst v44 in
   let v46 := snd v44 in
   let o47 := unwrap_parse (from_str SingleS (bytes "nan123")) in
   let v48 := get junk o47 in
   let o49 := op_div SingleS v12 v8 in
   let v50 := get (0, junk) o49 in
   let v51 := fst v50 in
   let v52 := snd v50 in
   let o53 := unwrap_parse (from_str SingleS (bytes "-0x1p-126")) in
   let v54 := get junk o53 in
   let o55 := op_div SingleS v12 v10 in
   let v56 := get (0, junk) o55 in
   let v57 := fst v56 in
   let v58 := snd v56 in
   let o59 := unwrap_parse (from_str SingleS (bytes "0x1p-126")) in
   let v60 := get junk o59 in
   let o61 := op_div SingleS v12 v11 in
   let v62 := get (0, junk) o61 in
   let v63 := fst v62 in
   let v64 := snd v62 in
   let o65 := unwrap_parse (from_str SingleS (bytes "-0x0p+0")) in
   all_true [
      bitwise_eq v16 v18;
      returns o19;
      OK =? v21;
      category_eqb Zero (category v22);
      returns o23;
      bitwise_eq v22 v24;
      returns o25;
      DIV_BY_ZERO =? v27;
      category_eqb Infinity (category v28);
      returns o29;
      bitwise_eq v28 v30;
      returns o31;
      DIV_BY_ZERO =? v33;
      category_eqb Infinity (category v34);
      returns o35;
      bitwise_eq v34 v36;
      returns o37;
      OK =? v39;
      category_eqb NaN (category v40);
      returns o41;
      bitwise_eq v40 v42;
      returns o43;
      INVALID_OP =? v45;
      category_eqb NaN (category v46);
      returns o47;
      bitwise_eq v46 v48;
      returns o49;
      OK =? v51;
      category_eqb Normal (category v52);
      returns o53;
      bitwise_eq v52 v54;
      returns o55;
      OK =? v57;
      category_eqb Normal (category v58);
      returns o59;
      bitwise_eq v58 v60;
      returns o61;
      v13 =? v63;
      category_eqb Zero (category v64);
      returns o65]) = true.
Proof. vm_compute. reflexivity. Qed.

Example test_divide_25 : (
   let v0 := largest SingleS in
   let v1 := neg (largest SingleS) in
   let v2 := SMALLEST SingleS in
   let v3 := neg (SMALLEST SingleS) in
   let v4 := smallest_normalized SingleS in
   let v5 := neg (smallest_normalized SingleS) in
   let o6 := unwrap_parse (from_str QuadS (bytes "0x1.ffffffffffffffffffffffffffffp+16383")) in
   let v7 := get junk o6 in
   let o8 := unwrap_parse (from_str QuadS (bytes "-0x0.0000000000000000000000000001p-16382")) in
   let v9 := get junk o8 in
   let v10 := Z.lor OVERFLOW INEXACT in
   let v11 := Z.lor UNDERFLOW INEXACT in
   let o12 := op_div SingleS v5 v0 in
   let v13 := get (0, junk) o12 in
   let v14 := snd v13 in
   let o15 := unwrap_parse (from_str SingleS (bytes "-0x0p+0")) in
   let v16 := get junk o15 in
   let o17 := op_div SingleS v5 v1 in
   let v18 := get (0, junk) o17 in
   let v19 := fst v18 in
   let v20 := snd v18 in
   let o21 := unwrap_parse (from_str SingleS (bytes "0x0p+0")) in
   let v22 := get junk o21 in
   let o23 := op_div SingleS v5 v2 in
   let v24 := get (0, junk) o23 in
   let v25 := fst v24 in
   let v26 := snd v24 in
   let o27 := unwrap_parse (from_str SingleS (bytes "-0x1p+23")) in
   let v28 := get junk o27 in
   let o29 := op_div SingleS v5 v3 in
   let v30 := get (0, junk) o29 in
   let v31 := fst v30 in
   let v32 := snd v30 in
   let o33 := unwrap_parse (from_str SingleS (bytes "0x1p+23")) in
   let v34 := get junk o33 in
   let o35 := op_div SingleS v5 v4 in
   let v36 := get (0, junk) o35 in
   let v37 := fst v36 in
   let v38 := snd v36 in
   let o39 := unwrap_parse (from_str SingleS (bytes "-0x1p+0")) in
   let v40 := get junk o39 in
   let o41 := op_div SingleS v5 v5 in
   let v42 := get (0, junk) o41 in
   let v43 := fst v42 in
   let v44 := snd v42 in
   let o45 := unwrap_parse (from_str SingleS (bytes "0x1p+0")) in
   let v46 := get junk o45 in
   let o47 := div_r QuadS v7 v9 NearestTiesToEven in
   let v48 := get (0, junk) o47 in
   let v49 := fst v48 in
   let v50 := snd v48 in
   let o51 := unwrap_parse (from_str QuadS (bytes "-inf")) in
   let v52 := get junk o51 in
   let o53 := div_r QuadS v7 v9 TowardPositive in
   let v54 := get (0, junk) o53 in
   let v55 := fst v54 in
   let v56 := snd v54 in
   let o57 := unwrap_parse (from_str QuadS (bytes "-0x1.ffffffffffffffffffffffffffffp+16383")) in
   let v58 := get junk o57 in
   let o59 := div_r QuadS v7 v9 TowardNegative in
   let v60 := get (0, junk) o59 in
   let v61 := fst v60 in
   let v62 := snd v60 in
   let o63 := unwrap_parse (from_str QuadS (bytes "-inf")) in
   all_true [
      bitwise_eq v14 v16;
      returns o17;
      v11 =? v19;
      category_eqb Zero (category v20);
      returns o21;
      bitwise_eq v20 v22;
      returns o23;
      OK =? v25;
      category_eqb Normal (category v26);
      returns o27;
      bitwise_eq v26 v28;
      returns o29;
      OK =? v31;
      category_eqb Normal (category v32);
      returns o33;
      bitwise_eq v32 v34;
      returns o35;
      OK =? v37;
      category_eqb Normal (category v38);
      returns o39;
      bitwise_eq v38 v40;
      returns o41;
      OK =? v43;
      category_eqb Normal (category v44);
      returns o45;
      bitwise_eq v44 v46;
      returns o47;
      v10 =? v49;
      category_eqb Infinity (category v50);
      returns o51;
      bitwise_eq v50 v52;
      returns o53;
      INEXACT =? v55;
      category_eqb Normal (category v56);
      returns o57;
      bitwise_eq v56 v58;
      returns o59;
      v10 =? v61;
      category_eqb Infinity (category v62);
      returns o63]) = true.
Proof. vm_compute. reflexivity. Qed.

Example test_divide_26 : (
   let o0 := unwrap_parse (from_str QuadS (bytes "0x1.ffffffffffffffffffffffffffffp+16383")) in
   let v1 := get junk o0 in
   let o2 := unwrap_parse (from_str QuadS (bytes "0x0.0000000000000000000000000001p-16382")) in
   let v3 := get junk o2 in
   let o4 := unwrap_parse (from_str QuadS (bytes "-0x0.0000000000000000000000000001p-16382")) in
   let v5 := get junk o4 in
   let v6 := Z.lor OVERFLOW INEXACT in
   let v7 := Z.lor UNDERFLOW INEXACT in
   let o8 := div_r QuadS v1 v5 TowardNegative in
   let v9 := get (0, junk) o8 in
   let v10 := snd v9 in
   let o11 := unwrap_parse (from_str QuadS (bytes "-inf")) in
   let v12 := get junk o11 in
   let o13 := div_r QuadS v1 v5 TowardZero in
   let v14 := get (0, junk) o13 in
   let v15 := fst v14 in
   let v16 := snd v14 in
   let o17 := unwrap_parse (from_str QuadS (bytes "-0x1.ffffffffffffffffffffffffffffp+16383")) in
   let v18 := get junk o17 in
   let o19 := div_r QuadS v1 v5 NearestTiesToAway in
   let v20 := get (0, junk) o19 in
   let v21 := fst v20 in
   let v22 := snd v20 in
   let o23 := unwrap_parse (from_str QuadS (bytes "-inf")) in
   let v24 := get junk o23 in
   let o25 := div_r QuadS v3 v1 NearestTiesToEven in
   let v26 := get (0, junk) o25 in
   let v27 := fst v26 in
   let v28 := snd v26 in
   let o29 := unwrap_parse (from_str QuadS (bytes "0")) in
   let v30 := get junk o29 in
   let o31 := div_r QuadS v3 v1 TowardPositive in
   let v32 := get (0, junk) o31 in
   let v33 := fst v32 in
   let v34 := snd v32 in
   let o35 := unwrap_parse (from_str QuadS (bytes "0x0.0000000000000000000000000001p-16382")) in
   let v36 := get junk o35 in
   let o37 := div_r QuadS v3 v1 TowardNegative in
   let v38 := get (0, junk) o37 in
   let v39 := fst v38 in
   let v40 := snd v38 in
   let o41 := unwrap_parse (from_str QuadS (bytes "0")) in
   let v42 := get junk o41 in
   let o43 := div_r QuadS v3 v1 TowardZero in
   let v44 := get (0, junk) o43 in
   let v45 := fst v44 in
   let v46 := snd v44 in
   let o47 := unwrap_parse (from_str QuadS (bytes "0")) in
   let v48 := get junk o47 in
   let o49 := div_r QuadS v3 v1 NearestTiesToAway in
   let v50 := get (0, junk) o49 in
   let v51 := fst v50 in
   let v52 := snd v50 in
   let o53 := unwrap_parse (from_str QuadS (bytes "0")) in
   let v54 := get junk o53 in
   let o55 := div_r QuadS v5 v1 NearestTiesToEven in
   let v56 := get (0, junk) o55 in
   let v57 := fst v56 in
   let v58 := snd v56 in
   let o59 := unwrap_parse (from_str QuadS (bytes "-0")) in
   all_true [
      bitwise_eq v10 v12;
      returns o13;
      INEXACT =? v15;
      category_eqb Normal (category v16);
      returns o17;
      bitwise_eq v16 v18;
      returns o19;
      v6 =? v21;
      category_eqb Infinity (category v22);
      returns o23;
      bitwise_eq v22 v24;
      returns o25;
      v7 =? v27;
      category_eqb Zero (category v28);
      returns o29;
      bitwise_eq v28 v30;
      returns o31;
      v7 =? v33;
      category_eqb Normal (category v34);
      returns o35;
      bitwise_eq v34 v36;
      returns o37;
      v7 =? v39;
      category_eqb Zero (category v40);
      returns o41;
      bitwise_eq v40 v42;
      returns o43;
      v7 =? v45;
      category_eqb Zero (category v46);
      returns o47;
      bitwise_eq v46 v48;
      returns o49;
      v7 =? v51;
      category_eqb Zero (category v52);
      returns o53;
      bitwise_eq v52 v54;
      returns o55;
      v7 =? v57;
      category_eqb Zero (category v58);
      returns o59]) = true.
Proof. vm_compute. reflexivity. Qed.

Example test_divide_27 : (
   let o0 := unwrap_parse (from_str QuadS (bytes "0x1.ffffffffffffffffffffffffffffp+16383")) in
   let v1 := get junk o0 in
   let o2 := unwrap_parse (from_str QuadS (bytes "-0x0.0000000000000000000000000001p-16382")) in
   let v3 := get junk o2 in
   let v4 := Z.lor UNDERFLOW INEXACT in
   let o5 := div_r QuadS v3 v1 NearestTiesToEven in
   let v6 := get (0, junk) o5 in
   let v7 := snd v6 in
   let o8 := unwrap_parse (from_str QuadS (bytes "-0")) in
   let v9 := get junk o8 in
   let o10 := div_r QuadS v3 v1 TowardPositive in
   let v11 := get (0, junk) o10 in
   let v12 := fst v11 in
   let v13 := snd v11 in
   let o14 := unwrap_parse (from_str QuadS (bytes "-0")) in
   let v15 := get junk o14 in
   let o16 := div_r QuadS v3 v1 TowardNegative in
   let v17 := get (0, junk) o16 in
   let v18 := fst v17 in
   let v19 := snd v17 in
   let o20 := unwrap_parse (from_str QuadS (bytes "-0x0.0000000000000000000000000001p-16382")) in
   let v21 := get junk o20 in
   let o22 := div_r QuadS v3 v1 TowardZero in
   let v23 := get (0, junk) o22 in
   let v24 := fst v23 in
   let v25 := snd v23 in
   let o26 := unwrap_parse (from_str QuadS (bytes "-0")) in
   let v27 := get junk o26 in
   let o28 := div_r QuadS v3 v1 NearestTiesToAway in
   let v29 := get (0, junk) o28 in
   let v30 := fst v29 in
   let v31 := snd v29 in
   let o32 := unwrap_parse (from_str QuadS (bytes "-0")) in
   let v33 := get junk o32 in
   all_true [
      bitwise_eq v7 v9;
      returns o10;
      v4 =? v12;
      category_eqb Zero (category v13);
      returns o14;
      bitwise_eq v13 v15;
      returns o16;
      v4 =? v18;
      category_eqb Normal (category v19);
      returns o20;
      bitwise_eq v19 v21;
      returns o22;
      v4 =? v24;
      category_eqb Zero (category v25);
      returns o26;
      bitwise_eq v25 v27;
      returns o28;
      v4 =? v30;
      category_eqb Zero (category v31);
      returns o32;
      bitwise_eq v31 v33]) = true.
Proof. vm_compute. reflexivity. Qed.

(** ieee.rs:3777 [remainder] *)
Example test_remainder_1 : (
   let v0 := INFINITY SingleS in
   let v1 := neg (INFINITY SingleS) in
   let v2 := ZERO SingleS in
   let v3 := neg (ZERO SingleS) in
   let v4 := NAN SingleS in
   let o5 := unwrap_parse (from_str SingleS (bytes "snan123")) in
   let o6 := unwrap_parse (from_str SingleS (bytes "0x1p+0")) in
   let o7 := unwrap_parse (from_str SingleS (bytes "-0x1p+0")) in
   let o8 := unwrap_parse (from_str SingleS (bytes "0x1.fffffep+126")) in
   let o9 := unwrap_parse (from_str SingleS (bytes "-0x1.fffffep+126")) in
   let o10 := unwrap_parse (from_str SingleS (bytes "0x1.fffffep-126")) in
   let o11 := unwrap_parse (from_str SingleS (bytes "-0x1.fffffep-126")) in
   let o12 := unwrap_parse (from_str SingleS (bytes "0x1p-125")) in
   let o13 := unwrap_parse (from_str SingleS (bytes "-0x1p-125")) in
   let o14 := unwrap_parse (from_str SingleS (bytes "0x1p+127")) in
   let o15 := unwrap_parse (from_str SingleS (bytes "-0x1p+127")) in
   let o16 := unwrap_parse (from_str SingleS (bytes "1.5")) in
   let o17 := unwrap_parse (from_str SingleS (bytes "-1.5")) in
   let o18 := unwrap_parse (from_str SingleS (bytes "1")) in
   let o19 := unwrap_parse (from_str SingleS (bytes "-1")) in
   let o20 := ieee_rem SingleS v0 v0 in
   let v21 := get (0, junk) o20 in
   let v22 := fst v21 in
   let v23 := snd v21 in
   let o24 := unwrap_parse (from_str SingleS (bytes "nan")) in
   let v25 := get junk o24 in
   let o26 := ieee_rem SingleS v0 v1 in
   let v27 := get (0, junk) o26 in
   let v28 := fst v27 in
   let v29 := snd v27 in
   let o30 := unwrap_parse (from_str SingleS (bytes "nan")) in
   let v31 := get junk o30 in
   let o32 := ieee_rem SingleS v0 v2 in
   let v33 := get (0, junk) o32 in
   let v34 := fst v33 in
   let v35 := snd v33 in
   let o36 := unwrap_parse (from_str SingleS (bytes "nan")) in
   let v37 := get junk o36 in
   let o38 := ieee_rem SingleS v0 v3 in
   let v39 := get (0, junk) o38 in
   let v40 := fst v39 in
   let v41 := snd v39 in
   let o42 := unwrap_parse (from_str SingleS (bytes "nan")) in
   let v43 := get junk o42 in
   let o44 := ieee_rem SingleS v0 v4 in
   let v45 := get (0, junk) o44 in
   let v46 := fst v45 in
   let v47 := snd v45 in
   let o48 := unwrap_parse (from_str SingleS (bytes "nan")) in
   let v49 := get junk o48 in
   all_true [
      returns o5;
      returns o6;
      returns o7;
      returns o8;
      returns o9;
      returns o10;
      returns o11;
      returns o12;
      returns o13;
      returns o14;
      returns o15;
      returns o16;
      returns o17;
      returns o18;
      returns o19;
      returns o20;
      INVALID_OP =? v22;
      category_eqb NaN (category v23);
      returns o24;
      bitwise_eq v23 v25;
      returns o26;
      INVALID_OP =? v28;
      category_eqb NaN (category v29);
      returns o30;
      bitwise_eq v29 v31;
      returns o32;
      INVALID_OP =? v34;
      category_eqb NaN (category v35);
      returns o36;
      bitwise_eq v35 v37;
      returns o38;
      INVALID_OP =? v40;
      category_eqb NaN (category v41);
      returns o42;
      bitwise_eq v41 v43;
      returns o44;
      OK =? v46;
      category_eqb NaN (category v47);
      returns o48;
      bitwise_eq v47 v49]) = true.
Proof. vm_compute. reflexivity. Qed.

Example test_remainder_2 : (
   let v0 := INFINITY SingleS in
   let o1 := unwrap_parse (from_str SingleS (bytes "snan123")) in
   let v2 := get junk o1 in
   let o3 := unwrap_parse (from_str SingleS (bytes "0x1p+0")) in
   let v4 := get junk o3 in
   let o5 := unwrap_parse (from_str SingleS (bytes "-0x1p+0")) in
   let v6 := get junk o5 in
   let v7 := largest SingleS in
   let v8 := neg (largest SingleS) in
   let v9 := SMALLEST SingleS in
   let v10 := neg (SMALLEST SingleS) in
   let v11 := smallest_normalized SingleS in
   let o12 := ieee_rem SingleS v0 v2 in
   let v13 := get (0, junk) o12 in
   let v14 := fst v13 in
   let v15 := snd v13 in
   let o16 := unwrap_parse (from_str SingleS (bytes "nan123")) in
   let v17 := get junk o16 in
   let o18 := ieee_rem SingleS v0 v4 in
   let v19 := get (0, junk) o18 in
   let v20 := fst v19 in
   let v21 := snd v19 in
   let o22 := unwrap_parse (from_str SingleS (bytes "nan")) in
   let v23 := get junk o22 in
   let o24 := ieee_rem SingleS v0 v6 in
   let v25 := get (0, junk) o24 in
   let v26 := fst v25 in
   let v27 := snd v25 in
   let o28 := unwrap_parse (from_str SingleS (bytes "nan")) in
   let v29 := get junk o28 in
   let o30 := ieee_rem SingleS v0 v7 in
   let v31 := get (0, junk) o30 in
   let v32 := fst v31 in
   let v33 := snd v31 in
   let o34 := unwrap_parse (from_str SingleS (bytes "nan")) in
   let v35 := get junk o34 in
   let o36 := ieee_rem SingleS v0 v8 in
   let v37 := get (0, junk) o36 in
   let v38 := fst v37 in
   let v39 := snd v37 in
   let o40 := unwrap_parse (from_str SingleS (bytes "nan")) in
   let v41 := get junk o40 in
   let o42 := ieee_rem SingleS v0 v9 in
   let v43 := get (0, junk) o42 in
   let v44 := fst v43 in
   let v45 := snd v43 in
   let o46 := unwrap_parse (from_str SingleS (bytes "nan")) in
   let v47 := get junk o46 in
   let o48 := ieee_rem SingleS v0 v10 in
   let v49 := get (0, junk) o48 in
   let v50 := fst v49 in
   let v51 := snd v49 in
   let o52 := unwrap_parse (from_str SingleS (bytes "nan")) in
   let v53 := get junk o52 in
   let o54 := ieee_rem SingleS v0 v11 in
   let v55 := get (0, junk) o54 in
   let v56 := fst v55 in
   let v57 := snd v55 in
   let o58 := unwrap_parse (from_str SingleS (bytes "nan")) in
   let v59 := get junk o58 in
   all_true [
      returns o12;
      INVALID_OP =? v14;
      category_eqb NaN (category v15);
      returns o16;
      bitwise_eq v15 v17;
      returns o18;
      INVALID_OP =? v20;
      category_eqb NaN (category v21);
      returns o22;
      bitwise_eq v21 v23;
      returns o24;
      INVALID_OP =? v26;
      category_eqb NaN (category v27);
      returns o28;
      bitwise_eq v27 v29;
      returns o30;
      INVALID_OP =? v32;
      category_eqb NaN (category v33);
      returns o34;
      bitwise_eq v33 v35;
      returns o36;
      INVALID_OP =? v38;
      category_eqb NaN (category v39);
      returns o40;
      bitwise_eq v39 v41;
      returns o42;
      INVALID_OP =? v44;
      category_eqb NaN (category v45);
      returns o46;
      bitwise_eq v45 v47;
      returns o48;
      INVALID_OP =? v50;
      category_eqb NaN (category v51);
      returns o52;
      bitwise_eq v51 v53;
      returns o54;
      INVALID_OP =? v56;
      category_eqb NaN (category v57);
      returns o58;
      bitwise_eq v57 v59]) = true.
Proof. vm_compute. reflexivity. Qed.

Example test_remainder_3 : (
   let v0 := INFINITY SingleS in
   let v1 := neg (INFINITY SingleS) in
   let v2 := ZERO SingleS in
   let v3 := neg (ZERO SingleS) in
   let v4 := NAN SingleS in
   let o5 := unwrap_parse (from_str SingleS (bytes "snan123")) in
   let v6 := get junk o5 in
   let o7 := unwrap_parse (from_str SingleS (bytes "0x1p+0")) in
   let v8 := get junk o7 in
   let v9 := neg (smallest_normalized SingleS) in
   let o10 := ieee_rem SingleS v0 v9 in
   let v11 := get (0, junk) o10 in
   let v12 := fst v11 in
   let v13 := snd v11 in
   let o14 := unwrap_parse (from_str SingleS (bytes "nan")) in
   let v15 := get junk o14 in
   let o16 := ieee_rem SingleS v1 v0 in
   let v17 := get (0, junk) o16 in
   let v18 := fst v17 in
   let v19 := snd v17 in
   let o20 := unwrap_parse (from_str SingleS (bytes "nan")) in
   let v21 := get junk o20 in
   let o22 := ieee_rem SingleS v1 v1 in
   let v23 := get (0, junk) o22 in
   let v24 := fst v23 in
   let v25 := snd v23 in
   let o26 := unwrap_parse (from_str SingleS (bytes "nan")) in
   let v27 := get junk o26 in
   let o28 := ieee_rem SingleS v1 v2 in
   let v29 := get (0, junk) o28 in
   let v30 := fst v29 in
   let v31 := snd v29 in
   let o32 := unwrap_parse (from_str SingleS (bytes "nan")) in
   let v33 := get junk o32 in
   let o34 := ieee_rem SingleS v1 v3 in
   let v35 := get (0, junk) o34 in
   let v36 := fst v35 in
   let v37 := snd v35 in
   let o38 := unwrap_parse (from_str SingleS (bytes "nan")) in
   let v39 := get junk o38 in
   let o40 := ieee_rem SingleS v1 v4 in
   let v41 := get (0, junk) o40 in
   let v42 := fst v41 in
   let v43 := snd v41 in
   let o44 := unwrap_parse (from_str SingleS (bytes "nan")) in
   let v45 := get junk o44 in
   let o46 := ieee_rem SingleS v1 v6 in
   let v47 := get (0, junk) o46 in
   let v48 := fst v47 in
   let v49 := snd v47 in
   let o50 := unwrap_parse (from_str SingleS (bytes "nan123")) in
   let v51 := get junk o50 in
   let o52 := ieee_rem SingleS v1 v8 in
   let v53 := get (0, junk) o52 in
   let v54 := fst v53 in
   let v55 := snd v53 in
   let o56 := unwrap_parse (from_str SingleS (bytes "nan")) in
   let v57 := get junk o56 in
   all_true [
      returns o10;
      INVALID_OP =? v12;
      category_eqb NaN (category v13);
      returns o14;
      bitwise_eq v13 v15;
      returns o16;
      INVALID_OP =? v18;
      category_eqb NaN (category v19);
      returns o20;
      bitwise_eq v19 v21;
      returns o22;
      INVALID_OP =? v24;
      category_eqb NaN (category v25);
      returns o26;
      bitwise_eq v25 v27;
      returns o28;
      INVALID_OP =? v30;
      category_eqb NaN (category v31);
      returns o32;
      bitwise_eq v31 v33;
      returns o34;
      INVALID_OP =? v36;
      category_eqb NaN (category v37);
      returns o38;
      bitwise_eq v37 v39;
      returns o40;
      OK =? v42;
      category_eqb NaN (category v43);
      returns o44;
      bitwise_eq v43 v45;
      returns o46;
      INVALID_OP =? v48;
      category_eqb NaN (category v49);
      returns o50;
      bitwise_eq v49 v51;
      returns o52;
      INVALID_OP =? v54;
      category_eqb NaN (category v55);
      returns o56;
      bitwise_eq v55 v57]) = true.
Proof. vm_compute. reflexivity. Qed.

Example test_remainder_4 : (
   let v0 := INFINITY SingleS in
   let v1 := neg (INFINITY SingleS) in
   let v2 := ZERO SingleS in
   let o3 := unwrap_parse (from_str SingleS (bytes "-0x1p+0")) in
   let v4 := get junk o3 in
   let v5 := largest SingleS in
   let v6 := neg (largest SingleS) in
   let v7 := SMALLEST SingleS in
   let v8 := neg (SMALLEST SingleS) in
   let v9 := smallest_normalized SingleS in
   let v10 := neg (smallest_normalized SingleS) in
   let o11 := ieee_rem SingleS v1 v4 in
   let v12 := get (0, junk) o11 in
   let v13 := fst v12 in
   let v14 := snd v12 in
   let o15 := unwrap_parse (from_str SingleS (bytes "nan")) in
   let v16 := get junk o15 in
   let o17 := ieee_rem SingleS v1 v5 in
   let v18 := get (0, junk) o17 in
   let v19 := fst v18 in
   let v20 := snd v18 in
   let o21 := unwrap_parse (from_str SingleS (bytes "nan")) in
   let v22 := get junk o21 in
   let o23 := ieee_rem SingleS v1 v6 in
   let v24 := get (0, junk) o23 in
   let v25 := fst v24 in
   let v26 := snd v24 in
   let o27 := unwrap_parse (from_str SingleS (bytes "nan")) in
   let v28 := get junk o27 in
   let o29 := ieee_rem SingleS v1 v7 in
   let v30 := get (0, junk) o29 in
   let v31 := fst v30 in
   let v32 := snd v30 in
   let o33 := unwrap_parse (from_str SingleS (bytes "nan")) in
   let v34 := get junk o33 in
   let o35 := ieee_rem SingleS v1 v8 in
   let v36 := get (0, junk) o35 in
   let v37 := fst v36 in
   let v38 := snd v36 in
   let o39 := unwrap_parse (from_str SingleS (bytes "nan")) in
   let v40 := get junk o39 in
   let o41 := ieee_rem SingleS v1 v9 in
   let v42 := get (0, junk) o41 in
   let v43 := fst v42 in
   let v44 := snd v42 in
   let o45 := unwrap_parse (from_str SingleS (bytes "nan")) in
   let v46 := get junk o45 in
   let o47 := ieee_rem SingleS v1 v10 in
   let v48 := get (0, junk) o47 in
   let v49 := fst v48 in
   let v50 := snd v48 in
   let o51 := unwrap_parse (from_str SingleS (bytes "nan")) in
   let v52 := get junk o51 in
   let o53 := ieee_rem SingleS v2 v0 in
   let v54 := get (0, junk) o53 in
   let v55 := fst v54 in
   let v56 := snd v54 in
   let o57 := unwrap_parse (from_str SingleS (bytes "0x0p+0")) in
   let v58 := get junk o57 in
   all_true [
      returns o11;
      INVALID_OP =? v13;
      category_eqb NaN (category v14);
      returns o15;
      bitwise_eq v14 v16;
      returns o17;
      INVALID_OP =? v19;
      category_eqb NaN (category v20);
      returns o21;
      bitwise_eq v20 v22;
      returns o23;
      INVALID_OP =? v25;
      category_eqb NaN (category v26);
      returns o27;
      bitwise_eq v26 v28;
      returns o29;
      INVALID_OP =? v31;
      category_eqb NaN (category v32);
      returns o33;
      bitwise_eq v32 v34;
      returns o35;
      INVALID_OP =? v37;
      category_eqb NaN (category v38);
      returns o39;
      bitwise_eq v38 v40;
      returns o41;
      INVALID_OP =? v43;
      category_eqb NaN (category v44);
      returns o45;
      bitwise_eq v44 v46;
      returns o47;
      INVALID_OP =? v49;
      category_eqb NaN (category v50);
      returns o51;
      bitwise_eq v50 v52;
      returns o53;
      OK =? v55;
      category_eqb Zero (category v56);
      returns o57;
      bitwise_eq v56 v58]) = true.
Proof. vm_compute. reflexivity. Qed.

Example test_remainder_5 : (
   let v0 := neg (INFINITY SingleS) in
   let v1 := ZERO SingleS in
   let v2 := neg (ZERO SingleS) in
   let v3 := NAN SingleS in
   let o4 := unwrap_parse (from_str SingleS (bytes "snan123")) in
   let v5 := get junk o4 in
   let o6 := unwrap_parse (from_str SingleS (bytes "0x1p+0")) in
   let v7 := get junk o6 in
   let o8 := unwrap_parse (from_str SingleS (bytes "-0x1p+0")) in
   let v9 := get junk o8 in
   let v10 := largest SingleS in
   let o11 := ieee_rem SingleS v1 v0 in
   let v12 := get (0, junk) o11 in
   let v13 := fst v12 in
   let v14 := snd v12 in
   let o15 := unwrap_parse (from_str SingleS (bytes "0x0p+0")) in
   let v16 := get junk o15 in
   let o17 := ieee_rem SingleS v1 v1 in
   let v18 := get (0, junk) o17 in
   let v19 := fst v18 in
   let v20 := snd v18 in
   let o21 := unwrap_parse (from_str SingleS (bytes "nan")) in
   let v22 := get junk o21 in
   let o23 := ieee_rem SingleS v1 v2 in
   let v24 := get (0, junk) o23 in
   let v25 := fst v24 in
   let v26 := snd v24 in
   let o27 := unwrap_parse (from_str SingleS (bytes "nan")) in
   let v28 := get junk o27 in
   let o29 := ieee_rem SingleS v1 v3 in
   let v30 := get (0, junk) o29 in
   let v31 := fst v30 in
   let v32 := snd v30 in
   let o33 := unwrap_parse (from_str SingleS (bytes "nan")) in
   let v34 := get junk o33 in
   let o35 := ieee_rem SingleS v1 v5 in
   let v36 := get (0, junk) o35 in
   let v37 := fst v36 in
   let v38 := snd v36 in
   let o39 := unwrap_parse (from_str SingleS (bytes "nan123")) in
   let v40 := get junk o39 in
   let o41 := ieee_rem SingleS v1 v7 in
   let v42 := get (0, junk) o41 in
   let v43 := fst v42 in
   let v44 := snd v42 in
   let o45 := unwrap_parse (from_str SingleS (bytes "0x0p+0")) in
   let v46 := get junk o45 in
   let o47 := ieee_rem SingleS v1 v9 in
   let v48 := get (0, junk) o47 in
   let v49 := fst v48 in
   let v50 := snd v48 in
   let o51 := unwrap_parse (from_str SingleS (bytes "0x0p+0")) in
   let v52 := get junk o51 in
   let o53 := ieee_rem SingleS v1 v10 in
   let v54 := get (0, junk) o53 in
   let v55 := fst v54 in
   let v56 := snd v54 in
   let o57 := unwrap_parse (from_str SingleS (bytes "0x0p+0")) in
   let v58 := get junk o57 in
   all_true [
      returns o11;
      OK =? v13;
      category_eqb Zero (category v14);
      returns o15;
      bitwise_eq v14 v16;
      returns o17;
      INVALID_OP =? v19;
      category_eqb NaN (category v20);
      returns o21;
      bitwise_eq v20 v22;
      returns o23;
      INVALID_OP =? v25;
      category_eqb NaN (category v26);
      returns o27;
      bitwise_eq v26 v28;
      returns o29;
      OK =? v31;
      category_eqb NaN (category v32);
      returns o33;
      bitwise_eq v32 v34;
      returns o35;
      INVALID_OP =? v37;
      category_eqb NaN (category v38);
      returns o39;
      bitwise_eq v38 v40;
      returns o41;
      OK =? v43;
      category_eqb Zero (category v44);
      returns o45;
      bitwise_eq v44 v46;
      returns o47;
      OK =? v49;
      category_eqb Zero (category v50);
      returns o51;
      bitwise_eq v50 v52;
      returns o53;
      OK =? v55;
      category_eqb Zero (category v56);
      returns o57;
      bitwise_eq v56 v58]) = true.
Proof. vm_compute. reflexivity. Qed.

Example test_remainder_6 : (
   let v0 := INFINITY SingleS in
   let v1 := neg (INFINITY SingleS) in
   let v2 := ZERO SingleS in
   let v3 := neg (ZERO SingleS) in
   let v4 := neg (largest SingleS) in
   let v5 := SMALLEST SingleS in
   let v6 := neg (SMALLEST SingleS) in
   let v7 := smallest_normalized SingleS in
   let v8 := neg (smallest_normalized SingleS) in
   let o9 := ieee_rem SingleS v2 v4 in
   let v10 := get (0, junk) o9 in
   let v11 := fst v10 in
   let v12 := snd v10 in
   let o13 := unwrap_parse (from_str SingleS (bytes "0x0p+0")) in
   let v14 := get junk o13 in
   let o15 := ieee_rem SingleS v2 v5 in
   let v16 := get (0, junk) o15 in
   let v17 := fst v16 in
   let v18 := snd v16 in
   let o19 := unwrap_parse (from_str SingleS (bytes "0x0p+0")) in
   let v20 := get junk o19 in
   let o21 := ieee_rem SingleS v2 v6 in
   let v22 := get (0, junk) o21 in
   let v23 := fst v22 in
   let v24 := snd v22 in
   let o25 := unwrap_parse (from_str SingleS (bytes "0x0p+0")) in
   let v26 := get junk o25 in
   let o27 := ieee_rem SingleS v2 v7 in
   let v28 := get (0, junk) o27 in
   let v29 := fst v28 in
   let v30 := snd v28 in
   let o31 := unwrap_parse (from_str SingleS (bytes "0x0p+0")) in
   let v32 := get junk o31 in
   let o33 := ieee_rem SingleS v2 v8 in
   let v34 := get (0, junk) o33 in
   let v35 := fst v34 in
   let v36 := snd v34 in
   let o37 := unwrap_parse (from_str SingleS (bytes "0x0p+0")) in
   let v38 := get junk o37 in
   let o39 := ieee_rem SingleS v3 v0 in
   let v40 := get (0, junk) o39 in
   let v41 := fst v40 in
   let v42 := snd v40 in
   let o43 := unwrap_parse (from_str SingleS (bytes "-0x0p+0")) in
   let v44 := get junk o43 in
   let o45 := ieee_rem SingleS v3 v1 in
   let v46 := get (0, junk) o45 in
   let v47 := fst v46 in
   let v48 := snd v46 in
   let o49 := unwrap_parse (from_str SingleS (bytes "-0x0p+0")) in
   let v50 := get junk o49 in
   let o51 := ieee_rem SingleS v3 v2 in
   let v52 := get (0, junk) o51 in
   let v53 := fst v52 in
   let v54 := snd v52 in
   let o55 := unwrap_parse (from_str SingleS (bytes "nan")) in
   let v56 := get junk o55 in
   all_true [
      returns o9;
      OK =? v11;
      category_eqb Zero (category v12);
      returns o13;
      bitwise_eq v12 v14;
      returns o15;
      OK =? v17;
      category_eqb Zero (category v18);
      returns o19;
      bitwise_eq v18 v20;
      returns o21;
      OK =? v23;
      category_eqb Zero (category v24);
      returns o25;
      bitwise_eq v24 v26;
      returns o27;
      OK =? v29;
      category_eqb Zero (category v30);
      returns o31;
      bitwise_eq v30 v32;
      returns o33;
      OK =? v35;
      category_eqb Zero (category v36);
      returns o37;
      bitwise_eq v36 v38;
      returns o39;
      OK =? v41;
      category_eqb Zero (category v42);
      returns o43;
      bitwise_eq v42 v44;
      returns o45;
      OK =? v47;
      category_eqb Zero (category v48);
      returns o49;
      bitwise_eq v48 v50;
      returns o51;
      INVALID_OP =? v53;
      category_eqb NaN (category v54);
      returns o55;
      bitwise_eq v54 v56]) = true.
Proof. vm_compute. reflexivity. Qed.

Example test_remainder_7 : (
   let v0 := neg (ZERO SingleS) in
   let v1 := NAN SingleS in
   let o2 := unwrap_parse (from_str SingleS (bytes "snan123")) in
   let v3 := get junk o2 in
   let o4 := unwrap_parse (from_str SingleS (bytes "0x1p+0")) in
   let v5 := get junk o4 in
   let o6 := unwrap_parse (from_str SingleS (bytes "-0x1p+0")) in
   let v7 := get junk o6 in
   let v8 := largest SingleS in
   let v9 := neg (largest SingleS) in
   let v10 := SMALLEST SingleS in
   let o11 := ieee_rem SingleS v0 v0 in
   let v12 := get (0, junk) o11 in
   let v13 := fst v12 in
   let v14 := snd v12 in
   let o15 := unwrap_parse (from_str SingleS (bytes "nan")) in
   let v16 := get junk o15 in
   let o17 := ieee_rem SingleS v0 v1 in
   let v18 := get (0, junk) o17 in
   let v19 := fst v18 in
   let v20 := snd v18 in
   let o21 := unwrap_parse (from_str SingleS (bytes "nan")) in
   let v22 := get junk o21 in
   let o23 := ieee_rem SingleS v0 v3 in
   let v24 := get (0, junk) o23 in
   let v25 := fst v24 in
   let v26 := snd v24 in
   let o27 := unwrap_parse (from_str SingleS (bytes "nan123")) in
   let v28 := get junk o27 in
   let o29 := ieee_rem SingleS v0 v5 in
   let v30 := get (0, junk) o29 in
   let v31 := fst v30 in
   let v32 := snd v30 in
   let o33 := unwrap_parse (from_str SingleS (bytes "-0x0p+0")) in
   let v34 := get junk o33 in
   let o35 := ieee_rem SingleS v0 v7 in
   let v36 := get (0, junk) o35 in
   let v37 := fst v36 in
   let v38 := snd v36 in
   let o39 := unwrap_parse (from_str SingleS (bytes "-0x0p+0")) in
   let v40 := get junk o39 in
   let o41 := ieee_rem SingleS v0 v8 in
   let v42 := get (0, junk) o41 in
   let v43 := fst v42 in
   let v44 := snd v42 in
   let o45 := unwrap_parse (from_str SingleS (bytes "-0x0p+0")) in
   let v46 := get junk o45 in
   let o47 := ieee_rem SingleS v0 v9 in
   let v48 := get (0, junk) o47 in
   let v49 := fst v48 in
   let v50 := snd v48 in
   let o51 := unwrap_parse (from_str SingleS (bytes "-0x0p+0")) in
   let v52 := get junk o51 in
   let o53 := ieee_rem SingleS v0 v10 in
   let v54 := get (0, junk) o53 in
   let v55 := fst v54 in
   let v56 := snd v54 in
   let o57 := unwrap_parse (from_str SingleS (bytes "-0x0p+0")) in
   let v58 := get junk o57 in
   all_true [
      returns o11;
      INVALID_OP =? v13;
      category_eqb NaN (category v14);
      returns o15;
      bitwise_eq v14 v16;
      returns o17;
      OK =? v19;
      category_eqb NaN (category v20);
      returns o21;
      bitwise_eq v20 v22;
      returns o23;
      INVALID_OP =? v25;
      category_eqb NaN (category v26);
      returns o27;
      bitwise_eq v26 v28;
      returns o29;
      OK =? v31;
      category_eqb Zero (category v32);
      returns o33;
      bitwise_eq v32 v34;
      returns o35;
      OK =? v37;
      category_eqb Zero (category v38);
      returns o39;
      bitwise_eq v38 v40;
      returns o41;
      OK =? v43;
      category_eqb Zero (category v44);
      returns o45;
      bitwise_eq v44 v46;
      returns o47;
      OK =? v49;
      category_eqb Zero (category v50);
      returns o51;
      bitwise_eq v50 v52;
      returns o53;
      OK =? v55;
      category_eqb Zero (category v56);
      returns o57;
      bitwise_eq v56 v58]) = true.
Proof. vm_compute. reflexivity. Qed.

Example test_remainder_8 : (
   let v0 := INFINITY SingleS in
   let v1 := neg (INFINITY SingleS) in
   let v2 := ZERO SingleS in
   let v3 := neg (ZERO SingleS) in
   let v4 := NAN SingleS in
   let v5 := neg (SMALLEST SingleS) in
   let v6 := smallest_normalized SingleS in
   let v7 := neg (smallest_normalized SingleS) in
   let o8 := ieee_rem SingleS v3 v5 in
   let v9 := get (0, junk) o8 in
   let v10 := fst v9 in
   let v11 := snd v9 in
   let o12 := unwrap_parse (from_str SingleS (bytes "-0x0p+0")) in
   let v13 := get junk o12 in
   let o14 := ieee_rem SingleS v3 v6 in
   let v15 := get (0, junk) o14 in
   let v16 := fst v15 in
   let v17 := snd v15 in
   let o18 := unwrap_parse (from_str SingleS (bytes "-0x0p+0")) in
   let v19 := get junk o18 in
   let o20 := ieee_rem SingleS v3 v7 in
   let v21 := get (0, junk) o20 in
   let v22 := fst v21 in
   let v23 := snd v21 in
   let o24 := unwrap_parse (from_str SingleS (bytes "-0x0p+0")) in
   let v25 := get junk o24 in
   let o26 := ieee_rem SingleS v4 v0 in
   let v27 := get (0, junk) o26 in
   let v28 := fst v27 in
   let v29 := snd v27 in
   let o30 := unwrap_parse (from_str SingleS (bytes "nan")) in
   let v31 := get junk o30 in
   let o32 := ieee_rem SingleS v4 v1 in
   let v33 := get (0, junk) o32 in
   let v34 := fst v33 in
   let v35 := snd v33 in
   let o36 := unwrap_parse (from_str SingleS (bytes "nan")) in
   let v37 := get junk o36 in
   let o38 := ieee_rem SingleS v4 v2 in
   let v39 := get (0, junk) o38 in
   let v40 := fst v39 in
   let v41 := snd v39 in
   let o42 := unwrap_parse (from_str SingleS (bytes "nan")) in
   let v43 := get junk o42 in
   let o44 := ieee_rem SingleS v4 v3 in
   let v45 := get (0, junk) o44 in
   let v46 := fst v45 in
   let v47 := snd v45 in
   let o48 := unwrap_parse (from_str SingleS (bytes "nan")) in
   let v49 := get junk o48 in
   let o50 := ieee_rem SingleS v4 v4 in
   let v51 := get (0, junk) o50 in
   let v52 := fst v51 in
   let v53 := snd v51 in
   let o54 := unwrap_parse (from_str SingleS (bytes "nan")) in
   let v55 := get junk o54 in
   all_true [
      returns o8;
      OK =? v10;
      category_eqb Zero (category v11);
      returns o12;
      bitwise_eq v11 v13;
      returns o14;
      OK =? v16;
      category_eqb Zero (category v17);
      returns o18;
      bitwise_eq v17 v19;
      returns o20;
      OK =? v22;
      category_eqb Zero (category v23);
      returns o24;
      bitwise_eq v23 v25;
      returns o26;
      OK =? v28;
      category_eqb NaN (category v29);
      returns o30;
      bitwise_eq v29 v31;
      returns o32;
      OK =? v34;
      category_eqb NaN (category v35);
      returns o36;
      bitwise_eq v35 v37;
      returns o38;
      OK =? v40;
      category_eqb NaN (category v41);
      returns o42;
      bitwise_eq v41 v43;
      returns o44;
      OK =? v46;
      category_eqb NaN (category v47);
      returns o48;
      bitwise_eq v47 v49;
      returns o50;
      OK =? v52;
      category_eqb NaN (category v53);
      returns o54;
      bitwise_eq v53 v55]) = true.
Proof. vm_compute. reflexivity. Qed.

Example test_remainder_9 : (
   let v0 := NAN SingleS in
   let o1 := unwrap_parse (from_str SingleS (bytes "snan123")) in
   let v2 := get junk o1 in
   let o3 := unwrap_parse (from_str SingleS (bytes "0x1p+0")) in
   let v4 := get junk o3 in
   let o5 := unwrap_parse (from_str SingleS (bytes "-0x1p+0")) in
   let v6 := get junk o5 in
   let v7 := largest SingleS in
   let v8 := neg (largest SingleS) in
   let v9 := SMALLEST SingleS in
   let v10 := neg (SMALLEST SingleS) in
   let v11 := smallest_normalized SingleS in
   let o12 := ieee_rem SingleS v0 v2 in
   let v13 := get (0, junk) o12 in
   let v14 := fst v13 in
   let v15 := snd v13 in
   let o16 := unwrap_parse (from_str SingleS (bytes "nan")) in
   let v17 := get junk o16 in
   let o18 := ieee_rem SingleS v0 v4 in
   let v19 := get (0, junk) o18 in
   let v20 := fst v19 in
   let v21 := snd v19 in
   let o22 := unwrap_parse (from_str SingleS (bytes "nan")) in
   let v23 := get junk o22 in
   let o24 := ieee_rem SingleS v0 v6 in
   let v25 := get (0, junk) o24 in
   let v26 := fst v25 in
   let v27 := snd v25 in
   let o28 := unwrap_parse (from_str SingleS (bytes "nan")) in
   let v29 := get junk o28 in
   let o30 := ieee_rem SingleS v0 v7 in
   let v31 := get (0, junk) o30 in
   let v32 := fst v31 in
   let v33 := snd v31 in
   let o34 := unwrap_parse (from_str SingleS (bytes "nan")) in
   let v35 := get junk o34 in
   let o36 := ieee_rem SingleS v0 v8 in
   let v37 := get (0, junk) o36 in
   let v38 := fst v37 in
   let v39 := snd v37 in
   let o40 := unwrap_parse (from_str SingleS (bytes "nan")) in
   let v41 := get junk o40 in
   let o42 := ieee_rem SingleS v0 v9 in
   let v43 := get (0, junk) o42 in
   let v44 := fst v43 in
   let v45 := snd v43 in
   let o46 := unwrap_parse (from_str SingleS (bytes "nan")) in
   let v47 := get junk o46 in
   let o48 := ieee_rem SingleS v0 v10 in
   let v49 := get (0, junk) o48 in
   let v50 := fst v49 in
   let v51 := snd v49 in
   let o52 := unwrap_parse (from_str SingleS (bytes "nan")) in
   let v53 := get junk o52 in
   let o54 := ieee_rem SingleS v0 v11 in
   let v55 := get (0, junk) o54 in
   let v56 := fst v55 in
   let v57 := snd v55 in
   let o58 := unwrap_parse (from_str SingleS (bytes "nan")) in
   let v59 := get junk o58 in
   all_true [
      returns o12;
      INVALID_OP =? v14;
      category_eqb NaN (category v15);
      returns o16;
      bitwise_eq v15 v17;
      returns o18;
      OK =? v20;
      category_eqb NaN (category v21);
      returns o22;
      bitwise_eq v21 v23;
      returns o24;
      OK =? v26;
      category_eqb NaN (category v27);
      returns o28;
      bitwise_eq v27 v29;
      returns o30;
      OK =? v32;
      category_eqb NaN (category v33);
      returns o34;
      bitwise_eq v33 v35;
      returns o36;
      OK =? v38;
      category_eqb NaN (category v39);
      returns o40;
      bitwise_eq v39 v41;
      returns o42;
      OK =? v44;
      category_eqb NaN (category v45);
      returns o46;
      bitwise_eq v45 v47;
      returns o48;
      OK =? v50;
      category_eqb NaN (category v51);
      returns o52;
      bitwise_eq v51 v53;
      returns o54;
      OK =? v56;
      category_eqb NaN (category v57);
      returns o58;
      bitwise_eq v57 v59]) = true.
Proof. vm_compute. reflexivity. Qed.

Example test_remainder_10 : (
   let v0 := INFINITY SingleS in
   let v1 := neg (INFINITY SingleS) in
   let v2 := ZERO SingleS in
   let v3 := neg (ZERO SingleS) in
   let v4 := NAN SingleS in
   let o5 := unwrap_parse (from_str SingleS (bytes "snan123")) in
   let v6 := get junk o5 in
   let o7 := unwrap_parse (from_str SingleS (bytes "0x1p+0")) in
   let v8 := get junk o7 in
   let v9 := neg (smallest_normalized SingleS) in
   let o10 := ieee_rem SingleS v4 v9 in
   let v11 := get (0, junk) o10 in
   let v12 := fst v11 in
   let v13 := snd v11 in
   let o14 := unwrap_parse (from_str SingleS (bytes "nan")) in
   let v15 := get junk o14 in
   let o16 := ieee_rem SingleS v6 v0 in
   let v17 := get (0, junk) o16 in
   let v18 := fst v17 in
   let v19 := snd v17 in
   let o20 := unwrap_parse (from_str SingleS (bytes "nan123")) in
   let v21 := get junk o20 in
   let o22 := ieee_rem SingleS v6 v1 in
   let v23 := get (0, junk) o22 in
   let v24 := fst v23 in
   let v25 := snd v23 in
   let o26 := unwrap_parse (from_str SingleS (bytes "nan123")) in
   let v27 := get junk o26 in
   let o28 := ieee_rem SingleS v6 v2 in
   let v29 := get (0, junk) o28 in
   let v30 := fst v29 in
   let v31 := snd v29 in
   let o32 := unwrap_parse (from_str SingleS (bytes "nan123")) in
   let v33 := get junk o32 in
   let o34 := ieee_rem SingleS v6 v3 in
   let v35 := get (0, junk) o34 in
   let v36 := fst v35 in
   let v37 := snd v35 in
   let o38 := unwrap_parse (from_str SingleS (bytes "nan123")) in
   let v39 := get junk o38 in
   let o40 := ieee_rem SingleS v6 v4 in
   let v41 := get (0, junk) o40 in
   let v42 := fst v41 in
   let v43 := snd v41 in
   let o44 := unwrap_parse (from_str SingleS (bytes "nan123")) in
   let v45 := get junk o44 in
   let o46 := ieee_rem SingleS v6 v6 in
   let v47 := get (0, junk) o46 in
   let v48 := fst v47 in
   let v49 := snd v47 in
   let o50 := unwrap_parse (from_str SingleS (bytes "nan123")) in
   let v51 := get junk o50 in
   let o52 := ieee_rem SingleS v6 v8 in
   let v53 := get (0, junk) o52 in
   let v54 := fst v53 in
   let v55 := snd v53 in
   let o56 := unwrap_parse (from_str SingleS (bytes "nan123")) in
   let v57 := get junk o56 in
   all_true [
      returns o10;
      OK =? v12;
      category_eqb NaN (category v13);
      returns o14;
      bitwise_eq v13 v15;
      returns o16;
      INVALID_OP =? v18;
      category_eqb NaN (category v19);
      returns o20;
      bitwise_eq v19 v21;
      returns o22;
      INVALID_OP =? v24;
      category_eqb NaN (category v25);
      returns o26;
      bitwise_eq v25 v27;
      returns o28;
      INVALID_OP =? v30;
      category_eqb NaN (category v31);
      returns o32;
      bitwise_eq v31 v33;
      returns o34;
      INVALID_OP =? v36;
      category_eqb NaN (category v37);
      returns o38;
      bitwise_eq v37 v39;
      returns o40;
      INVALID_OP =? v42;
      category_eqb NaN (category v43);
      returns o44;
      bitwise_eq v43 v45;
      returns o46;
      INVALID_OP =? v48;
      category_eqb NaN (category v49);
      returns o50;
      bitwise_eq v49 v51;
      returns o52;
      INVALID_OP =? v54;
      category_eqb NaN (category v55);
      returns o56;
      bitwise_eq v55 v57]) = true.
Proof. vm_compute. reflexivity. Qed.

Example test_remainder_11 : (
   let v0 := INFINITY SingleS in
   let o1 := unwrap_parse (from_str SingleS (bytes "snan123")) in
   let v2 := get junk o1 in
   let o3 := unwrap_parse (from_str SingleS (bytes "0x1p+0")) in
   let v4 := get junk o3 in
   let o5 := unwrap_parse (from_str SingleS (bytes "-0x1p+0")) in
   let v6 := get junk o5 in
   let v7 := largest SingleS in
   let v8 := neg (largest SingleS) in
   let v9 := SMALLEST SingleS in
   let v10 := neg (SMALLEST SingleS) in
   let v11 := smallest_normalized SingleS in
   let v12 := neg (smallest_normalized SingleS) in
   let o13 := ieee_rem SingleS v2 v6 in
   let v14 := get (0, junk) o13 in
   let v15 := fst v14 in
   let v16 := snd v14 in
   let o17 := unwrap_parse (from_str SingleS (bytes "nan123")) in
   let v18 := get junk o17 in
   let o19 := ieee_rem SingleS v2 v7 in
   let v20 := get (0, junk) o19 in
   let v21 := fst v20 in
   let v22 := snd v20 in
   let o23 := unwrap_parse (from_str SingleS (bytes "nan123")) in
   let v24 := get junk o23 in
   let o25 := ieee_rem SingleS v2 v8 in
   let v26 := get (0, junk) o25 in
   let v27 := fst v26 in
   let v28 := snd v26 in
   let o29 := unwrap_parse (from_str SingleS (bytes "nan123")) in
   let v30 := get junk o29 in
   let o31 := ieee_rem SingleS v2 v9 in
   let v32 := get (0, junk) o31 in
   let v33 := fst v32 in
   let v34 := snd v32 in
   let o35 := unwrap_parse (from_str SingleS (bytes "nan123")) in
   let v36 := get junk o35 in
   let o37 := ieee_rem SingleS v2 v10 in
   let v38 := get (0, junk) o37 in
   let v39 := fst v38 in
   let v40 := snd v38 in
   let o41 := unwrap_parse (from_str SingleS (bytes "nan123")) in
   let v42 := get junk o41 in
   let o43 := ieee_rem SingleS v2 v11 in
   let v44 := get (0, junk) o43 in
   let v45 := fst v44 in
   let v46 := snd v44 in
   let o47 := unwrap_parse (from_str SingleS (bytes "nan123")) in
   let v48 := get junk o47 in
   let o49 := ieee_rem SingleS v2 v12 in
   let v50 := get (0, junk) o49 in
   let v51 := fst v50 in
   let v52 := snd v50 in
   let o53 := unwrap_parse (from_str SingleS (bytes "nan123")) in
   let v54 := get junk o53 in
   let o55 := ieee_rem SingleS v4 v0 in
   let v56 := get (0, junk) o55 in
   let v57 := fst v56 in
   let v58 := snd v56 in
   let o59 := unwrap_parse (from_str SingleS (bytes "0x1p+0")) in
   let v60 := get junk o59 in
   all_true [
      returns o13;
      INVALID_OP =? v15;
      category_eqb NaN (category v16);
      returns o17;
      bitwise_eq v16 v18;
      returns o19;
      INVALID_OP =? v21;
      category_eqb NaN (category v22);
      returns o23;
      bitwise_eq v22 v24;
      returns o25;
      INVALID_OP =? v27;
      category_eqb NaN (category v28);
      returns o29;
      bitwise_eq v28 v30;
      returns o31;
      INVALID_OP =? v33;
      category_eqb NaN (category v34);
      returns o35;
      bitwise_eq v34 v36;
      returns o37;
      INVALID_OP =? v39;
      category_eqb NaN (category v40);
      returns o41;
      bitwise_eq v40 v42;
      returns o43;
      INVALID_OP =? v45;
      category_eqb NaN (category v46);
      returns o47;
      bitwise_eq v46 v48;
      returns o49;
      INVALID_OP =? v51;
      category_eqb NaN (category v52);
      returns o53;
      bitwise_eq v52 v54;
      returns o55;
      OK =? v57;
      category_eqb Normal (category v58);
      returns o59;
      bitwise_eq v58 v60]) = true.
Proof. vm_compute. reflexivity. Qed.

Example test_remainder_12 : (
   let v0 := neg (INFINITY SingleS) in
   let v1 := ZERO SingleS in
   let v2 := neg (ZERO SingleS) in
   let v3 := NAN SingleS in
   let o4 := unwrap_parse (from_str SingleS (bytes "snan123")) in
   let v5 := get junk o4 in
   let o6 := unwrap_parse (from_str SingleS (bytes "0x1p+0")) in
   let v7 := get junk o6 in
   let o8 := unwrap_parse (from_str SingleS (bytes "-0x1p+0")) in
   let v9 := get junk o8 in
   let v10 := largest SingleS in
   let o11 := ieee_rem SingleS v7 v0 in
   let v12 := get (0, junk) o11 in
   let v13 := fst v12 in
   let v14 := snd v12 in
   let o15 := unwrap_parse (from_str SingleS (bytes "0x1p+0")) in
   let v16 := get junk o15 in
   let o17 := ieee_rem SingleS v7 v1 in
   let v18 := get (0, junk) o17 in
   let v19 := fst v18 in
   let v20 := snd v18 in
   let o21 := unwrap_parse (from_str SingleS (bytes "nan")) in
   let v22 := get junk o21 in
   let o23 := ieee_rem SingleS v7 v2 in
   let v24 := get (0, junk) o23 in
   let v25 := fst v24 in
   let v26 := snd v24 in
   let o27 := unwrap_parse (from_str SingleS (bytes "nan")) in
   let v28 := get junk o27 in
   let o29 := ieee_rem SingleS v7 v3 in
   let v30 := get (0, junk) o29 in
   let v31 := fst v30 in
   let v32 := snd v30 in
   let o33 := unwrap_parse (from_str SingleS (bytes "nan")) in
   let v34 := get junk o33 in
   let o35 := ieee_rem SingleS v7 v5 in
   let v36 := get (0, junk) o35 in
   let v37 := fst v36 in
   let v38 := snd v36 in
   let o39 := unwrap_parse (from_str SingleS (bytes "nan123")) in
   let v40 := get junk o39 in
   let o41 := ieee_rem SingleS v7 v7 in
   let v42 := get (0, junk) o41 in
   let v43 := fst v42 in
   let v44 := snd v42 in
   let o45 := unwrap_parse (from_str SingleS (bytes "0x0p+0")) in
   let v46 := get junk o45 in
   let o47 := ieee_rem SingleS v7 v9 in
   let v48 := get (0, junk) o47 in
   let v49 := fst v48 in
   let v50 := snd v48 in
   let o51 := unwrap_parse (from_str SingleS (bytes "0x0p+0")) in
   let v52 := get junk o51 in
   let o53 := ieee_rem SingleS v7 v10 in
   let v54 := get (0, junk) o53 in
   let v55 := fst v54 in
   let v56 := snd v54 in
   let o57 := unwrap_parse (from_str SingleS (bytes "0x1p+0")) in
   let v58 := get junk o57 in
   all_true [
      returns o11;
      OK =? v13;
      category_eqb Normal (category v14);
      returns o15;
      bitwise_eq v14 v16;
      returns o17;
      INVALID_OP =? v19;
      category_eqb NaN (category v20);
      returns o21;
      bitwise_eq v20 v22;
      returns o23;
      INVALID_OP =? v25;
      category_eqb NaN (category v26);
      returns o27;
      bitwise_eq v26 v28;
      returns o29;
      OK =? v31;
      category_eqb NaN (category v32);
      returns o33;
      bitwise_eq v32 v34;
      returns o35;
      INVALID_OP =? v37;
      category_eqb NaN (category v38);
      returns o39;
      bitwise_eq v38 v40;
      returns o41;
      OK =? v43;
      category_eqb Zero (category v44);
      returns o45;
      bitwise_eq v44 v46;
      returns o47;
      OK =? v49;
      category_eqb Zero (category v50);
      returns o51;
      bitwise_eq v50 v52;
      returns o53;
      OK =? v55;
      category_eqb Normal (category v56);
      returns o57;
      bitwise_eq v56 v58]) = true.
Proof. vm_compute. reflexivity. Qed.

Example test_remainder_13 : (
   let v0 := INFINITY SingleS in
   let v1 := neg (INFINITY SingleS) in
   let v2 := ZERO SingleS in
   let o3 := unwrap_parse (from_str SingleS (bytes "0x1p+0")) in
   let v4 := get junk o3 in
   let o5 := unwrap_parse (from_str SingleS (bytes "-0x1p+0")) in
   let v6 := get junk o5 in
   let v7 := neg (largest SingleS) in
   let v8 := SMALLEST SingleS in
   let v9 := neg (SMALLEST SingleS) in
   let v10 := smallest_normalized SingleS in
   let v11 := neg (smallest_normalized SingleS) in
   let o12 := ieee_rem SingleS v4 v7 in
   let v13 := get (0, junk) o12 in
   let v14 := fst v13 in
   let v15 := snd v13 in
   let o16 := unwrap_parse (from_str SingleS (bytes "0x1p+0")) in
   let v17 := get junk o16 in
   let o18 := ieee_rem SingleS v4 v8 in
   let v19 := get (0, junk) o18 in
   let v20 := fst v19 in
   let v21 := snd v19 in
   let o22 := unwrap_parse (from_str SingleS (bytes "0x0p+0")) in
   let v23 := get junk o22 in
   let o24 := ieee_rem SingleS v4 v9 in
   let v25 := get (0, junk) o24 in
   let v26 := fst v25 in
   let v27 := snd v25 in
   let o28 := unwrap_parse (from_str SingleS (bytes "0x0p+0")) in
   let v29 := get junk o28 in
   let o30 := ieee_rem SingleS v4 v10 in
   let v31 := get (0, junk) o30 in
   let v32 := fst v31 in
   let v33 := snd v31 in
   let o34 := unwrap_parse (from_str SingleS (bytes "0x0p+0")) in
   let v35 := get junk o34 in
   let o36 := ieee_rem SingleS v4 v11 in
   let v37 := get (0, junk) o36 in
   let v38 := fst v37 in
   let v39 := snd v37 in
   let o40 := unwrap_parse (from_str SingleS (bytes "0x0p+0")) in
   let v41 := get junk o40 in
   let o42 := ieee_rem SingleS v6 v0 in
   let v43 := get (0, junk) o42 in
   let v44 := fst v43 in
   let v45 := snd v43 in
   let o46 := unwrap_parse (from_str SingleS (bytes "-0x1p+0")) in
   let v47 := get junk o46 in
   let o48 := ieee_rem SingleS v6 v1 in
   let v49 := get (0, junk) o48 in
   let v50 := fst v49 in
   let v51 := snd v49 in
   let o52 := unwrap_parse (from_str SingleS (bytes "-0x1p+0")) in
   let v53 := get junk o52 in
   let o54 := ieee_rem SingleS v6 v2 in
   let v55 := get (0, junk) o54 in
   let v56 := fst v55 in
   let v57 := snd v55 in
   let o58 := unwrap_parse (from_str SingleS (bytes "nan")) in
   let v59 := get junk o58 in
   all_true [
      returns o12;
      OK =? v14;
      category_eqb Normal (category v15);
      returns o16;
      bitwise_eq v15 v17;
      returns o18;
      OK =? v20;
      category_eqb Zero (category v21);
      returns o22;
      bitwise_eq v21 v23;
      returns o24;
      OK =? v26;
      category_eqb Zero (category v27);
      returns o28;
      bitwise_eq v27 v29;
      returns o30;
      OK =? v32;
      category_eqb Zero (category v33);
      returns o34;
      bitwise_eq v33 v35;
      returns o36;
      OK =? v38;
      category_eqb Zero (category v39);
      returns o40;
      bitwise_eq v39 v41;
      returns o42;
      OK =? v44;
      category_eqb Normal (category v45);
      returns o46;
      bitwise_eq v45 v47;
      returns o48;
      OK =? v50;
      category_eqb Normal (category v51);
      returns o52;
      bitwise_eq v51 v53;
      returns o54;
      INVALID_OP =? v56;
      category_eqb NaN (category v57);
      returns o58;
      bitwise_eq v57 v59]) = true.
Proof. vm_compute. reflexivity. Qed.

Example test_remainder_14 : (
   let v0 := neg (ZERO SingleS) in
   let v1 := NAN SingleS in
   let o2 := unwrap_parse (from_str SingleS (bytes "snan123")) in
   let v3 := get junk o2 in
   let o4 := unwrap_parse (from_str SingleS (bytes "0x1p+0")) in
   let v5 := get junk o4 in
   let o6 := unwrap_parse (from_str SingleS (bytes "-0x1p+0")) in
   let v7 := get junk o6 in
   let v8 := largest SingleS in
   let v9 := neg (largest SingleS) in
   let v10 := SMALLEST SingleS in
   let o11 := ieee_rem SingleS v7 v0 in
   let v12 := get (0, junk) o11 in
   let v13 := fst v12 in
   let v14 := snd v12 in
   let o15 := unwrap_parse (from_str SingleS (bytes "nan")) in
   let v16 := get junk o15 in
   let o17 := ieee_rem SingleS v7 v1 in
   let v18 := get (0, junk) o17 in
   let v19 := fst v18 in
   let v20 := snd v18 in
   let o21 := unwrap_parse (from_str SingleS (bytes "nan")) in
   let v22 := get junk o21 in
   let o23 := ieee_rem SingleS v7 v3 in
   let v24 := get (0, junk) o23 in
   let v25 := fst v24 in
   let v26 := snd v24 in
   let o27 := unwrap_parse (from_str SingleS (bytes "nan123")) in
   let v28 := get junk o27 in
   let o29 := ieee_rem SingleS v7 v5 in
   let v30 := get (0, junk) o29 in
   let v31 := fst v30 in
   let v32 := snd v30 in
   let o33 := unwrap_parse (from_str SingleS (bytes "-0x0p+0")) in
   let v34 := get junk o33 in
   let o35 := ieee_rem SingleS v7 v7 in
   let v36 := get (0, junk) o35 in
   let v37 := fst v36 in
   let v38 := snd v36 in
   let o39 := unwrap_parse (from_str SingleS (bytes "-0x0p+0")) in
   let v40 := get junk o39 in
   let o41 := ieee_rem SingleS v7 v8 in
   let v42 := get (0, junk) o41 in
   let v43 := fst v42 in
   let v44 := snd v42 in
   let o45 := unwrap_parse (from_str SingleS (bytes "-0x1p+0")) in
   let v46 := get junk o45 in
   let o47 := ieee_rem SingleS v7 v9 in
   let v48 := get (0, junk) o47 in
   let v49 := fst v48 in
   let v50 := snd v48 in
   let o51 := unwrap_parse (from_str SingleS (bytes "-0x1p+0")) in
   let v52 := get junk o51 in
   let o53 := ieee_rem SingleS v7 v10 in
   let v54 := get (0, junk) o53 in
   let v55 := fst v54 in
   let v56 := snd v54 in
   let o57 := unwrap_parse (from_str SingleS (bytes "-0x0p+0")) in
   let v58 := get junk o57 in
   all_true [
      returns o11;
      INVALID_OP =? v13;
      category_eqb NaN (category v14);
      returns o15;
      bitwise_eq v14 v16;
      returns o17;
      OK =? v19;
      category_eqb NaN (category v20);
      returns o21;
      bitwise_eq v20 v22;
      returns o23;
      INVALID_OP =? v25;
      category_eqb NaN (category v26);
      returns o27;
      bitwise_eq v26 v28;
      returns o29;
      OK =? v31;
      category_eqb Zero (category v32);
      returns o33;
      bitwise_eq v32 v34;
      returns o35;
      OK =? v37;
      category_eqb Zero (category v38);
      returns o39;
      bitwise_eq v38 v40;
      returns o41;
      OK =? v43;
      category_eqb Normal (category v44);
      returns o45;
      bitwise_eq v44 v46;
      returns o47;
      OK =? v49;
      category_eqb Normal (category v50);
      returns o51;
      bitwise_eq v50 v52;
      returns o53;
      OK =? v55;
      category_eqb Zero (category v56);
      returns o57;
      bitwise_eq v56 v58]) = true.
Proof. vm_compute. reflexivity. Qed.

Example test_remainder_15 : (
   let v0 := INFINITY SingleS in
   let v1 := neg (INFINITY SingleS) in
   let v2 := ZERO SingleS in
   let v3 := neg (ZERO SingleS) in
   let v4 := NAN SingleS in
   let o5 := unwrap_parse (from_str SingleS (bytes "-0x1p+0")) in
   let v6 := get junk o5 in
   let v7 := largest SingleS in
   let v8 := neg (SMALLEST SingleS) in
   let v9 := smallest_normalized SingleS in
   let v10 := neg (smallest_normalized SingleS) in
   let o11 := ieee_rem SingleS v6 v8 in
   let v12 := get (0, junk) o11 in
   let v13 := fst v12 in
   let v14 := snd v12 in
   let o15 := unwrap_parse (from_str SingleS (bytes "-0x0p+0")) in
   let v16 := get junk o15 in
   let o17 := ieee_rem SingleS v6 v9 in
   let v18 := get (0, junk) o17 in
   let v19 := fst v18 in
   let v20 := snd v18 in
   let o21 := unwrap_parse (from_str SingleS (bytes "-0x0p+0")) in
   let v22 := get junk o21 in
   let o23 := ieee_rem SingleS v6 v10 in
   let v24 := get (0, junk) o23 in
   let v25 := fst v24 in
   let v26 := snd v24 in
   let o27 := unwrap_parse (from_str SingleS (bytes "-0x0p+0")) in
   let v28 := get junk o27 in
   let o29 := ieee_rem SingleS v7 v0 in
   let v30 := get (0, junk) o29 in
   let v31 := fst v30 in
   let v32 := snd v30 in
   let o33 := unwrap_parse (from_str SingleS (bytes "0x1.fffffep+127")) in
   let v34 := get junk o33 in
   let o35 := ieee_rem SingleS v7 v1 in
   let v36 := get (0, junk) o35 in
   let v37 := fst v36 in
   let v38 := snd v36 in
   let o39 := unwrap_parse (from_str SingleS (bytes "0x1.fffffep+127")) in
   let v40 := get junk o39 in
   let o41 := ieee_rem SingleS v7 v2 in
   let v42 := get (0, junk) o41 in
   let v43 := fst v42 in
   let v44 := snd v42 in
   let o45 := unwrap_parse (from_str SingleS (bytes "nan")) in
   let v46 := get junk o45 in
   let o47 := ieee_rem SingleS v7 v3 in
   let v48 := get (0, junk) o47 in
   let v49 := fst v48 in
   let v50 := snd v48 in
   let o51 := unwrap_parse (from_str SingleS (bytes "nan")) in
   let v52 := get junk o51 in
   let o53 := ieee_rem SingleS v7 v4 in
   let v54 := get (0, junk) o53 in
   let v55 := fst v54 in
   let v56 := snd v54 in
   let o57 := unwrap_parse (from_str SingleS (bytes "nan")) in
   let v58 := get junk o57 in
   all_true [
      returns o11;
      OK =? v13;
      category_eqb Zero (category v14);
      returns o15;
      bitwise_eq v14 v16;
      returns o17;
      OK =? v19;
      category_eqb Zero (category v20);
      returns o21;
      bitwise_eq v20 v22;
      returns o23;
      OK =? v25;
      category_eqb Zero (category v26);
      returns o27;
      bitwise_eq v26 v28;
      returns o29;
      OK =? v31;
      category_eqb Normal (category v32);
      returns o33;
      bitwise_eq v32 v34;
      returns o35;
      OK =? v37;
      category_eqb Normal (category v38);
      returns o39;
      bitwise_eq v38 v40;
      returns o41;
      INVALID_OP =? v43;
      category_eqb NaN (category v44);
      returns o45;
      bitwise_eq v44 v46;
      returns o47;
      INVALID_OP =? v49;
      category_eqb NaN (category v50);
      returns o51;
      bitwise_eq v50 v52;
      returns o53;
      OK =? v55;
      category_eqb NaN (category v56);
      returns o57;
      bitwise_eq v56 v58]) = true.
Proof. vm_compute. reflexivity. Qed.

Example test_remainder_16 : (
   let o0 := unwrap_parse (from_str SingleS (bytes "snan123")) in
   let v1 := get junk o0 in
   let o2 := unwrap_parse (from_str SingleS (bytes "0x1p+0")) in
   let v3 := get junk o2 in
   let o4 := unwrap_parse (from_str SingleS (bytes "-0x1p+0")) in
   let v5 := get junk o4 in
   let v6 := largest SingleS in
   let v7 := neg (largest SingleS) in
   let v8 := SMALLEST SingleS in
   let v9 := neg (SMALLEST SingleS) in
   let v10 := smallest_normalized SingleS in
   let o11 := ieee_rem SingleS v6 v1 in
   let v12 := get (0, junk) o11 in
   let v13 := fst v12 in
   let v14 := snd v12 in
   let o15 := unwrap_parse (from_str SingleS (bytes "nan123")) in
   let v16 := get junk o15 in
   let o17 := ieee_rem SingleS v6 v3 in
   let v18 := get (0, junk) o17 in
   let v19 := fst v18 in
   let v20 := snd v18 in
   let o21 := unwrap_parse (from_str SingleS (bytes "0x0p+0")) in
   let v22 := get junk o21 in
   let o23 := ieee_rem SingleS v6 v5 in
   let v24 := get (0, junk) o23 in
   let v25 := fst v24 in
   let v26 := snd v24 in
   let o27 := unwrap_parse (from_str SingleS (bytes "0x0p+0")) in
   let v28 := get junk o27 in
   let o29 := ieee_rem SingleS v6 v6 in
   let v30 := get (0, junk) o29 in
   let v31 := fst v30 in
   let v32 := snd v30 in
   let o33 := unwrap_parse (from_str SingleS (bytes "0x0p+0")) in
   let v34 := get junk o33 in
   let o35 := ieee_rem SingleS v6 v7 in
   let v36 := get (0, junk) o35 in
   let v37 := fst v36 in
   let v38 := snd v36 in
   let o39 := unwrap_parse (from_str SingleS (bytes "0x0p+0")) in
   let v40 := get junk o39 in
   let o41 := ieee_rem SingleS v6 v8 in
   let v42 := get (0, junk) o41 in
   let v43 := fst v42 in
   let v44 := snd v42 in
   let o45 := unwrap_parse (from_str SingleS (bytes "0x0p+0")) in
   let v46 := get junk o45 in
   let o47 := ieee_rem SingleS v6 v9 in
   let v48 := get (0, junk) o47 in
   let v49 := fst v48 in
   let v50 := snd v48 in
   let o51 := unwrap_parse (from_str SingleS (bytes "0x0p+0")) in
   let v52 := get junk o51 in
   let o53 := ieee_rem SingleS v6 v10 in
   let v54 := get (0, junk) o53 in
   let v55 := fst v54 in
   let v56 := snd v54 in
   let o57 := unwrap_parse (from_str SingleS (bytes "0x0p+0")) in
   let v58 := get junk o57 in
   all_true [
      returns o11;
      INVALID_OP =? v13;
      category_eqb NaN (category v14);
      returns o15;
      bitwise_eq v14 v16;
      returns o17;
      OK =? v19;
      category_eqb Zero (category v20);
      returns o21;
      bitwise_eq v20 v22;
      returns o23;
      OK =? v25;
      category_eqb Zero (category v26);
      returns o27;
      bitwise_eq v26 v28;
      returns o29;
      OK =? v31;
      category_eqb Zero (category v32);
      returns o33;
      bitwise_eq v32 v34;
      returns o35;
      OK =? v37;
      category_eqb Zero (category v38);
      returns o39;
      bitwise_eq v38 v40;
      returns o41;
      OK =? v43;
      category_eqb Zero (category v44);
      returns o45;
      bitwise_eq v44 v46;
      returns o47;
      OK =? v49;
      category_eqb Zero (category v50);
      returns o51;
      bitwise_eq v50 v52;
      returns o53;
      OK =? v55;
      category_eqb Zero (category v56);
      returns o57;
      bitwise_eq v56 v58]) = true.
Proof. vm_compute. reflexivity. Qed.

Example test_remainder_17 : (
   let v0 := INFINITY SingleS in
   let v1 := neg (INFINITY SingleS) in
   let v2 := ZERO SingleS in
   let v3 := neg (ZERO SingleS) in
   let v4 := NAN SingleS in
   let o5 := unwrap_parse (from_str SingleS (bytes "snan123")) in
   let v6 := get junk o5 in
   let o7 := unwrap_parse (from_str SingleS (bytes "0x1p+0")) in
   let v8 := get junk o7 in
   let v9 := largest SingleS in
   let v10 := neg (largest SingleS) in
   let v11 := neg (smallest_normalized SingleS) in
   let o12 := ieee_rem SingleS v9 v11 in
   let v13 := get (0, junk) o12 in
   let v14 := fst v13 in
   let v15 := snd v13 in
   let o16 := unwrap_parse (from_str SingleS (bytes "0x0p+0")) in
   let v17 := get junk o16 in
   let o18 := ieee_rem SingleS v10 v0 in
   let v19 := get (0, junk) o18 in
   let v20 := fst v19 in
   let v21 := snd v19 in
   let o22 := unwrap_parse (from_str SingleS (bytes "-0x1.fffffep+127")) in
   let v23 := get junk o22 in
   let o24 := ieee_rem SingleS v10 v1 in
   let v25 := get (0, junk) o24 in
   let v26 := fst v25 in
   let v27 := snd v25 in
   let o28 := unwrap_parse (from_str SingleS (bytes "-0x1.fffffep+127")) in
   let v29 := get junk o28 in
   let o30 := ieee_rem SingleS v10 v2 in
   let v31 := get (0, junk) o30 in
   let v32 := fst v31 in
   let v33 := snd v31 in
   let o34 := unwrap_parse (from_str SingleS (bytes "nan")) in
   let v35 := get junk o34 in
   let o36 := ieee_rem SingleS v10 v3 in
   let v37 := get (0, junk) o36 in
   let v38 := fst v37 in
   let v39 := snd v37 in
   let o40 := unwrap_parse (from_str SingleS (bytes "nan")) in
   let v41 := get junk o40 in
   let o42 := ieee_rem SingleS v10 v4 in
   let v43 := get (0, junk) o42 in
   let v44 := fst v43 in
   let v45 := snd v43 in
   let o46 := unwrap_parse (from_str SingleS (bytes "nan")) in
   let v47 := get junk o46 in
   let o48 := ieee_rem SingleS v10 v6 in
   let v49 := get (0, junk) o48 in
   let v50 := fst v49 in
   let v51 := snd v49 in
   let o52 := unwrap_parse (from_str SingleS (bytes "nan123")) in
   let v53 := get junk o52 in
   let o54 := ieee_rem SingleS v10 v8 in
   let v55 := get (0, junk) o54 in
   let v56 := fst v55 in
   let v57 := snd v55 in
   let o58 := unwrap_parse (from_str SingleS (bytes "-0x0p+0")) in
   let v59 := get junk o58 in
   all_true [
      returns o12;
      OK =? v14;
      category_eqb Zero (category v15);
      returns o16;
      bitwise_eq v15 v17;
      returns o18;
      OK =? v20;
      category_eqb Normal (category v21);
      returns o22;
      bitwise_eq v21 v23;
      returns o24;
      OK =? v26;
      category_eqb Normal (category v27);
      returns o28;
      bitwise_eq v27 v29;
      returns o30;
      INVALID_OP =? v32;
      category_eqb NaN (category v33);
      returns o34;
      bitwise_eq v33 v35;
      returns o36;
      INVALID_OP =? v38;
      category_eqb NaN (category v39);
      returns o40;
      bitwise_eq v39 v41;
      returns o42;
      OK =? v44;
      category_eqb NaN (category v45);
      returns o46;
      bitwise_eq v45 v47;
      returns o48;
      INVALID_OP =? v50;
      category_eqb NaN (category v51);
      returns o52;
      bitwise_eq v51 v53;
      returns o54;
      OK =? v56;
      category_eqb Zero (category v57);
      returns o58;
      bitwise_eq v57 v59]) = true.
Proof. vm_compute. reflexivity. Qed.

Example test_remainder_18 : (
   let v0 := INFINITY SingleS in
   let o1 := unwrap_parse (from_str SingleS (bytes "-0x1p+0")) in
   let v2 := get junk o1 in
   let v3 := largest SingleS in
   let v4 := neg (largest SingleS) in
   let v5 := SMALLEST SingleS in
   let v6 := neg (SMALLEST SingleS) in
   let v7 := smallest_normalized SingleS in
   let v8 := neg (smallest_normalized SingleS) in
   let o9 := ieee_rem SingleS v4 v2 in
   let v10 := get (0, junk) o9 in
   let v11 := fst v10 in
   let v12 := snd v10 in
   let o13 := unwrap_parse (from_str SingleS (bytes "-0x0p+0")) in
   let v14 := get junk o13 in
   let o15 := ieee_rem SingleS v4 v3 in
   let v16 := get (0, junk) o15 in
   let v17 := fst v16 in
   let v18 := snd v16 in
   let o19 := unwrap_parse (from_str SingleS (bytes "-0x0p+0")) in
   let v20 := get junk o19 in
   let o21 := ieee_rem SingleS v4 v4 in
   let v22 := get (0, junk) o21 in
   let v23 := fst v22 in
   let v24 := snd v22 in
   let o25 := unwrap_parse (from_str SingleS (bytes "-0x0p+0")) in
   let v26 := get junk o25 in
   let o27 := ieee_rem SingleS v4 v5 in
   let v28 := get (0, junk) o27 in
   let v29 := fst v28 in
   let v30 := snd v28 in
   let o31 := unwrap_parse (from_str SingleS (bytes "-0x0p+0")) in
   let v32 := get junk o31 in
   let o33 := ieee_rem SingleS v4 v6 in
   let v34 := get (0, junk) o33 in
   let v35 := fst v34 in
   let v36 := snd v34 in
   let o37 := unwrap_parse (from_str SingleS (bytes "-0x0p+0")) in
   let v38 := get junk o37 in
   let o39 := ieee_rem SingleS v4 v7 in
   let v40 := get (0, junk) o39 in
   let v41 := fst v40 in
   let v42 := snd v40 in
   let o43 := unwrap_parse (from_str SingleS (bytes "-0x0p+0")) in
   let v44 := get junk o43 in
   let o45 := ieee_rem SingleS v4 v8 in
   let v46 := get (0, junk) o45 in
   let v47 := fst v46 in
   let v48 := snd v46 in
   let o49 := unwrap_parse (from_str SingleS (bytes "-0x0p+0")) in
   let v50 := get junk o49 in
   let o51 := ieee_rem SingleS v5 v0 in
   let v52 := get (0, junk) o51 in
   let v53 := fst v52 in
   let v54 := snd v52 in
   let o55 := unwrap_parse (from_str SingleS (bytes "0x1p-149")) in
   let v56 := get junk o55 in
   all_true [
      returns o9;
      OK =? v11;
      category_eqb Zero (category v12);
      returns o13;
      bitwise_eq v12 v14;
      returns o15;
      OK =? v17;
      category_eqb Zero (category v18);
      returns o19;
      bitwise_eq v18 v20;
      returns o21;
      OK =? v23;
      category_eqb Zero (category v24);
      returns o25;
      bitwise_eq v24 v26;
      returns o27;
      OK =? v29;
      category_eqb Zero (category v30);
      returns o31;
      bitwise_eq v30 v32;
      returns o33;
      OK =? v35;
      category_eqb Zero (category v36);
      returns o37;
      bitwise_eq v36 v38;
      returns o39;
      OK =? v41;
      category_eqb Zero (category v42);
      returns o43;
      bitwise_eq v42 v44;
      returns o45;
      OK =? v47;
      category_eqb Zero (category v48);
      returns o49;
      bitwise_eq v48 v50;
      returns o51;
      OK =? v53;
      category_eqb Normal (category v54);
      returns o55;
      bitwise_eq v54 v56]) = true.
Proof. vm_compute. reflexivity. Qed.

Example test_remainder_19 : (
   let v0 := neg (INFINITY SingleS) in
   let v1 := ZERO SingleS in
   let v2 := neg (ZERO SingleS) in
   let v3 := NAN SingleS in
   let o4 := unwrap_parse (from_str SingleS (bytes "snan123")) in
   let v5 := get junk o4 in
   let o6 := unwrap_parse (from_str SingleS (bytes "0x1p+0")) in
   let v7 := get junk o6 in
   let o8 := unwrap_parse (from_str SingleS (bytes "-0x1p+0")) in
   let v9 := get junk o8 in
   let v10 := largest SingleS in
   let v11 := SMALLEST SingleS in
   let o12 := ieee_rem SingleS v11 v0 in
   let v13 := get (0, junk) o12 in
   let v14 := fst v13 in
   let v15 := snd v13 in
   let o16 := unwrap_parse (from_str SingleS (bytes "0x1p-149")) in
   let v17 := get junk o16 in
   let o18 := ieee_rem SingleS v11 v1 in
   let v19 := get (0, junk) o18 in
   let v20 := fst v19 in
   let v21 := snd v19 in
   let o22 := unwrap_parse (from_str SingleS (bytes "nan")) in
   let v23 := get junk o22 in
   let o24 := ieee_rem SingleS v11 v2 in
   let v25 := get (0, junk) o24 in
   let v26 := fst v25 in
   let v27 := snd v25 in
   let o28 := unwrap_parse (from_str SingleS (bytes "nan")) in
   let v29 := get junk o28 in
   let o30 := ieee_rem SingleS v11 v3 in
   let v31 := get (0, junk) o30 in
   let v32 := fst v31 in
   let v33 := snd v31 in
   let o34 := unwrap_parse (from_str SingleS (bytes "nan")) in
   let v35 := get junk o34 in
   let o36 := ieee_rem SingleS v11 v5 in
   let v37 := get (0, junk) o36 in
   let v38 := fst v37 in
   let v39 := snd v37 in
   let o40 := unwrap_parse (from_str SingleS (bytes "nan123")) in
   let v41 := get junk o40 in
   let o42 := ieee_rem SingleS v11 v7 in
   let v43 := get (0, junk) o42 in
   let v44 := fst v43 in
   let v45 := snd v43 in
   let o46 := unwrap_parse (from_str SingleS (bytes "0x1p-149")) in
   let v47 := get junk o46 in
   let o48 := ieee_rem SingleS v11 v9 in
   let v49 := get (0, junk) o48 in
   let v50 := fst v49 in
   let v51 := snd v49 in
   let o52 := unwrap_parse (from_str SingleS (bytes "0x1p-149")) in
   let v53 := get junk o52 in
   let o54 := ieee_rem SingleS v11 v10 in
   let v55 := get (0, junk) o54 in
   let v56 := fst v55 in
   let v57 := snd v55 in
   let o58 := unwrap_parse (from_str SingleS (bytes "0x1p-149")) in
   let v59 := get junk o58 in
   all_true [
      returns o12;
      OK =? v14;
      category_eqb Normal (category v15);
      returns o16;
      bitwise_eq v15 v17;
      returns o18;
      INVALID_OP =? v20;
      category_eqb NaN (category v21);
      returns o22;
      bitwise_eq v21 v23;
      returns o24;
      INVALID_OP =? v26;
      category_eqb NaN (category v27);
      returns o28;
      bitwise_eq v27 v29;
      returns o30;
      OK =? v32;
      category_eqb NaN (category v33);
      returns o34;
      bitwise_eq v33 v35;
      returns o36;
      INVALID_OP =? v38;
      category_eqb NaN (category v39);
      returns o40;
      bitwise_eq v39 v41;
      returns o42;
      OK =? v44;
      category_eqb Normal (category v45);
      returns o46;
      bitwise_eq v45 v47;
      returns o48;
      OK =? v50;
      category_eqb Normal (category v51);
      returns o52;
      bitwise_eq v51 v53;
      returns o54;
      OK =? v56;
      category_eqb Normal (category v57);
      returns o58;
      bitwise_eq v57 v59]) = true.
Proof. vm_compute. reflexivity. Qed.

Example test_remainder_20 : (
   let v0 := INFINITY SingleS in
   let v1 := neg (INFINITY SingleS) in
   let v2 := ZERO SingleS in
   let v3 := neg (largest SingleS) in
   let v4 := SMALLEST SingleS in
   let v5 := neg (SMALLEST SingleS) in
   let v6 := smallest_normalized SingleS in
   let v7 := neg (smallest_normalized SingleS) in
   let o8 := ieee_rem SingleS v4 v3 in
   let v9 := get (0, junk) o8 in
   let v10 := fst v9 in
   let v11 := snd v9 in
   let o12 := unwrap_parse (from_str SingleS (bytes "0x1p-149")) in
   let v13 := get junk o12 in
   let o14 := ieee_rem SingleS v4 v4 in
   let v15 := get (0, junk) o14 in
   let v16 := fst v15 in
   let v17 := snd v15 in
   let o18 := unwrap_parse (from_str SingleS (bytes "0x0p+0")) in
   let v19 := get junk o18 in
   let o20 := ieee_rem SingleS v4 v5 in
   let v21 := get (0, junk) o20 in
   let v22 := fst v21 in
   let v23 := snd v21 in
   let o24 := unwrap_parse (from_str SingleS (bytes "0x0p+0")) in
   let v25 := get junk o24 in
   let o26 := ieee_rem SingleS v4 v6 in
   let v27 := get (0, junk) o26 in
   let v28 := fst v27 in
   let v29 := snd v27 in
   let o30 := unwrap_parse (from_str SingleS (bytes "0x1p-149")) in
   let v31 := get junk o30 in
   let o32 := ieee_rem SingleS v4 v7 in
   let v33 := get (0, junk) o32 in
   let v34 := fst v33 in
   let v35 := snd v33 in
   let o36 := unwrap_parse (from_str SingleS (bytes "0x1p-149")) in
   let v37 := get junk o36 in
   let o38 := ieee_rem SingleS v5 v0 in
   let v39 := get (0, junk) o38 in
   let v40 := fst v39 in
   let v41 := snd v39 in
   let o42 := unwrap_parse (from_str SingleS (bytes "-0x1p-149")) in
   let v43 := get junk o42 in
   let o44 := ieee_rem SingleS v5 v1 in
   let v45 := get (0, junk) o44 in
   let v46 := fst v45 in
   let v47 := snd v45 in
   let o48 := unwrap_parse (from_str SingleS (bytes "-0x1p-149")) in
   let v49 := get junk o48 in
   let o50 := ieee_rem SingleS v5 v2 in
   let v51 := get (0, junk) o50 in
   let v52 := fst v51 in
   let v53 := snd v51 in
   let o54 := unwrap_parse (from_str SingleS (bytes "nan")) in
   let v55 := get junk o54 in
   all_true [
      returns o8;
      OK =? v10;
      category_eqb Normal (category v11);
      returns o12;
      bitwise_eq v11 v13;
      returns o14;
      OK =? v16;
      category_eqb Zero (category v17);
      returns o18;
      bitwise_eq v17 v19;
      returns o20;
      OK =? v22;
      category_eqb Zero (category v23);
      returns o24;
      bitwise_eq v23 v25;
      returns o26;
      OK =? v28;
      category_eqb Normal (category v29);
      returns o30;
      bitwise_eq v29 v31;
      returns o32;
      OK =? v34;
      category_eqb Normal (category v35);
      returns o36;
      bitwise_eq v35 v37;
      returns o38;
      OK =? v40;
      category_eqb Normal (category v41);
      returns o42;
      bitwise_eq v41 v43;
      returns o44;
      OK =? v46;
      category_eqb Normal (category v47);
      returns o48;
      bitwise_eq v47 v49;
      returns o50;
      INVALID_OP =? v52;
      category_eqb NaN (category v53);
      returns o54;
      bitwise_eq v53 v55]) = true.
Proof. vm_compute. reflexivity. Qed.

Example test_remainder_21 : (
   let v0 := neg (ZERO SingleS) in
   let v1 := NAN SingleS in
   let o2 := unwrap_parse (from_str SingleS (bytes "snan123")) in
   let v3 := get junk o2 in
   let o4 := unwrap_parse (from_str SingleS (bytes "0x1p+0")) in
   let v5 := get junk o4 in
   let o6 := unwrap_parse (from_str SingleS (bytes "-0x1p+0")) in
   let v7 := get junk o6 in
   let v8 := largest SingleS in
   let v9 := neg (largest SingleS) in
   let v10 := SMALLEST SingleS in
   let v11 := neg (SMALLEST SingleS) in
   let o12 := ieee_rem SingleS v11 v0 in
   let v13 := get (0, junk) o12 in
   let v14 := fst v13 in
   let v15 := snd v13 in
   let o16 := unwrap_parse (from_str SingleS (bytes "nan")) in
   let v17 := get junk o16 in
   let o18 := ieee_rem SingleS v11 v1 in
   let v19 := get (0, junk) o18 in
   let v20 := fst v19 in
   let v21 := snd v19 in
   let o22 := unwrap_parse (from_str SingleS (bytes "nan")) in
   let v23 := get junk o22 in
   let o24 := ieee_rem SingleS v11 v3 in
   let v25 := get (0, junk) o24 in
   let v26 := fst v25 in
   let v27 := snd v25 in
   let o28 := unwrap_parse (from_str SingleS (bytes "nan123")) in
   let v29 := get junk o28 in
   let o30 := ieee_rem SingleS v11 v5 in
   let v31 := get (0, junk) o30 in
   let v32 := fst v31 in
   let v33 := snd v31 in
   let o34 := unwrap_parse (from_str SingleS (bytes "-0x1p-149")) in
   let v35 := get junk o34 in
   let o36 := ieee_rem SingleS v11 v7 in
   let v37 := get (0, junk) o36 in
   let v38 := fst v37 in
   let v39 := snd v37 in
   let o40 := unwrap_parse (from_str SingleS (bytes "-0x1p-149")) in
   let v41 := get junk o40 in
   let o42 := ieee_rem SingleS v11 v8 in
   let v43 := get (0, junk) o42 in
   let v44 := fst v43 in
   let v45 := snd v43 in
   let o46 := unwrap_parse (from_str SingleS (bytes "-0x1p-149")) in
   let v47 := get junk o46 in
   let o48 := ieee_rem SingleS v11 v9 in
   let v49 := get (0, junk) o48 in
   let v50 := fst v49 in
   let v51 := snd v49 in
   let o52 := unwrap_parse (from_str SingleS (bytes "-0x1p-149")) in
   let v53 := get junk o52 in
   let o54 := ieee_rem SingleS v11 v10 in
   let v55 := get (0, junk) o54 in
   let v56 := fst v55 in
   let v57 := snd v55 in
   let o58 := unwrap_parse (from_str SingleS (bytes "-0x0p+0")) in
   let v59 := get junk o58 in
   all_true [
      returns o12;
      INVALID_OP =? v14;
      category_eqb NaN (category v15);
      returns o16;
      bitwise_eq v15 v17;
      returns o18;
      OK =? v20;
      category_eqb NaN (category v21);
      returns o22;
      bitwise_eq v21 v23;
      returns o24;
      INVALID_OP =? v26;
      category_eqb NaN (category v27);
      returns o28;
      bitwise_eq v27 v29;
      returns o30;
      OK =? v32;
      category_eqb Normal (category v33);
      returns o34;
      bitwise_eq v33 v35;
      returns o36;
      OK =? v38;
      category_eqb Normal (category v39);
      returns o40;
      bitwise_eq v39 v41;
      returns o42;
      OK =? v44;
      category_eqb Normal (category v45);
      returns o46;
      bitwise_eq v45 v47;
      returns o48;
      OK =? v50;
      category_eqb Normal (category v51);
      returns o52;
      bitwise_eq v51 v53;
      returns o54;
      OK =? v56;
      category_eqb Zero (category v57);
      returns o58;
      bitwise_eq v57 v59]) = true.
Proof. vm_compute. reflexivity. Qed.

Example test_remainder_22 : (
   let v0 := INFINITY SingleS in
   let v1 := neg (INFINITY SingleS) in
   let v2 := ZERO SingleS in
   let v3 := neg (ZERO SingleS) in
   let v4 := NAN SingleS in
   let v5 := neg (SMALLEST SingleS) in
   let v6 := smallest_normalized SingleS in
   let v7 := neg (smallest_normalized SingleS) in
   let o8 := ieee_rem SingleS v5 v5 in
   let v9 := get (0, junk) o8 in
   let v10 := fst v9 in
   let v11 := snd v9 in
   let o12 := unwrap_parse (from_str SingleS (bytes "-0x0p+0")) in
   let v13 := get junk o12 in
   let o14 := ieee_rem SingleS v5 v6 in
   let v15 := get (0, junk) o14 in
   let v16 := fst v15 in
   let v17 := snd v15 in
   let o18 := unwrap_parse (from_str SingleS (bytes "-0x1p-149")) in
   let v19 := get junk o18 in
   let o20 := ieee_rem SingleS v5 v7 in
   let v21 := get (0, junk) o20 in
   let v22 := fst v21 in
   let v23 := snd v21 in
   let o24 := unwrap_parse (from_str SingleS (bytes "-0x1p-149")) in
   let v25 := get junk o24 in
   let o26 := ieee_rem SingleS v6 v0 in
   let v27 := get (0, junk) o26 in
   let v28 := fst v27 in
   let v29 := snd v27 in
   let o30 := unwrap_parse (from_str SingleS (bytes "0x1p-126")) in
   let v31 := get junk o30 in
   let o32 := ieee_rem SingleS v6 v1 in
   let v33 := get (0, junk) o32 in
   let v34 := fst v33 in
   let v35 := snd v33 in
   let o36 := unwrap_parse (from_str SingleS (bytes "0x1p-126")) in
   let v37 := get junk o36 in
   let o38 := ieee_rem SingleS v6 v2 in
   let v39 := get (0, junk) o38 in
   let v40 := fst v39 in
   let v41 := snd v39 in
   let o42 := unwrap_parse (from_str SingleS (bytes "nan")) in
   let v43 := get junk o42 in
   let o44 := ieee_rem SingleS v6 v3 in
   let v45 := get (0, junk) o44 in
   let v46 := fst v45 in
   let v47 := snd v45 in
   let o48 := unwrap_parse (from_str SingleS (bytes "nan")) in
   let v49 := get junk o48 in
   let o50 := ieee_rem SingleS v6 v4 in
   let v51 := get (0, junk) o50 in
   let v52 := fst v51 in
   let v53 := snd v51 in
   let o54 := unwrap_parse (from_str SingleS (bytes "nan")) in
   let v55 := get junk o54 in
   all_true [
      returns o8;
      OK =? v10;
      category_eqb Zero (category v11);
      returns o12;
      bitwise_eq v11 v13;
      returns o14;
      OK =? v16;
      category_eqb Normal (category v17);
      returns o18;
      bitwise_eq v17 v19;
      returns o20;
      OK =? v22;
      category_eqb Normal (category v23);
      returns o24;
      bitwise_eq v23 v25;
      returns o26;
      OK =? v28;
      category_eqb Normal (category v29);
      returns o30;
      bitwise_eq v29 v31;
      returns o32;
      OK =? v34;
      category_eqb Normal (category v35);
      returns o36;
      bitwise_eq v35 v37;
      returns o38;
      INVALID_OP =? v40;
      category_eqb NaN (category v41);
      returns o42;
      bitwise_eq v41 v43;
      returns o44;
      INVALID_OP =? v46;
      category_eqb NaN (category v47);
      returns o48;
      bitwise_eq v47 v49;
      returns o50;
      OK =? v52;
      category_eqb NaN (category v53);
      returns o54;
      bitwise_eq v53 v55]) = true.
Proof. vm_compute. reflexivity. Qed.

Example test_remainder_23 : (
   let o0 := unwrap_parse (from_str SingleS (bytes "snan123")) in
   let v1 := get junk o0 in
   let o2 := unwrap_parse (from_str SingleS (bytes "0x1p+0")) in
   let v3 := get junk o2 in
   let o4 := unwrap_parse (from_str SingleS (bytes "-0x1p+0")) in
   let v5 := get junk o4 in
   let v6 := largest SingleS in
   let v7 := neg (largest SingleS) in
   let v8 := SMALLEST SingleS in
   let v9 := neg (SMALLEST SingleS) in
   let v10 := smallest_normalized SingleS in
   let o11 := ieee_rem SingleS v10 v1 in
   let v12 := get (0, junk) o11 in
   let v13 := fst v12 in
   let v14 := snd v12 in
   let o15 := unwrap_parse (from_str SingleS (bytes "nan123")) in
   let v16 := get junk o15 in
   let o17 := ieee_rem SingleS v10 v3 in
   let v18 := get (0, junk) o17 in
   let v19 := fst v18 in
   let v20 := snd v18 in
   let o21 := unwrap_parse (from_str SingleS (bytes "0x1p-126")) in
   let v22 := get junk o21 in
   let o23 := ieee_rem SingleS v10 v5 in
   let v24 := get (0, junk) o23 in
   let v25 := fst v24 in
   let v26 := snd v24 in
   let o27 := unwrap_parse (from_str SingleS (bytes "0x1p-126")) in
   let v28 := get junk o27 in
   let o29 := ieee_rem SingleS v10 v6 in
   let v30 := get (0, junk) o29 in
   let v31 := fst v30 in
   let v32 := snd v30 in
   let o33 := unwrap_parse (from_str SingleS (bytes "0x1p-126")) in
   let v34 := get junk o33 in
   let o35 := ieee_rem SingleS v10 v7 in
   let v36 := get (0, junk) o35 in
   let v37 := fst v36 in
   let v38 := snd v36 in
   let o39 := unwrap_parse (from_str SingleS (bytes "0x1p-126")) in
   let v40 := get junk o39 in
   let o41 := ieee_rem SingleS v10 v8 in
   let v42 := get (0, junk) o41 in
   let v43 := fst v42 in
   let v44 := snd v42 in
   let o45 := unwrap_parse (from_str SingleS (bytes "0x0p+0")) in
   let v46 := get junk o45 in
   let o47 := ieee_rem SingleS v10 v9 in
   let v48 := get (0, junk) o47 in
   let v49 := fst v48 in
   let v50 := snd v48 in
   let o51 := unwrap_parse (from_str SingleS (bytes "0x0p+0")) in
   let v52 := get junk o51 in
   let o53 := ieee_rem SingleS v10 v10 in
   let v54 := get (0, junk) o53 in
   let v55 := fst v54 in
   let v56 := snd v54 in
   let o57 := unwrap_parse (from_str SingleS (bytes "0x0p+0")) in
   let v58 := get junk o57 in
   all_true [
      returns o11;
      INVALID_OP =? v13;
      category_eqb NaN (category v14);
      returns o15;
      bitwise_eq v14 v16;
      returns o17;
      OK =? v19;
      category_eqb Normal (category v20);
      returns o21;
      bitwise_eq v20 v22;
      returns o23;
      OK =? v25;
      category_eqb Normal (category v26);
      returns o27;
      bitwise_eq v26 v28;
      returns o29;
      OK =? v31;
      category_eqb Normal (category v32);
      returns o33;
      bitwise_eq v32 v34;
      returns o35;
      OK =? v37;
      category_eqb Normal (category v38);
      returns o39;
      bitwise_eq v38 v40;
      returns o41;
      OK =? v43;
      category_eqb Zero (category v44);
      returns o45;
      bitwise_eq v44 v46;
      returns o47;
      OK =? v49;
      category_eqb Zero (category v50);
      returns o51;
      bitwise_eq v50 v52;
      returns o53;
      OK =? v55;
      category_eqb Zero (category v56);
      returns o57;
      bitwise_eq v56 v58]) = true.
Proof. vm_compute. reflexivity. Qed.

Example test_remainder_24 : (
   let v0 := INFINITY SingleS in
   let v1 := neg (INFINITY SingleS) in
   let v2 := ZERO SingleS in
   let v3 := neg (ZERO SingleS) in
   let v4 := NAN SingleS in
   let o5 := unwrap_parse (from_str SingleS (bytes "snan123")) in
   let v6 := get junk o5 in
   let o7 := unwrap_parse (from_str SingleS (bytes "0x1p+0")) in
   let v8 := get junk o7 in
   let v9 := smallest_normalized SingleS in
   let v10 := neg (smallest_normalized SingleS) in
   let o11 := ieee_rem SingleS v9 v10 in
   let v12 := get (0, junk) o11 in
   let v13 := fst v12 in
   let v14 := snd v12 in
   let o15 := unwrap_parse (from_str SingleS (bytes "0x0p+0")) in
   let v16 := get junk o15 in
   let o17 := ieee_rem SingleS v10 v0 in
   let v18 := get (0, junk) o17 in
   let v19 := fst v18 in
   let v20 := snd v18 in
   let o21 := unwrap_parse (from_str SingleS (bytes "-0x1p-126")) in
   let v22 := get junk o21 in
   let o23 := ieee_rem SingleS v10 v1 in
   let v24 := get (0, junk) o23 in
   let v25 := fst v24 in
   let v26 := snd v24 in
   let o27 := unwrap_parse (from_str SingleS (bytes "-0x1p-126")) in
   let v28 := get junk o27 in
   let o29 := ieee_rem SingleS v10 v2 in
   let v30 := get (0, junk) o29 in
   let v31 := fst v30 in
   let v32 := snd v30 in
   let o33 := unwrap_parse (from_str SingleS (bytes "nan")) in
   let v34 := get junk o33 in
   let o35 := ieee_rem SingleS v10 v3 in
   let v36 := get (0, junk) o35 in
   let v37 := fst v36 in
   let v38 := snd v36 in
   let o39 := unwrap_parse (from_str SingleS (bytes "nan")) in
   let v40 := get junk o39 in
   let o41 := ieee_rem SingleS v10 v4 in
   let v42 := get (0, junk) o41 in
   let v43 := fst v42 in
   let v44 := snd v42 in
   let o45 := unwrap_parse (from_str SingleS (bytes "nan")) in
   let v46 := get junk o45 in
   let o47 := ieee_rem SingleS v10 v6 in
   let v48 := get (0, junk) o47 in
   let v49 := fst v48 in
   let v50 := snd v48 in
   let o51 := unwrap_parse (from_str SingleS (bytes "nan123")) in
   let v52 := get junk o51 in
   let o53 := ieee_rem SingleS v10 v8 in
   let v54 := get (0, junk) o53 in
   let v55 := fst v54 in
   let v56 := snd v54 in
   let o57 := unwrap_parse (from_str SingleS (bytes "-0x1p-126")) in
   let v58 := get junk o57 in
   all_true [
      returns o11;
      OK =? v13;
      category_eqb Zero (category v14);
      returns o15;
      bitwise_eq v14 v16;
      returns o17;
      OK =? v19;
      category_eqb Normal (category v20);
      returns o21;
      bitwise_eq v20 v22;
      returns o23;
      OK =? v25;
      category_eqb Normal (category v26);
      returns o27;
      bitwise_eq v26 v28;
      returns o29;
      INVALID_OP =? v31;
      category_eqb NaN (category v32);
      returns o33;
      bitwise_eq v32 v34;
      returns o35;
      INVALID_OP =? v37;
      category_eqb NaN (category v38);
      returns o39;
      bitwise_eq v38 v40;
      returns o41;
      OK =? v43;
      category_eqb NaN (category v44);
      returns o45;
      bitwise_eq v44 v46;
      returns o47;
      INVALID_OP =? v49;
      category_eqb NaN (category v50);
      returns o51;
      bitwise_eq v50 v52;
      returns o53;
      OK =? v55;
      category_eqb Normal (category v56);
      returns o57;
      bitwise_eq v56 v58]) = true.
Proof. vm_compute. reflexivity. Qed.

Example test_remainder_25 : (
   let o0 := unwrap_parse (from_str SingleS (bytes "-0x1p+0")) in
   let v1 := get junk o0 in
   let v2 := largest SingleS in
   let v3 := neg (largest SingleS) in
   let v4 := SMALLEST SingleS in
   let v5 := neg (SMALLEST SingleS) in
   let v6 := smallest_normalized SingleS in
   let v7 := neg (smallest_normalized SingleS) in
   let o8 := unwrap_parse (from_str SingleS (bytes "0x1.fffffep+126")) in
   let v9 := get junk o8 in
   let o10 := ieee_rem SingleS v7 v1 in
   let v11 := get (0, junk) o10 in
   let v12 := fst v11 in
   let v13 := snd v11 in
   let o14 := unwrap_parse (from_str SingleS (bytes "-0x1p-126")) in
   let v15 := get junk o14 in
   let o16 := ieee_rem SingleS v7 v2 in
   let v17 := get (0, junk) o16 in
   let v18 := fst v17 in
   let v19 := snd v17 in
   let o20 := unwrap_parse (from_str SingleS (bytes "-0x1p-126")) in
   let v21 := get junk o20 in
   let o22 := ieee_rem SingleS v7 v3 in
   let v23 := get (0, junk) o22 in
   let v24 := fst v23 in
   let v25 := snd v23 in
   let o26 := unwrap_parse (from_str SingleS (bytes "-0x1p-126")) in
   let v27 := get junk o26 in
   let o28 := ieee_rem SingleS v7 v4 in
   let v29 := get (0, junk) o28 in
   let v30 := fst v29 in
   let v31 := snd v29 in
   let o32 := unwrap_parse (from_str SingleS (bytes "-0x0p+0")) in
   let v33 := get junk o32 in
   let o34 := ieee_rem SingleS v7 v5 in
   let v35 := get (0, junk) o34 in
   let v36 := fst v35 in
   let v37 := snd v35 in
   let o38 := unwrap_parse (from_str SingleS (bytes "-0x0p+0")) in
   let v39 := get junk o38 in
   let o40 := ieee_rem SingleS v7 v6 in
   let v41 := get (0, junk) o40 in
   let v42 := fst v41 in
   let v43 := snd v41 in
   let o44 := unwrap_parse (from_str SingleS (bytes "-0x0p+0")) in
   let v45 := get junk o44 in
   let o46 := ieee_rem SingleS v7 v7 in
   let v47 := get (0, junk) o46 in
   let v48 := fst v47 in
   let v49 := snd v47 in
   let o50 := unwrap_parse (from_str SingleS (bytes "-0x0p+0")) in
   let v51 := get junk o50 in
   let o52 := ieee_rem SingleS v9 v9 in
   let v53 := get (0, junk) o52 in
   let v54 := fst v53 in
   let v55 := snd v53 in
   let o56 := unwrap_parse (from_str SingleS (bytes "0x0p+0")) in
   let v57 := get junk o56 in
   all_true [
      returns o10;
      OK =? v12;
      category_eqb Normal (category v13);
      returns o14;
      bitwise_eq v13 v15;
      returns o16;
      OK =? v18;
      category_eqb Normal (category v19);
      returns o20;
      bitwise_eq v19 v21;
      returns o22;
      OK =? v24;
      category_eqb Normal (category v25);
      returns o26;
      bitwise_eq v25 v27;
      returns o28;
      OK =? v30;
      category_eqb Zero (category v31);
      returns o32;
      bitwise_eq v31 v33;
      returns o34;
      OK =? v36;
      category_eqb Zero (category v37);
      returns o38;
      bitwise_eq v37 v39;
      returns o40;
      OK =? v42;
      category_eqb Zero (category v43);
      returns o44;
      bitwise_eq v43 v45;
      returns o46;
      OK =? v48;
      category_eqb Zero (category v49);
      returns o50;
      bitwise_eq v49 v51;
      returns o52;
      OK =? v54;
      category_eqb Zero (category v55);
      returns o56;
      bitwise_eq v55 v57]) = true.
Proof. vm_compute. reflexivity. Qed.

Example test_remainder_26 : (
   let o0 := unwrap_parse (from_str SingleS (bytes "0x1.fffffep+126")) in
   let v1 := get junk o0 in
   let o2 := unwrap_parse (from_str SingleS (bytes "-0x1.fffffep+126")) in
   let v3 := get junk o2 in
   let o4 := unwrap_parse (from_str SingleS (bytes "0x1.fffffep-126")) in
   let v5 := get junk o4 in
   let o6 := unwrap_parse (from_str SingleS (bytes "-0x1.fffffep-126")) in
   let v7 := get junk o6 in
   let o8 := unwrap_parse (from_str SingleS (bytes "0x1p-125")) in
   let v9 := get junk o8 in
   let o10 := unwrap_parse (from_str SingleS (bytes "-0x1p-125")) in
   let v11 := get junk o10 in
   let o12 := unwrap_parse (from_str SingleS (bytes "0x1p+127")) in
   let v13 := get junk o12 in
   let o14 := unwrap_parse (from_str SingleS (bytes "-0x1p+127")) in
   let v15 := get junk o14 in
   let o16 := unwrap_parse (from_str SingleS (bytes "1.5")) in
   let v17 := get junk o16 in
   let o18 := ieee_rem SingleS v1 v3 in
   let v19 := get (0, junk) o18 in
   let v20 := fst v19 in
   let v21 := snd v19 in
   let o22 := unwrap_parse (from_str SingleS (bytes "0x0p+0")) in
   let v23 := get junk o22 in
   let o24 := ieee_rem SingleS v1 v5 in
   let v25 := get (0, junk) o24 in
   let v26 := fst v25 in
   let v27 := snd v25 in
   let o28 := unwrap_parse (from_str SingleS (bytes "0x0p+0")) in
   let v29 := get junk o28 in
   let o30 := ieee_rem SingleS v1 v7 in
   let v31 := get (0, junk) o30 in
   let v32 := fst v31 in
   let v33 := snd v31 in
   let o34 := unwrap_parse (from_str SingleS (bytes "0x0p+0")) in
   let v35 := get junk o34 in
   let o36 := ieee_rem SingleS v1 v9 in
   let v37 := get (0, junk) o36 in
   let v38 := fst v37 in
   let v39 := snd v37 in
   let o40 := unwrap_parse (from_str SingleS (bytes "0x0p+0")) in
   let v41 := get junk o40 in
   let o42 := ieee_rem SingleS v1 v11 in
   let v43 := get (0, junk) o42 in
   let v44 := fst v43 in
   let v45 := snd v43 in
   let o46 := unwrap_parse (from_str SingleS (bytes "0x0p+0")) in
   let v47 := get junk o46 in
   let o48 := ieee_rem SingleS v1 v13 in
   let v49 := get (0, junk) o48 in
   let v50 := fst v49 in
   let v51 := snd v49 in
   let o52 := unwrap_parse (from_str SingleS (bytes "-0x1p+103")) in
   let v53 := get junk o52 in
   let o54 := ieee_rem SingleS v1 v15 in
   let v55 := get (0, junk) o54 in
   let v56 := fst v55 in
   let v57 := snd v55 in
   let o58 := unwrap_parse (from_str SingleS (bytes "-0x1p+103")) in
   let v59 := get junk o58 in
   let o60 := ieee_rem SingleS v1 v17 in
   let v61 := get (0, junk) o60 in
   let v62 := fst v61 in
   let v63 := snd v61 in
   let o64 := unwrap_parse (from_str SingleS (bytes "0x0p+0")) in
   let v65 := get junk o64 in
   all_true [
      returns o18;
      OK =? v20;
      category_eqb Zero (category v21);
      returns o22;
      bitwise_eq v21 v23;
      returns o24;
      OK =? v26;
      category_eqb Zero (category v27);
      returns o28;
      bitwise_eq v27 v29;
      returns o30;
      OK =? v32;
      category_eqb Zero (category v33);
      returns o34;
      bitwise_eq v33 v35;
      returns o36;
      OK =? v38;
      category_eqb Zero (category v39);
      returns o40;
      bitwise_eq v39 v41;
      returns o42;
      OK =? v44;
      category_eqb Zero (category v45);
      returns o46;
      bitwise_eq v45 v47;
      returns o48;
      OK =? v50;
      category_eqb Normal (category v51);
      returns o52;
      bitwise_eq v51 v53;
      returns o54;
      OK =? v56;
      category_eqb Normal (category v57);
      returns o58;
      bitwise_eq v57 v59;
      returns o60;
      OK =? v62;
      category_eqb Zero (category v63);
      returns o64;
      bitwise_eq v63 v65]) = true.
Proof. vm_compute. reflexivity. Qed.

Example test_remainder_27 : (
   let o0 := unwrap_parse (from_str SingleS (bytes "0x1.fffffep+126")) in
   let v1 := get junk o0 in
   let o2 := unwrap_parse (from_str SingleS (bytes "-0x1.fffffep+126")) in
   let v3 := get junk o2 in
   let o4 := unwrap_parse (from_str SingleS (bytes "0x1.fffffep-126")) in
   let v5 := get junk o4 in
   let o6 := unwrap_parse (from_str SingleS (bytes "-0x1.fffffep-126")) in
   let v7 := get junk o6 in
   let o8 := unwrap_parse (from_str SingleS (bytes "0x1p-125")) in
   let v9 := get junk o8 in
   let o10 := unwrap_parse (from_str SingleS (bytes "-1.5")) in
   let v11 := get junk o10 in
   let o12 := unwrap_parse (from_str SingleS (bytes "1")) in
   let v13 := get junk o12 in
   let o14 := unwrap_parse (from_str SingleS (bytes "-1")) in
   let v15 := get junk o14 in
   let o16 := ieee_rem SingleS v1 v11 in
   let v17 := get (0, junk) o16 in
   let v18 := fst v17 in
   let v19 := snd v17 in
   let o20 := unwrap_parse (from_str SingleS (bytes "0x0p+0")) in
   let v21 := get junk o20 in
   let o22 := ieee_rem SingleS v1 v13 in
   let v23 := get (0, junk) o22 in
   let v24 := fst v23 in
   let v25 := snd v23 in
   let o26 := unwrap_parse (from_str SingleS (bytes "0x0p+0")) in
   let v27 := get junk o26 in
   let o28 := ieee_rem SingleS v1 v15 in
   let v29 := get (0, junk) o28 in
   let v30 := fst v29 in
   let v31 := snd v29 in
   let o32 := unwrap_parse (from_str SingleS (bytes "0x0p+0")) in
   let v33 := get junk o32 in
   let o34 := ieee_rem SingleS v3 v1 in
   let v35 := get (0, junk) o34 in
   let v36 := fst v35 in
   let v37 := snd v35 in
   let o38 := unwrap_parse (from_str SingleS (bytes "-0x0p+0")) in
   let v39 := get junk o38 in
   let o40 := ieee_rem SingleS v3 v3 in
   let v41 := get (0, junk) o40 in
   let v42 := fst v41 in
   let v43 := snd v41 in
   let o44 := unwrap_parse (from_str SingleS (bytes "-0x0p+0")) in
   let v45 := get junk o44 in
   let o46 := ieee_rem SingleS v3 v5 in
   let v47 := get (0, junk) o46 in
   let v48 := fst v47 in
   let v49 := snd v47 in
   let o50 := unwrap_parse (from_str SingleS (bytes "-0x0p+0")) in
   let v51 := get junk o50 in
   let o52 := ieee_rem SingleS v3 v7 in
   let v53 := get (0, junk) o52 in
   let v54 := fst v53 in
   let v55 := snd v53 in
   let o56 := unwrap_parse (from_str SingleS (bytes "-0x0p+0")) in
   let v57 := get junk o56 in
   let o58 := ieee_rem SingleS v3 v9 in
   let v59 := get (0, junk) o58 in
   let v60 := fst v59 in
   let v61 := snd v59 in
   let o62 := unwrap_parse (from_str SingleS (bytes "-0x0p+0")) in
   let v63 := get junk o62 in
   all_true [
      returns o16;
      OK =? v18;
      category_eqb Zero (category v19);
      returns o20;
      bitwise_eq v19 v21;
      returns o22;
      OK =? v24;
      category_eqb Zero (category v25);
      returns o26;
      bitwise_eq v25 v27;
      returns o28;
      OK =? v30;
      category_eqb Zero (category v31);
      returns o32;
      bitwise_eq v31 v33;
      returns o34;
      OK =? v36;
      category_eqb Zero (category v37);
      returns o38;
      bitwise_eq v37 v39;
      returns o40;
      OK =? v42;
      category_eqb Zero (category v43);
      returns o44;
      bitwise_eq v43 v45;
      returns o46;
      OK =? v48;
      category_eqb Zero (category v49);
      returns o50;
      bitwise_eq v49 v51;
      returns o52;
      OK =? v54;
      category_eqb Zero (category v55);
      returns o56;
      bitwise_eq v55 v57;
      returns o58;
      OK =? v60;
      category_eqb Zero (category v61);
      returns o62;
      bitwise_eq v61 v63]) = true.
Proof. vm_compute. reflexivity. Qed.

Example test_remainder_28 : (
   let o0 := unwrap_parse (from_str SingleS (bytes "0x1.fffffep+126")) in
   let v1 := get junk o0 in
   let o2 := unwrap_parse (from_str SingleS (bytes "-0x1.fffffep+126")) in
   let v3 := get junk o2 in
   let o4 := unwrap_parse (from_str SingleS (bytes "0x1.fffffep-126")) in
   let v5 := get junk o4 in
   let o6 := unwrap_parse (from_str SingleS (bytes "-0x1p-125")) in
   let v7 := get junk o6 in
   let o8 := unwrap_parse (from_str SingleS (bytes "0x1p+127")) in
   let v9 := get junk o8 in
   let o10 := unwrap_parse (from_str SingleS (bytes "-0x1p+127")) in
   let v11 := get junk o10 in
   let o12 := unwrap_parse (from_str SingleS (bytes "1.5")) in
   let v13 := get junk o12 in
   let o14 := unwrap_parse (from_str SingleS (bytes "-1.5")) in
   let v15 := get junk o14 in
   let o16 := unwrap_parse (from_str SingleS (bytes "1")) in
   let v17 := get junk o16 in
   let o18 := unwrap_parse (from_str SingleS (bytes "-1")) in
   let v19 := get junk o18 in
   let o20 := ieee_rem SingleS v3 v7 in
   let v21 := get (0, junk) o20 in
   let v22 := fst v21 in
   let v23 := snd v21 in
   let o24 := unwrap_parse (from_str SingleS (bytes "-0x0p+0")) in
   let v25 := get junk o24 in
   let o26 := ieee_rem SingleS v3 v9 in
   let v27 := get (0, junk) o26 in
   let v28 := fst v27 in
   let v29 := snd v27 in
   let o30 := unwrap_parse (from_str SingleS (bytes "0x1p+103")) in
   let v31 := get junk o30 in
   let o32 := ieee_rem SingleS v3 v11 in
   let v33 := get (0, junk) o32 in
   let v34 := fst v33 in
   let v35 := snd v33 in
   let o36 := unwrap_parse (from_str SingleS (bytes "0x1p+103")) in
   let v37 := get junk o36 in
   let o38 := ieee_rem SingleS v3 v13 in
   let v39 := get (0, junk) o38 in
   let v40 := fst v39 in
   let v41 := snd v39 in
   let o42 := unwrap_parse (from_str SingleS (bytes "-0x0p+0")) in
   let v43 := get junk o42 in
   let o44 := ieee_rem SingleS v3 v15 in
   let v45 := get (0, junk) o44 in
   let v46 := fst v45 in
   let v47 := snd v45 in
   let o48 := unwrap_parse (from_str SingleS (bytes "-0x0p+0")) in
   let v49 := get junk o48 in
   let o50 := ieee_rem SingleS v3 v17 in
   let v51 := get (0, junk) o50 in
   let v52 := fst v51 in
   let v53 := snd v51 in
   let o54 := unwrap_parse (from_str SingleS (bytes "-0x0p+0")) in
   let v55 := get junk o54 in
   let o56 := ieee_rem SingleS v3 v19 in
   let v57 := get (0, junk) o56 in
   let v58 := fst v57 in
   let v59 := snd v57 in
   let o60 := unwrap_parse (from_str SingleS (bytes "-0x0p+0")) in
   let v61 := get junk o60 in
   let o62 := ieee_rem SingleS v5 v1 in
   let v63 := get (0, junk) o62 in
   let v64 := fst v63 in
   let v65 := snd v63 in
   let o66 := unwrap_parse (from_str SingleS (bytes "0x1.fffffep-126")) in
   let v67 := get junk o66 in
   all_true [
      returns o20;
      OK =? v22;
      category_eqb Zero (category v23);
      returns o24;
      bitwise_eq v23 v25;
      returns o26;
      OK =? v28;
      category_eqb Normal (category v29);
      returns o30;
      bitwise_eq v29 v31;
      returns o32;
      OK =? v34;
      category_eqb Normal (category v35);
      returns o36;
      bitwise_eq v35 v37;
      returns o38;
      OK =? v40;
      category_eqb Zero (category v41);
      returns o42;
      bitwise_eq v41 v43;
      returns o44;
      OK =? v46;
      category_eqb Zero (category v47);
      returns o48;
      bitwise_eq v47 v49;
      returns o50;
      OK =? v52;
      category_eqb Zero (category v53);
      returns o54;
      bitwise_eq v53 v55;
      returns o56;
      OK =? v58;
      category_eqb Zero (category v59);
      returns o60;
      bitwise_eq v59 v61;
      returns o62;
      OK =? v64;
      category_eqb Normal (category v65);
      returns o66;
      bitwise_eq v65 v67]) = true.
Proof. vm_compute. reflexivity. Qed.

Example test_remainder_29 : (
   let o0 := unwrap_parse (from_str SingleS (bytes "-0x1.fffffep+126")) in
   let v1 := get junk o0 in
   let o2 := unwrap_parse (from_str SingleS (bytes "0x1.fffffep-126")) in
   let v3 := get junk o2 in
   let o4 := unwrap_parse (from_str SingleS (bytes "-0x1.fffffep-126")) in
   let v5 := get junk o4 in
   let o6 := unwrap_parse (from_str SingleS (bytes "0x1p-125")) in
   let v7 := get junk o6 in
   let o8 := unwrap_parse (from_str SingleS (bytes "-0x1p-125")) in
   let v9 := get junk o8 in
   let o10 := unwrap_parse (from_str SingleS (bytes "0x1p+127")) in
   let v11 := get junk o10 in
   let o12 := unwrap_parse (from_str SingleS (bytes "-0x1p+127")) in
   let v13 := get junk o12 in
   let o14 := unwrap_parse (from_str SingleS (bytes "1.5")) in
   let v15 := get junk o14 in
   let o16 := ieee_rem SingleS v3 v1 in
   let v17 := get (0, junk) o16 in
   let v18 := fst v17 in
   let v19 := snd v17 in
   let o20 := unwrap_parse (from_str SingleS (bytes "0x1.fffffep-126")) in
   let v21 := get junk o20 in
   let o22 := ieee_rem SingleS v3 v3 in
   let v23 := get (0, junk) o22 in
   let v24 := fst v23 in
   let v25 := snd v23 in
   let o26 := unwrap_parse (from_str SingleS (bytes "0x0p+0")) in
   let v27 := get junk o26 in
   let o28 := ieee_rem SingleS v3 v5 in
   let v29 := get (0, junk) o28 in
   let v30 := fst v29 in
   let v31 := snd v29 in
   let o32 := unwrap_parse (from_str SingleS (bytes "0x0p+0")) in
   let v33 := get junk o32 in
   let o34 := ieee_rem SingleS v3 v7 in
   let v35 := get (0, junk) o34 in
   let v36 := fst v35 in
   let v37 := snd v35 in
   let o38 := unwrap_parse (from_str SingleS (bytes "-0x0.000002p-126")) in
   let v39 := get junk o38 in
   let o40 := ieee_rem SingleS v3 v9 in
   let v41 := get (0, junk) o40 in
   let v42 := fst v41 in
   let v43 := snd v41 in
   let o44 := unwrap_parse (from_str SingleS (bytes "-0x0.000002p-126")) in
   let v45 := get junk o44 in
   let o46 := ieee_rem SingleS v3 v11 in
   let v47 := get (0, junk) o46 in
   let v48 := fst v47 in
   let v49 := snd v47 in
   let o50 := unwrap_parse (from_str SingleS (bytes "0x1.fffffep-126")) in
   let v51 := get junk o50 in
   let o52 := ieee_rem SingleS v3 v13 in
   let v53 := get (0, junk) o52 in
   let v54 := fst v53 in
   let v55 := snd v53 in
   let o56 := unwrap_parse (from_str SingleS (bytes "0x1.fffffep-126")) in
   let v57 := get junk o56 in
   let o58 := ieee_rem SingleS v3 v15 in
   let v59 := get (0, junk) o58 in
   let v60 := fst v59 in
   let v61 := snd v59 in
   let o62 := unwrap_parse (from_str SingleS (bytes "0x1.fffffep-126")) in
   let v63 := get junk o62 in
   all_true [
      returns o16;
      OK =? v18;
      category_eqb Normal (category v19);
      returns o20;
      bitwise_eq v19 v21;
      returns o22;
      OK =? v24;
      category_eqb Zero (category v25);
      returns o26;
      bitwise_eq v25 v27;
      returns o28;
      OK =? v30;
      category_eqb Zero (category v31);
      returns o32;
      bitwise_eq v31 v33;
      returns o34;
      OK =? v36;
      category_eqb Normal (category v37);
      returns o38;
      bitwise_eq v37 v39;
      returns o40;
      OK =? v42;
      category_eqb Normal (category v43);
      returns o44;
      bitwise_eq v43 v45;
      returns o46;
      OK =? v48;
      category_eqb Normal (category v49);
      returns o50;
      bitwise_eq v49 v51;
      returns o52;
      OK =? v54;
      category_eqb Normal (category v55);
      returns o56;
      bitwise_eq v55 v57;
      returns o58;
      OK =? v60;
      category_eqb Normal (category v61);
      returns o62;
      bitwise_eq v61 v63]) = true.
Proof. vm_compute. reflexivity. Qed.

Example test_remainder_30 : (
   let o0 := unwrap_parse (from_str SingleS (bytes "0x1.fffffep+126")) in
   let v1 := get junk o0 in
   let o2 := unwrap_parse (from_str SingleS (bytes "-0x1.fffffep+126")) in
   let v3 := get junk o2 in
   let o4 := unwrap_parse (from_str SingleS (bytes "0x1.fffffep-126")) in
   let v5 := get junk o4 in
   let o6 := unwrap_parse (from_str SingleS (bytes "-0x1.fffffep-126")) in
   let v7 := get junk o6 in
   let o8 := unwrap_parse (from_str SingleS (bytes "0x1p-125")) in
   let v9 := get junk o8 in
   let o10 := unwrap_parse (from_str SingleS (bytes "-1.5")) in
   let v11 := get junk o10 in
   let o12 := unwrap_parse (from_str SingleS (bytes "1")) in
   let v13 := get junk o12 in
   let o14 := unwrap_parse (from_str SingleS (bytes "-1")) in
   let v15 := get junk o14 in
   let o16 := ieee_rem SingleS v5 v11 in
   let v17 := get (0, junk) o16 in
   let v18 := fst v17 in
   let v19 := snd v17 in
   let o20 := unwrap_parse (from_str SingleS (bytes "0x1.fffffep-126")) in
   let v21 := get junk o20 in
   let o22 := ieee_rem SingleS v5 v13 in
   let v23 := get (0, junk) o22 in
   let v24 := fst v23 in
   let v25 := snd v23 in
   let o26 := unwrap_parse (from_str SingleS (bytes "0x1.fffffep-126")) in
   let v27 := get junk o26 in
   let o28 := ieee_rem SingleS v5 v15 in
   let v29 := get (0, junk) o28 in
   let v30 := fst v29 in
   let v31 := snd v29 in
   let o32 := unwrap_parse (from_str SingleS (bytes "0x1.fffffep-126")) in
   let v33 := get junk o32 in
   let o34 := ieee_rem SingleS v7 v1 in
   let v35 := get (0, junk) o34 in
   let v36 := fst v35 in
   let v37 := snd v35 in
   let o38 := unwrap_parse (from_str SingleS (bytes "-0x1.fffffep-126")) in
   let v39 := get junk o38 in
   let o40 := ieee_rem SingleS v7 v3 in
   let v41 := get (0, junk) o40 in
   let v42 := fst v41 in
   let v43 := snd v41 in
   let o44 := unwrap_parse (from_str SingleS (bytes "-0x1.fffffep-126")) in
   let v45 := get junk o44 in
   let o46 := ieee_rem SingleS v7 v5 in
   let v47 := get (0, junk) o46 in
   let v48 := fst v47 in
   let v49 := snd v47 in
   let o50 := unwrap_parse (from_str SingleS (bytes "-0x0p+0")) in
   let v51 := get junk o50 in
   let o52 := ieee_rem SingleS v7 v7 in
   let v53 := get (0, junk) o52 in
   let v54 := fst v53 in
   let v55 := snd v53 in
   let o56 := unwrap_parse (from_str SingleS (bytes "-0x0p+0")) in
   let v57 := get junk o56 in
   let o58 := ieee_rem SingleS v7 v9 in
   let v59 := get (0, junk) o58 in
   let v60 := fst v59 in
   let v61 := snd v59 in
   let o62 := unwrap_parse (from_str SingleS (bytes "0x0.000002p-126")) in
   let v63 := get junk o62 in
   all_true [
      returns o16;
      OK =? v18;
      category_eqb Normal (category v19);
      returns o20;
      bitwise_eq v19 v21;
      returns o22;
      OK =? v24;
      category_eqb Normal (category v25);
      returns o26;
      bitwise_eq v25 v27;
      returns o28;
      OK =? v30;
      category_eqb Normal (category v31);
      returns o32;
      bitwise_eq v31 v33;
      returns o34;
      OK =? v36;
      category_eqb Normal (category v37);
      returns o38;
      bitwise_eq v37 v39;
      returns o40;
      OK =? v42;
      category_eqb Normal (category v43);
      returns o44;
      bitwise_eq v43 v45;
      returns o46;
      OK =? v48;
      category_eqb Zero (category v49);
      returns o50;
      bitwise_eq v49 v51;
      returns o52;
      OK =? v54;
      category_eqb Zero (category v55);
      returns o56;
      bitwise_eq v55 v57;
      returns o58;
      OK =? v60;
      category_eqb Normal (category v61);
      returns o62;
      bitwise_eq v61 v63]) = true.
Proof. vm_compute. reflexivity. Qed.

Example test_remainder_31 : (
   let o0 := unwrap_parse (from_str SingleS (bytes "0x1.fffffep+126")) in
   let v1 := get junk o0 in
   let o2 := unwrap_parse (from_str SingleS (bytes "-0x1.fffffep-126")) in
   let v3 := get junk o2 in
   let o4 := unwrap_parse (from_str SingleS (bytes "0x1p-125")) in
   let v5 := get junk o4 in
   let o6 := unwrap_parse (from_str SingleS (bytes "-0x1p-125")) in
   let v7 := get junk o6 in
   let o8 := unwrap_parse (from_str SingleS (bytes "0x1p+127")) in
   let v9 := get junk o8 in
   let o10 := unwrap_parse (from_str SingleS (bytes "-0x1p+127")) in
   let v11 := get junk o10 in
   let o12 := unwrap_parse (from_str SingleS (bytes "1.5")) in
   let v13 := get junk o12 in
   let o14 := unwrap_parse (from_str SingleS (bytes "-1.5")) in
   let v15 := get junk o14 in
   let o16 := unwrap_parse (from_str SingleS (bytes "1")) in
   let v17 := get junk o16 in
   let o18 := unwrap_parse (from_str SingleS (bytes "-1")) in
   let v19 := get junk o18 in
   let o20 := ieee_rem SingleS v3 v7 in
   let v21 := get (0, junk) o20 in
   let v22 := fst v21 in
   let v23 := snd v21 in
   let o24 := unwrap_parse (from_str SingleS (bytes "0x0.000002p-126")) in
   let v25 := get junk o24 in
   let o26 := ieee_rem SingleS v3 v9 in
   let v27 := get (0, junk) o26 in
   let v28 := fst v27 in
   let v29 := snd v27 in
   let o30 := unwrap_parse (from_str SingleS (bytes "-0x1.fffffep-126")) in
   let v31 := get junk o30 in
   let o32 := ieee_rem SingleS v3 v11 in
   let v33 := get (0, junk) o32 in
   let v34 := fst v33 in
   let v35 := snd v33 in
   let o36 := unwrap_parse (from_str SingleS (bytes "-0x1.fffffep-126")) in
   let v37 := get junk o36 in
   let o38 := ieee_rem SingleS v3 v13 in
   let v39 := get (0, junk) o38 in
   let v40 := fst v39 in
   let v41 := snd v39 in
   let o42 := unwrap_parse (from_str SingleS (bytes "-0x1.fffffep-126")) in
   let v43 := get junk o42 in
   let o44 := ieee_rem SingleS v3 v15 in
   let v45 := get (0, junk) o44 in
   let v46 := fst v45 in
   let v47 := snd v45 in
   let o48 := unwrap_parse (from_str SingleS (bytes "-0x1.fffffep-126")) in
   let v49 := get junk o48 in
   let o50 := ieee_rem SingleS v3 v17 in
   let v51 := get (0, junk) o50 in
   let v52 := fst v51 in
   let v53 := snd v51 in
   let o54 := unwrap_parse (from_str SingleS (bytes "-0x1.fffffep-126")) in
   let v55 := get junk o54 in
   let o56 := ieee_rem SingleS v3 v19 in
   let v57 := get (0, junk) o56 in
   let v58 := fst v57 in
   let v59 := snd v57 in
   let o60 := unwrap_parse (from_str SingleS (bytes "-0x1.fffffep-126")) in
   let v61 := get junk o60 in
   let o62 := ieee_rem SingleS v5 v1 in
   let v63 := get (0, junk) o62 in
   let v64 := fst v63 in
   let v65 := snd v63 in
   let o66 := unwrap_parse (from_str SingleS (bytes "0x1p-125")) in
   let v67 := get junk o66 in
   all_true [
      returns o20;
      OK =? v22;
      category_eqb Normal (category v23);
      returns o24;
      bitwise_eq v23 v25;
      returns o26;
      OK =? v28;
      category_eqb Normal (category v29);
      returns o30;
      bitwise_eq v29 v31;
      returns o32;
      OK =? v34;
      category_eqb Normal (category v35);
      returns o36;
      bitwise_eq v35 v37;
      returns o38;
      OK =? v40;
      category_eqb Normal (category v41);
      returns o42;
      bitwise_eq v41 v43;
      returns o44;
      OK =? v46;
      category_eqb Normal (category v47);
      returns o48;
      bitwise_eq v47 v49;
      returns o50;
      OK =? v52;
      category_eqb Normal (category v53);
      returns o54;
      bitwise_eq v53 v55;
      returns o56;
      OK =? v58;
      category_eqb Normal (category v59);
      returns o60;
      bitwise_eq v59 v61;
      returns o62;
      OK =? v64;
      category_eqb Normal (category v65);
      returns o66;
      bitwise_eq v65 v67]) = true.
Proof. vm_compute. reflexivity. Qed.

Example test_remainder_32 : (
   let o0 := unwrap_parse (from_str SingleS (bytes "-0x1.fffffep+126")) in
   let v1 := get junk o0 in
   let o2 := unwrap_parse (from_str SingleS (bytes "0x1.fffffep-126")) in
   let v3 := get junk o2 in
   let o4 := unwrap_parse (from_str SingleS (bytes "-0x1.fffffep-126")) in
   let v5 := get junk o4 in
   let o6 := unwrap_parse (from_str SingleS (bytes "0x1p-125")) in
   let v7 := get junk o6 in
   let o8 := unwrap_parse (from_str SingleS (bytes "-0x1p-125")) in
   let v9 := get junk o8 in
   let o10 := unwrap_parse (from_str SingleS (bytes "0x1p+127")) in
   let v11 := get junk o10 in
   let o12 := unwrap_parse (from_str SingleS (bytes "-0x1p+127")) in
   let v13 := get junk o12 in
   let o14 := unwrap_parse (from_str SingleS (bytes "1.5")) in
   let v15 := get junk o14 in
   let o16 := ieee_rem SingleS v7 v1 in
   let v17 := get (0, junk) o16 in
   let v18 := fst v17 in
   let v19 := snd v17 in
   let o20 := unwrap_parse (from_str SingleS (bytes "0x1p-125")) in
   let v21 := get junk o20 in
   let o22 := ieee_rem SingleS v7 v3 in
   let v23 := get (0, junk) o22 in
   let v24 := fst v23 in
   let v25 := snd v23 in
   let o26 := unwrap_parse (from_str SingleS (bytes "0x0.000002p-126")) in
   let v27 := get junk o26 in
   let o28 := ieee_rem SingleS v7 v5 in
   let v29 := get (0, junk) o28 in
   let v30 := fst v29 in
   let v31 := snd v29 in
   let o32 := unwrap_parse (from_str SingleS (bytes "0x0.000002p-126")) in
   let v33 := get junk o32 in
   let o34 := ieee_rem SingleS v7 v7 in
   let v35 := get (0, junk) o34 in
   let v36 := fst v35 in
   let v37 := snd v35 in
   let o38 := unwrap_parse (from_str SingleS (bytes "0x0p+0")) in
   let v39 := get junk o38 in
   let o40 := ieee_rem SingleS v7 v9 in
   let v41 := get (0, junk) o40 in
   let v42 := fst v41 in
   let v43 := snd v41 in
   let o44 := unwrap_parse (from_str SingleS (bytes "0x0p+0")) in
   let v45 := get junk o44 in
   let o46 := ieee_rem SingleS v7 v11 in
   let v47 := get (0, junk) o46 in
   let v48 := fst v47 in
   let v49 := snd v47 in
   let o50 := unwrap_parse (from_str SingleS (bytes "0x1p-125")) in
   let v51 := get junk o50 in
   let o52 := ieee_rem SingleS v7 v13 in
   let v53 := get (0, junk) o52 in
   let v54 := fst v53 in
   let v55 := snd v53 in
   let o56 := unwrap_parse (from_str SingleS (bytes "0x1p-125")) in
   let v57 := get junk o56 in
   let o58 := ieee_rem SingleS v7 v15 in
   let v59 := get (0, junk) o58 in
   let v60 := fst v59 in
   let v61 := snd v59 in
   let o62 := unwrap_parse (from_str SingleS (bytes "0x1p-125")) in
   let v63 := get junk o62 in
   all_true [
      returns o16;
      OK =? v18;
      category_eqb Normal (category v19);
      returns o20;
      bitwise_eq v19 v21;
      returns o22;
      OK =? v24;
      category_eqb Normal (category v25);
      returns o26;
      bitwise_eq v25 v27;
      returns o28;
      OK =? v30;
      category_eqb Normal (category v31);
      returns o32;
      bitwise_eq v31 v33;
      returns o34;
      OK =? v36;
      category_eqb Zero (category v37);
      returns o38;
      bitwise_eq v37 v39;
      returns o40;
      OK =? v42;
      category_eqb Zero (category v43);
      returns o44;
      bitwise_eq v43 v45;
      returns o46;
      OK =? v48;
      category_eqb Normal (category v49);
      returns o50;
      bitwise_eq v49 v51;
      returns o52;
      OK =? v54;
      category_eqb Normal (category v55);
      returns o56;
      bitwise_eq v55 v57;
      returns o58;
      OK =? v60;
      category_eqb Normal (category v61);
      returns o62;
      bitwise_eq v61 v63]) = true.
Proof. vm_compute. reflexivity. Qed.

Example test_remainder_33 : (
   let o0 := unwrap_parse (from_str SingleS (bytes "0x1.fffffep+126")) in
   let v1 := get junk o0 in
   let o2 := unwrap_parse (from_str SingleS (bytes "-0x1.fffffep+126")) in
   let v3 := get junk o2 in
   let o4 := unwrap_parse (from_str SingleS (bytes "0x1.fffffep-126")) in
   let v5 := get junk o4 in
   let o6 := unwrap_parse (from_str SingleS (bytes "-0x1.fffffep-126")) in
   let v7 := get junk o6 in
   let o8 := unwrap_parse (from_str SingleS (bytes "0x1p-125")) in
   let v9 := get junk o8 in
   let o10 := unwrap_parse (from_str SingleS (bytes "-0x1p-125")) in
   let v11 := get junk o10 in
   let o12 := unwrap_parse (from_str SingleS (bytes "-1.5")) in
   let v13 := get junk o12 in
   let o14 := unwrap_parse (from_str SingleS (bytes "1")) in
   let v15 := get junk o14 in
   let o16 := unwrap_parse (from_str SingleS (bytes "-1")) in
   let v17 := get junk o16 in
   let o18 := ieee_rem SingleS v9 v13 in
   let v19 := get (0, junk) o18 in
   let v20 := fst v19 in
   let v21 := snd v19 in
   let o22 := unwrap_parse (from_str SingleS (bytes "0x1p-125")) in
   let v23 := get junk o22 in
   let o24 := ieee_rem SingleS v9 v15 in
   let v25 := get (0, junk) o24 in
   let v26 := fst v25 in
   let v27 := snd v25 in
   let o28 := unwrap_parse (from_str SingleS (bytes "0x1p-125")) in
   let v29 := get junk o28 in
   let o30 := ieee_rem SingleS v9 v17 in
   let v31 := get (0, junk) o30 in
   let v32 := fst v31 in
   let v33 := snd v31 in
   let o34 := unwrap_parse (from_str SingleS (bytes "0x1p-125")) in
   let v35 := get junk o34 in
   let o36 := ieee_rem SingleS v11 v1 in
   let v37 := get (0, junk) o36 in
   let v38 := fst v37 in
   let v39 := snd v37 in
   let o40 := unwrap_parse (from_str SingleS (bytes "-0x1p-125")) in
   let v41 := get junk o40 in
   let o42 := ieee_rem SingleS v11 v3 in
   let v43 := get (0, junk) o42 in
   let v44 := fst v43 in
   let v45 := snd v43 in
   let o46 := unwrap_parse (from_str SingleS (bytes "-0x1p-125")) in
   let v47 := get junk o46 in
   let o48 := ieee_rem SingleS v11 v5 in
   let v49 := get (0, junk) o48 in
   let v50 := fst v49 in
   let v51 := snd v49 in
   let o52 := unwrap_parse (from_str SingleS (bytes "-0x0.000002p-126")) in
   let v53 := get junk o52 in
   let o54 := ieee_rem SingleS v11 v7 in
   let v55 := get (0, junk) o54 in
   let v56 := fst v55 in
   let v57 := snd v55 in
   let o58 := unwrap_parse (from_str SingleS (bytes "-0x0.000002p-126")) in
   let v59 := get junk o58 in
   let o60 := ieee_rem SingleS v11 v9 in
   let v61 := get (0, junk) o60 in
   let v62 := fst v61 in
   let v63 := snd v61 in
   let o64 := unwrap_parse (from_str SingleS (bytes "-0x0p+0")) in
   let v65 := get junk o64 in
   all_true [
      returns o18;
      OK =? v20;
      category_eqb Normal (category v21);
      returns o22;
      bitwise_eq v21 v23;
      returns o24;
      OK =? v26;
      category_eqb Normal (category v27);
      returns o28;
      bitwise_eq v27 v29;
      returns o30;
      OK =? v32;
      category_eqb Normal (category v33);
      returns o34;
      bitwise_eq v33 v35;
      returns o36;
      OK =? v38;
      category_eqb Normal (category v39);
      returns o40;
      bitwise_eq v39 v41;
      returns o42;
      OK =? v44;
      category_eqb Normal (category v45);
      returns o46;
      bitwise_eq v45 v47;
      returns o48;
      OK =? v50;
      category_eqb Normal (category v51);
      returns o52;
      bitwise_eq v51 v53;
      returns o54;
      OK =? v56;
      category_eqb Normal (category v57);
      returns o58;
      bitwise_eq v57 v59;
      returns o60;
      OK =? v62;
      category_eqb Zero (category v63);
      returns o64;
      bitwise_eq v63 v65]) = true.
Proof. vm_compute. reflexivity. Qed.

Example test_remainder_34 : (
   let o0 := unwrap_parse (from_str SingleS (bytes "0x1.fffffep+126")) in
   let v1 := get junk o0 in
   let o2 := unwrap_parse (from_str SingleS (bytes "-0x1p-125")) in
   let v3 := get junk o2 in
   let o4 := unwrap_parse (from_str SingleS (bytes "0x1p+127")) in
   let v5 := get junk o4 in
   let o6 := unwrap_parse (from_str SingleS (bytes "-0x1p+127")) in
   let v7 := get junk o6 in
   let o8 := unwrap_parse (from_str SingleS (bytes "1.5")) in
   let v9 := get junk o8 in
   let o10 := unwrap_parse (from_str SingleS (bytes "-1.5")) in
   let v11 := get junk o10 in
   let o12 := unwrap_parse (from_str SingleS (bytes "1")) in
   let v13 := get junk o12 in
   let o14 := unwrap_parse (from_str SingleS (bytes "-1")) in
   let v15 := get junk o14 in
   let o16 := ieee_rem SingleS v3 v3 in
   let v17 := get (0, junk) o16 in
   let v18 := fst v17 in
   let v19 := snd v17 in
   let o20 := unwrap_parse (from_str SingleS (bytes "-0x0p+0")) in
   let v21 := get junk o20 in
   let o22 := ieee_rem SingleS v3 v5 in
   let v23 := get (0, junk) o22 in
   let v24 := fst v23 in
   let v25 := snd v23 in
   let o26 := unwrap_parse (from_str SingleS (bytes "-0x1p-125")) in
   let v27 := get junk o26 in
   let o28 := ieee_rem SingleS v3 v7 in
   let v29 := get (0, junk) o28 in
   let v30 := fst v29 in
   let v31 := snd v29 in
   let o32 := unwrap_parse (from_str SingleS (bytes "-0x1p-125")) in
   let v33 := get junk o32 in
   let o34 := ieee_rem SingleS v3 v9 in
   let v35 := get (0, junk) o34 in
   let v36 := fst v35 in
   let v37 := snd v35 in
   let o38 := unwrap_parse (from_str SingleS (bytes "-0x1p-125")) in
   let v39 := get junk o38 in
   let o40 := ieee_rem SingleS v3 v11 in
   let v41 := get (0, junk) o40 in
   let v42 := fst v41 in
   let v43 := snd v41 in
   let o44 := unwrap_parse (from_str SingleS (bytes "-0x1p-125")) in
   let v45 := get junk o44 in
   let o46 := ieee_rem SingleS v3 v13 in
   let v47 := get (0, junk) o46 in
   let v48 := fst v47 in
   let v49 := snd v47 in
   let o50 := unwrap_parse (from_str SingleS (bytes "-0x1p-125")) in
   let v51 := get junk o50 in
   let o52 := ieee_rem SingleS v3 v15 in
   let v53 := get (0, junk) o52 in
   let v54 := fst v53 in
   let v55 := snd v53 in
   let o56 := unwrap_parse (from_str SingleS (bytes "-0x1p-125")) in
   let v57 := get junk o56 in
   let o58 := ieee_rem SingleS v5 v1 in
   let v59 := get (0, junk) o58 in
   let v60 := fst v59 in
   let v61 := snd v59 in
   let o62 := unwrap_parse (from_str SingleS (bytes "0x1p+103")) in
   let v63 := get junk o62 in
   all_true [
      returns o16;
      OK =? v18;
      category_eqb Zero (category v19);
      returns o20;
      bitwise_eq v19 v21;
      returns o22;
      OK =? v24;
      category_eqb Normal (category v25);
      returns o26;
      bitwise_eq v25 v27;
      returns o28;
      OK =? v30;
      category_eqb Normal (category v31);
      returns o32;
      bitwise_eq v31 v33;
      returns o34;
      OK =? v36;
      category_eqb Normal (category v37);
      returns o38;
      bitwise_eq v37 v39;
      returns o40;
      OK =? v42;
      category_eqb Normal (category v43);
      returns o44;
      bitwise_eq v43 v45;
      returns o46;
      OK =? v48;
      category_eqb Normal (category v49);
      returns o50;
      bitwise_eq v49 v51;
      returns o52;
      OK =? v54;
      category_eqb Normal (category v55);
      returns o56;
      bitwise_eq v55 v57;
      returns o58;
      OK =? v60;
      category_eqb Normal (category v61);
      returns o62;
      bitwise_eq v61 v63]) = true.
Proof. vm_compute. reflexivity. Qed.

Example test_remainder_35 : (
   let o0 := unwrap_parse (from_str SingleS (bytes "-0x1.fffffep+126")) in
   let v1 := get junk o0 in
   let o2 := unwrap_parse (from_str SingleS (bytes "0x1.fffffep-126")) in
   let v3 := get junk o2 in
   let o4 := unwrap_parse (from_str SingleS (bytes "-0x1.fffffep-126")) in
   let v5 := get junk o4 in
   let o6 := unwrap_parse (from_str SingleS (bytes "0x1p-125")) in
   let v7 := get junk o6 in
   let o8 := unwrap_parse (from_str SingleS (bytes "-0x1p-125")) in
   let v9 := get junk o8 in
   let o10 := unwrap_parse (from_str SingleS (bytes "0x1p+127")) in
   let v11 := get junk o10 in
   let o12 := unwrap_parse (from_str SingleS (bytes "-0x1p+127")) in
   let v13 := get junk o12 in
   let o14 := unwrap_parse (from_str SingleS (bytes "1.5")) in
   let v15 := get junk o14 in
   let o16 := ieee_rem SingleS v11 v1 in
   let v17 := get (0, junk) o16 in
   let v18 := fst v17 in
   let v19 := snd v17 in
   let o20 := unwrap_parse (from_str SingleS (bytes "0x1p+103")) in
   let v21 := get junk o20 in
   let o22 := ieee_rem SingleS v11 v3 in
   let v23 := get (0, junk) o22 in
   let v24 := fst v23 in
   let v25 := snd v23 in
   let o26 := unwrap_parse (from_str SingleS (bytes "0x0.002p-126")) in
   let v27 := get junk o26 in
   let o28 := ieee_rem SingleS v11 v5 in
   let v29 := get (0, junk) o28 in
   let v30 := fst v29 in
   let v31 := snd v29 in
   let o32 := unwrap_parse (from_str SingleS (bytes "0x0.002p-126")) in
   let v33 := get junk o32 in
   let o34 := ieee_rem SingleS v11 v7 in
   let v35 := get (0, junk) o34 in
   let v36 := fst v35 in
   let v37 := snd v35 in
   let o38 := unwrap_parse (from_str SingleS (bytes "0x0p+0")) in
   let v39 := get junk o38 in
   let o40 := ieee_rem SingleS v11 v9 in
   let v41 := get (0, junk) o40 in
   let v42 := fst v41 in
   let v43 := snd v41 in
   let o44 := unwrap_parse (from_str SingleS (bytes "0x0p+0")) in
   let v45 := get junk o44 in
   let o46 := ieee_rem SingleS v11 v11 in
   let v47 := get (0, junk) o46 in
   let v48 := fst v47 in
   let v49 := snd v47 in
   let o50 := unwrap_parse (from_str SingleS (bytes "0x0p+0")) in
   let v51 := get junk o50 in
   let o52 := ieee_rem SingleS v11 v13 in
   let v53 := get (0, junk) o52 in
   let v54 := fst v53 in
   let v55 := snd v53 in
   let o56 := unwrap_parse (from_str SingleS (bytes "0x0p+0")) in
   let v57 := get junk o56 in
   let o58 := ieee_rem SingleS v11 v15 in
   let v59 := get (0, junk) o58 in
   let v60 := fst v59 in
   let v61 := snd v59 in
   let o62 := unwrap_parse (from_str SingleS (bytes "0.5")) in
   let v63 := get junk o62 in
   all_true [
      returns o16;
      OK =? v18;
      category_eqb Normal (category v19);
      returns o20;
      bitwise_eq v19 v21;
      returns o22;
      OK =? v24;
      category_eqb Normal (category v25);
      returns o26;
      bitwise_eq v25 v27;
      returns o28;
      OK =? v30;
      category_eqb Normal (category v31);
      returns o32;
      bitwise_eq v31 v33;
      returns o34;
      OK =? v36;
      category_eqb Zero (category v37);
      returns o38;
      bitwise_eq v37 v39;
      returns o40;
      OK =? v42;
      category_eqb Zero (category v43);
      returns o44;
      bitwise_eq v43 v45;
      returns o46;
      OK =? v48;
      category_eqb Zero (category v49);
      returns o50;
      bitwise_eq v49 v51;
      returns o52;
      OK =? v54;
      category_eqb Zero (category v55);
      returns o56;
      bitwise_eq v55 v57;
      returns o58;
      OK =? v60;
      category_eqb Normal (category v61);
      returns o62;
      bitwise_eq v61 v63]) = true.
Proof. vm_compute. reflexivity. Qed.

Example test_remainder_36 : (
   let o0 := unwrap_parse (from_str SingleS (bytes "0x1.fffffep+126")) in
   let v1 := get junk o0 in
   let o2 := unwrap_parse (from_str SingleS (bytes "-0x1.fffffep+126")) in
   let v3 := get junk o2 in
   let o4 := unwrap_parse (from_str SingleS (bytes "0x1.fffffep-126")) in
   let v5 := get junk o4 in
   let o6 := unwrap_parse (from_str SingleS (bytes "-0x1.fffffep-126")) in
   let v7 := get junk o6 in
   let o8 := unwrap_parse (from_str SingleS (bytes "0x1p-125")) in
   let v9 := get junk o8 in
   let o10 := unwrap_parse (from_str SingleS (bytes "0x1p+127")) in
   let v11 := get junk o10 in
   let o12 := unwrap_parse (from_str SingleS (bytes "-0x1p+127")) in
   let v13 := get junk o12 in
   let o14 := unwrap_parse (from_str SingleS (bytes "-1.5")) in
   let v15 := get junk o14 in
   let o16 := unwrap_parse (from_str SingleS (bytes "1")) in
   let v17 := get junk o16 in
   let o18 := unwrap_parse (from_str SingleS (bytes "-1")) in
   let v19 := get junk o18 in
   let o20 := ieee_rem SingleS v11 v15 in
   let v21 := get (0, junk) o20 in
   let v22 := fst v21 in
   let v23 := snd v21 in
   let o24 := unwrap_parse (from_str SingleS (bytes "0.5")) in
   let v25 := get junk o24 in
   let o26 := ieee_rem SingleS v11 v17 in
   let v27 := get (0, junk) o26 in
   let v28 := fst v27 in
   let v29 := snd v27 in
   let o30 := unwrap_parse (from_str SingleS (bytes "0x0p+0")) in
   let v31 := get junk o30 in
   let o32 := ieee_rem SingleS v11 v19 in
   let v33 := get (0, junk) o32 in
   let v34 := fst v33 in
   let v35 := snd v33 in
   let o36 := unwrap_parse (from_str SingleS (bytes "0x0p+0")) in
   let v37 := get junk o36 in
   let o38 := ieee_rem SingleS v13 v1 in
   let v39 := get (0, junk) o38 in
   let v40 := fst v39 in
   let v41 := snd v39 in
   let o42 := unwrap_parse (from_str SingleS (bytes "-0x1p+103")) in
   let v43 := get junk o42 in
   let o44 := ieee_rem SingleS v13 v3 in
   let v45 := get (0, junk) o44 in
   let v46 := fst v45 in
   let v47 := snd v45 in
   let o48 := unwrap_parse (from_str SingleS (bytes "-0x1p+103")) in
   let v49 := get junk o48 in
   let o50 := ieee_rem SingleS v13 v5 in
   let v51 := get (0, junk) o50 in
   let v52 := fst v51 in
   let v53 := snd v51 in
   let o54 := unwrap_parse (from_str SingleS (bytes "-0x0.002p-126")) in
   let v55 := get junk o54 in
   let o56 := ieee_rem SingleS v13 v7 in
   let v57 := get (0, junk) o56 in
   let v58 := fst v57 in
   let v59 := snd v57 in
   let o60 := unwrap_parse (from_str SingleS (bytes "-0x0.002p-126")) in
   let v61 := get junk o60 in
   let o62 := ieee_rem SingleS v13 v9 in
   let v63 := get (0, junk) o62 in
   let v64 := fst v63 in
   let v65 := snd v63 in
   let o66 := unwrap_parse (from_str SingleS (bytes "-0x0p+0")) in
   let v67 := get junk o66 in
   all_true [
      returns o20;
      OK =? v22;
      category_eqb Normal (category v23);
      returns o24;
      bitwise_eq v23 v25;
      returns o26;
      OK =? v28;
      category_eqb Zero (category v29);
      returns o30;
      bitwise_eq v29 v31;
      returns o32;
      OK =? v34;
      category_eqb Zero (category v35);
      returns o36;
      bitwise_eq v35 v37;
      returns o38;
      OK =? v40;
      category_eqb Normal (category v41);
      returns o42;
      bitwise_eq v41 v43;
      returns o44;
      OK =? v46;
      category_eqb Normal (category v47);
      returns o48;
      bitwise_eq v47 v49;
      returns o50;
      OK =? v52;
      category_eqb Normal (category v53);
      returns o54;
      bitwise_eq v53 v55;
      returns o56;
      OK =? v58;
      category_eqb Normal (category v59);
      returns o60;
      bitwise_eq v59 v61;
      returns o62;
      OK =? v64;
      category_eqb Zero (category v65);
      returns o66;
      bitwise_eq v65 v67]) = true.
Proof. vm_compute. reflexivity. Qed.

Example test_remainder_37 : (
   let o0 := unwrap_parse (from_str SingleS (bytes "0x1.fffffep+126")) in
   let v1 := get junk o0 in
   let o2 := unwrap_parse (from_str SingleS (bytes "-0x1p-125")) in
   let v3 := get junk o2 in
   let o4 := unwrap_parse (from_str SingleS (bytes "0x1p+127")) in
   let v5 := get junk o4 in
   let o6 := unwrap_parse (from_str SingleS (bytes "-0x1p+127")) in
   let v7 := get junk o6 in
   let o8 := unwrap_parse (from_str SingleS (bytes "1.5")) in
   let v9 := get junk o8 in
   let o10 := unwrap_parse (from_str SingleS (bytes "-1.5")) in
   let v11 := get junk o10 in
   let o12 := unwrap_parse (from_str SingleS (bytes "1")) in
   let v13 := get junk o12 in
   let o14 := unwrap_parse (from_str SingleS (bytes "-1")) in
   let v15 := get junk o14 in
   let o16 := ieee_rem SingleS v7 v3 in
   let v17 := get (0, junk) o16 in
   let v18 := fst v17 in
   let v19 := snd v17 in
   let o20 := unwrap_parse (from_str SingleS (bytes "-0x0p+0")) in
   let v21 := get junk o20 in
   let o22 := ieee_rem SingleS v7 v5 in
   let v23 := get (0, junk) o22 in
   let v24 := fst v23 in
   let v25 := snd v23 in
   let o26 := unwrap_parse (from_str SingleS (bytes "-0x0p+0")) in
   let v27 := get junk o26 in
   let o28 := ieee_rem SingleS v7 v7 in
   let v29 := get (0, junk) o28 in
   let v30 := fst v29 in
   let v31 := snd v29 in
   let o32 := unwrap_parse (from_str SingleS (bytes "-0x0p+0")) in
   let v33 := get junk o32 in
   let o34 := ieee_rem SingleS v7 v9 in
   let v35 := get (0, junk) o34 in
   let v36 := fst v35 in
   let v37 := snd v35 in
   let o38 := unwrap_parse (from_str SingleS (bytes "-0.5")) in
   let v39 := get junk o38 in
   let o40 := ieee_rem SingleS v7 v11 in
   let v41 := get (0, junk) o40 in
   let v42 := fst v41 in
   let v43 := snd v41 in
   let o44 := unwrap_parse (from_str SingleS (bytes "-0.5")) in
   let v45 := get junk o44 in
   let o46 := ieee_rem SingleS v7 v13 in
   let v47 := get (0, junk) o46 in
   let v48 := fst v47 in
   let v49 := snd v47 in
   let o50 := unwrap_parse (from_str SingleS (bytes "-0x0p+0")) in
   let v51 := get junk o50 in
   let o52 := ieee_rem SingleS v7 v15 in
   let v53 := get (0, junk) o52 in
   let v54 := fst v53 in
   let v55 := snd v53 in
   let o56 := unwrap_parse (from_str SingleS (bytes "-0x0p+0")) in
   let v57 := get junk o56 in
   let o58 := ieee_rem SingleS v9 v1 in
   let v59 := get (0, junk) o58 in
   let v60 := fst v59 in
   let v61 := snd v59 in
   let o62 := unwrap_parse (from_str SingleS (bytes "1.5")) in
   let v63 := get junk o62 in
   all_true [
      returns o16;
      OK =? v18;
      category_eqb Zero (category v19);
      returns o20;
      bitwise_eq v19 v21;
      returns o22;
      OK =? v24;
      category_eqb Zero (category v25);
      returns o26;
      bitwise_eq v25 v27;
      returns o28;
      OK =? v30;
      category_eqb Zero (category v31);
      returns o32;
      bitwise_eq v31 v33;
      returns o34;
      OK =? v36;
      category_eqb Normal (category v37);
      returns o38;
      bitwise_eq v37 v39;
      returns o40;
      OK =? v42;
      category_eqb Normal (category v43);
      returns o44;
      bitwise_eq v43 v45;
      returns o46;
      OK =? v48;
      category_eqb Zero (category v49);
      returns o50;
      bitwise_eq v49 v51;
      returns o52;
      OK =? v54;
      category_eqb Zero (category v55);
      returns o56;
      bitwise_eq v55 v57;
      returns o58;
      OK =? v60;
      category_eqb Normal (category v61);
      returns o62;
      bitwise_eq v61 v63]) = true.
Proof. vm_compute. reflexivity. Qed.

Example test_remainder_38 : (
   let o0 := unwrap_parse (from_str SingleS (bytes "-0x1.fffffep+126")) in
   let v1 := get junk o0 in
   let o2 := unwrap_parse (from_str SingleS (bytes "0x1.fffffep-126")) in
   let v3 := get junk o2 in
   let o4 := unwrap_parse (from_str SingleS (bytes "-0x1.fffffep-126")) in
   let v5 := get junk o4 in
   let o6 := unwrap_parse (from_str SingleS (bytes "0x1p-125")) in
   let v7 := get junk o6 in
   let o8 := unwrap_parse (from_str SingleS (bytes "-0x1p-125")) in
   let v9 := get junk o8 in
   let o10 := unwrap_parse (from_str SingleS (bytes "0x1p+127")) in
   let v11 := get junk o10 in
   let o12 := unwrap_parse (from_str SingleS (bytes "-0x1p+127")) in
   let v13 := get junk o12 in
   let o14 := unwrap_parse (from_str SingleS (bytes "1.5")) in
   let v15 := get junk o14 in
   let o16 := ieee_rem SingleS v15 v1 in
   let v17 := get (0, junk) o16 in
   let v18 := fst v17 in
   let v19 := snd v17 in
   let o20 := unwrap_parse (from_str SingleS (bytes "1.5")) in
   let v21 := get junk o20 in
   let o22 := ieee_rem SingleS v15 v3 in
   let v23 := get (0, junk) o22 in
   let v24 := fst v23 in
   let v25 := snd v23 in
   let o26 := unwrap_parse (from_str SingleS (bytes "0x0.00006p-126")) in
   let v27 := get junk o26 in
   let o28 := ieee_rem SingleS v15 v5 in
   let v29 := get (0, junk) o28 in
   let v30 := fst v29 in
   let v31 := snd v29 in
   let o32 := unwrap_parse (from_str SingleS (bytes "0x0.00006p-126")) in
   let v33 := get junk o32 in
   let o34 := ieee_rem SingleS v15 v7 in
   let v35 := get (0, junk) o34 in
   let v36 := fst v35 in
   let v37 := snd v35 in
   let o38 := unwrap_parse (from_str SingleS (bytes "0x0p+0")) in
   let v39 := get junk o38 in
   let o40 := ieee_rem SingleS v15 v9 in
   let v41 := get (0, junk) o40 in
   let v42 := fst v41 in
   let v43 := snd v41 in
   let o44 := unwrap_parse (from_str SingleS (bytes "0x0p+0")) in
   let v45 := get junk o44 in
   let o46 := ieee_rem SingleS v15 v11 in
   let v47 := get (0, junk) o46 in
   let v48 := fst v47 in
   let v49 := snd v47 in
   let o50 := unwrap_parse (from_str SingleS (bytes "1.5")) in
   let v51 := get junk o50 in
   let o52 := ieee_rem SingleS v15 v13 in
   let v53 := get (0, junk) o52 in
   let v54 := fst v53 in
   let v55 := snd v53 in
   let o56 := unwrap_parse (from_str SingleS (bytes "1.5")) in
   let v57 := get junk o56 in
   let o58 := ieee_rem SingleS v15 v15 in
   let v59 := get (0, junk) o58 in
   let v60 := fst v59 in
   let v61 := snd v59 in
   let o62 := unwrap_parse (from_str SingleS (bytes "0x0p+0")) in
   let v63 := get junk o62 in
   all_true [
      returns o16;
      OK =? v18;
      category_eqb Normal (category v19);
      returns o20;
      bitwise_eq v19 v21;
      returns o22;
      OK =? v24;
      category_eqb Normal (category v25);
      returns o26;
      bitwise_eq v25 v27;
      returns o28;
      OK =? v30;
      category_eqb Normal (category v31);
      returns o32;
      bitwise_eq v31 v33;
      returns o34;
      OK =? v36;
      category_eqb Zero (category v37);
      returns o38;
      bitwise_eq v37 v39;
      returns o40;
      OK =? v42;
      category_eqb Zero (category v43);
      returns o44;
      bitwise_eq v43 v45;
      returns o46;
      OK =? v48;
      category_eqb Normal (category v49);
      returns o50;
      bitwise_eq v49 v51;
      returns o52;
      OK =? v54;
      category_eqb Normal (category v55);
      returns o56;
      bitwise_eq v55 v57;
      returns o58;
      OK =? v60;
      category_eqb Zero (category v61);
      returns o62;
      bitwise_eq v61 v63]) = true.
Proof. vm_compute. reflexivity. Qed.

Example test_remainder_39 : (
   let o0 := unwrap_parse (from_str SingleS (bytes "0x1.fffffep+126")) in
   let v1 := get junk o0 in
   let o2 := unwrap_parse (from_str SingleS (bytes "-0x1.fffffep+126")) in
   let v3 := get junk o2 in
   let o4 := unwrap_parse (from_str SingleS (bytes "0x1.fffffep-126")) in
   let v5 := get junk o4 in
   let o6 := unwrap_parse (from_str SingleS (bytes "-0x1.fffffep-126")) in
   let v7 := get junk o6 in
   let o8 := unwrap_parse (from_str SingleS (bytes "0x1p-125")) in
   let v9 := get junk o8 in
   let o10 := unwrap_parse (from_str SingleS (bytes "1.5")) in
   let v11 := get junk o10 in
   let o12 := unwrap_parse (from_str SingleS (bytes "-1.5")) in
   let v13 := get junk o12 in
   let o14 := unwrap_parse (from_str SingleS (bytes "1")) in
   let v15 := get junk o14 in
   let o16 := unwrap_parse (from_str SingleS (bytes "-1")) in
   let v17 := get junk o16 in
   let o18 := ieee_rem SingleS v11 v13 in
   let v19 := get (0, junk) o18 in
   let v20 := fst v19 in
   let v21 := snd v19 in
   let o22 := unwrap_parse (from_str SingleS (bytes "0x0p+0")) in
   let v23 := get junk o22 in
   let o24 := ieee_rem SingleS v11 v15 in
   let v25 := get (0, junk) o24 in
   let v26 := fst v25 in
   let v27 := snd v25 in
   let o28 := unwrap_parse (from_str SingleS (bytes "-0.5")) in
   let v29 := get junk o28 in
   let o30 := ieee_rem SingleS v11 v17 in
   let v31 := get (0, junk) o30 in
   let v32 := fst v31 in
   let v33 := snd v31 in
   let o34 := unwrap_parse (from_str SingleS (bytes "-0.5")) in
   let v35 := get junk o34 in
   let o36 := ieee_rem SingleS v13 v1 in
   let v37 := get (0, junk) o36 in
   let v38 := fst v37 in
   let v39 := snd v37 in
   let o40 := unwrap_parse (from_str SingleS (bytes "-1.5")) in
   let v41 := get junk o40 in
   let o42 := ieee_rem SingleS v13 v3 in
   let v43 := get (0, junk) o42 in
   let v44 := fst v43 in
   let v45 := snd v43 in
   let o46 := unwrap_parse (from_str SingleS (bytes "-1.5")) in
   let v47 := get junk o46 in
   let o48 := ieee_rem SingleS v13 v5 in
   let v49 := get (0, junk) o48 in
   let v50 := fst v49 in
   let v51 := snd v49 in
   let o52 := unwrap_parse (from_str SingleS (bytes "-0x0.00006p-126")) in
   let v53 := get junk o52 in
   let o54 := ieee_rem SingleS v13 v7 in
   let v55 := get (0, junk) o54 in
   let v56 := fst v55 in
   let v57 := snd v55 in
   let o58 := unwrap_parse (from_str SingleS (bytes "-0x0.00006p-126")) in
   let v59 := get junk o58 in
   let o60 := ieee_rem SingleS v13 v9 in
   let v61 := get (0, junk) o60 in
   let v62 := fst v61 in
   let v63 := snd v61 in
   let o64 := unwrap_parse (from_str SingleS (bytes "-0x0p+0")) in
   let v65 := get junk o64 in
   all_true [
      returns o18;
      OK =? v20;
      category_eqb Zero (category v21);
      returns o22;
      bitwise_eq v21 v23;
      returns o24;
      OK =? v26;
      category_eqb Normal (category v27);
      returns o28;
      bitwise_eq v27 v29;
      returns o30;
      OK =? v32;
      category_eqb Normal (category v33);
      returns o34;
      bitwise_eq v33 v35;
      returns o36;
      OK =? v38;
      category_eqb Normal (category v39);
      returns o40;
      bitwise_eq v39 v41;
      returns o42;
      OK =? v44;
      category_eqb Normal (category v45);
      returns o46;
      bitwise_eq v45 v47;
      returns o48;
      OK =? v50;
      category_eqb Normal (category v51);
      returns o52;
      bitwise_eq v51 v53;
      returns o54;
      OK =? v56;
      category_eqb Normal (category v57);
      returns o58;
      bitwise_eq v57 v59;
      returns o60;
      OK =? v62;
      category_eqb Zero (category v63);
      returns o64;
      bitwise_eq v63 v65]) = true.
Proof. vm_compute. reflexivity. Qed.

Example test_remainder_40 : (
   let o0 := unwrap_parse (from_str SingleS (bytes "0x1.fffffep+126")) in
   let v1 := get junk o0 in
   let o2 := unwrap_parse (from_str SingleS (bytes "-0x1p-125")) in
   let v3 := get junk o2 in
   let o4 := unwrap_parse (from_str SingleS (bytes "0x1p+127")) in
   let v5 := get junk o4 in
   let o6 := unwrap_parse (from_str SingleS (bytes "-0x1p+127")) in
   let v7 := get junk o6 in
   let o8 := unwrap_parse (from_str SingleS (bytes "1.5")) in
   let v9 := get junk o8 in
   let o10 := unwrap_parse (from_str SingleS (bytes "-1.5")) in
   let v11 := get junk o10 in
   let o12 := unwrap_parse (from_str SingleS (bytes "1")) in
   let v13 := get junk o12 in
   let o14 := unwrap_parse (from_str SingleS (bytes "-1")) in
   let v15 := get junk o14 in
   let o16 := ieee_rem SingleS v11 v3 in
   let v17 := get (0, junk) o16 in
   let v18 := fst v17 in
   let v19 := snd v17 in
   let o20 := unwrap_parse (from_str SingleS (bytes "-0x0p+0")) in
   let v21 := get junk o20 in
   let o22 := ieee_rem SingleS v11 v5 in
   let v23 := get (0, junk) o22 in
   let v24 := fst v23 in
   let v25 := snd v23 in
   let o26 := unwrap_parse (from_str SingleS (bytes "-1.5")) in
   let v27 := get junk o26 in
   let o28 := ieee_rem SingleS v11 v7 in
   let v29 := get (0, junk) o28 in
   let v30 := fst v29 in
   let v31 := snd v29 in
   let o32 := unwrap_parse (from_str SingleS (bytes "-1.5")) in
   let v33 := get junk o32 in
   let o34 := ieee_rem SingleS v11 v9 in
   let v35 := get (0, junk) o34 in
   let v36 := fst v35 in
   let v37 := snd v35 in
   let o38 := unwrap_parse (from_str SingleS (bytes "-0x0p+0")) in
   let v39 := get junk o38 in
   let o40 := ieee_rem SingleS v11 v11 in
   let v41 := get (0, junk) o40 in
   let v42 := fst v41 in
   let v43 := snd v41 in
   let o44 := unwrap_parse (from_str SingleS (bytes "-0x0p+0")) in
   let v45 := get junk o44 in
   let o46 := ieee_rem SingleS v11 v13 in
   let v47 := get (0, junk) o46 in
   let v48 := fst v47 in
   let v49 := snd v47 in
   let o50 := unwrap_parse (from_str SingleS (bytes "0.5")) in
   let v51 := get junk o50 in
   let o52 := ieee_rem SingleS v11 v15 in
   let v53 := get (0, junk) o52 in
   let v54 := fst v53 in
   let v55 := snd v53 in
   let o56 := unwrap_parse (from_str SingleS (bytes "0.5")) in
   let v57 := get junk o56 in
   let o58 := ieee_rem SingleS v13 v1 in
   let v59 := get (0, junk) o58 in
   let v60 := fst v59 in
   let v61 := snd v59 in
   let o62 := unwrap_parse (from_str SingleS (bytes "0x1p+0")) in
   let v63 := get junk o62 in
   all_true [
      returns o16;
      OK =? v18;
      category_eqb Zero (category v19);
      returns o20;
      bitwise_eq v19 v21;
      returns o22;
      OK =? v24;
      category_eqb Normal (category v25);
      returns o26;
      bitwise_eq v25 v27;
      returns o28;
      OK =? v30;
      category_eqb Normal (category v31);
      returns o32;
      bitwise_eq v31 v33;
      returns o34;
      OK =? v36;
      category_eqb Zero (category v37);
      returns o38;
      bitwise_eq v37 v39;
      returns o40;
      OK =? v42;
      category_eqb Zero (category v43);
      returns o44;
      bitwise_eq v43 v45;
      returns o46;
      OK =? v48;
      category_eqb Normal (category v49);
      returns o50;
      bitwise_eq v49 v51;
      returns o52;
      OK =? v54;
      category_eqb Normal (category v55);
      returns o56;
      bitwise_eq v55 v57;
      returns o58;
      OK =? v60;
      category_eqb Normal (category v61);
      returns o62;
      bitwise_eq v61 v63]) = true.
Proof. vm_compute. reflexivity. Qed.

Example test_remainder_41 : (
   let o0 := unwrap_parse (from_str SingleS (bytes "-0x1.fffffep+126")) in
   let v1 := get junk o0 in
   let o2 := unwrap_parse (from_str SingleS (bytes "0x1.fffffep-126")) in
   let v3 := get junk o2 in
   let o4 := unwrap_parse (from_str SingleS (bytes "-0x1.fffffep-126")) in
   let v5 := get junk o4 in
   let o6 := unwrap_parse (from_str SingleS (bytes "0x1p-125")) in
   let v7 := get junk o6 in
   let o8 := unwrap_parse (from_str SingleS (bytes "-0x1p-125")) in
   let v9 := get junk o8 in
   let o10 := unwrap_parse (from_str SingleS (bytes "0x1p+127")) in
   let v11 := get junk o10 in
   let o12 := unwrap_parse (from_str SingleS (bytes "-0x1p+127")) in
   let v13 := get junk o12 in
   let o14 := unwrap_parse (from_str SingleS (bytes "1.5")) in
   let v15 := get junk o14 in
   let o16 := unwrap_parse (from_str SingleS (bytes "1")) in
   let v17 := get junk o16 in
   let o18 := ieee_rem SingleS v17 v1 in
   let v19 := get (0, junk) o18 in
   let v20 := fst v19 in
   let v21 := snd v19 in
   let o22 := unwrap_parse (from_str SingleS (bytes "0x1p+0")) in
   let v23 := get junk o22 in
   let o24 := ieee_rem SingleS v17 v3 in
   let v25 := get (0, junk) o24 in
   let v26 := fst v25 in
   let v27 := snd v25 in
   let o28 := unwrap_parse (from_str SingleS (bytes "0x0.00004p-126")) in
   let v29 := get junk o28 in
   let o30 := ieee_rem SingleS v17 v5 in
   let v31 := get (0, junk) o30 in
   let v32 := fst v31 in
   let v33 := snd v31 in
   let o34 := unwrap_parse (from_str SingleS (bytes "0x0.00004p-126")) in
   let v35 := get junk o34 in
   let o36 := ieee_rem SingleS v17 v7 in
   let v37 := get (0, junk) o36 in
   let v38 := fst v37 in
   let v39 := snd v37 in
   let o40 := unwrap_parse (from_str SingleS (bytes "0x0p+0")) in
   let v41 := get junk o40 in
   let o42 := ieee_rem SingleS v17 v9 in
   let v43 := get (0, junk) o42 in
   let v44 := fst v43 in
   let v45 := snd v43 in
   let o46 := unwrap_parse (from_str SingleS (bytes "0x0p+0")) in
   let v47 := get junk o46 in
   let o48 := ieee_rem SingleS v17 v11 in
   let v49 := get (0, junk) o48 in
   let v50 := fst v49 in
   let v51 := snd v49 in
   let o52 := unwrap_parse (from_str SingleS (bytes "0x1p+0")) in
   let v53 := get junk o52 in
   let o54 := ieee_rem SingleS v17 v13 in
   let v55 := get (0, junk) o54 in
   let v56 := fst v55 in
   let v57 := snd v55 in
   let o58 := unwrap_parse (from_str SingleS (bytes "0x1p+0")) in
   let v59 := get junk o58 in
   let o60 := ieee_rem SingleS v17 v15 in
   let v61 := get (0, junk) o60 in
   let v62 := fst v61 in
   let v63 := snd v61 in
   let o64 := unwrap_parse (from_str SingleS (bytes "-0.5")) in
   let v65 := get junk o64 in
   all_true [
      returns o18;
      OK =? v20;
      category_eqb Normal (category v21);
      returns o22;
      bitwise_eq v21 v23;
      returns o24;
      OK =? v26;
      category_eqb Normal (category v27);
      returns o28;
      bitwise_eq v27 v29;
      returns o30;
      OK =? v32;
      category_eqb Normal (category v33);
      returns o34;
      bitwise_eq v33 v35;
      returns o36;
      OK =? v38;
      category_eqb Zero (category v39);
      returns o40;
      bitwise_eq v39 v41;
      returns o42;
      OK =? v44;
      category_eqb Zero (category v45);
      returns o46;
      bitwise_eq v45 v47;
      returns o48;
      OK =? v50;
      category_eqb Normal (category v51);
      returns o52;
      bitwise_eq v51 v53;
      returns o54;
      OK =? v56;
      category_eqb Normal (category v57);
      returns o58;
      bitwise_eq v57 v59;
      returns o60;
      OK =? v62;
      category_eqb Normal (category v63);
      returns o64;
      bitwise_eq v63 v65]) = true.
Proof. vm_compute. reflexivity. Qed.

Example test_remainder_42 : (
   let o0 := unwrap_parse (from_str SingleS (bytes "0x1.fffffep+126")) in
   let v1 := get junk o0 in
   let o2 := unwrap_parse (from_str SingleS (bytes "-0x1.fffffep+126")) in
   let v3 := get junk o2 in
   let o4 := unwrap_parse (from_str SingleS (bytes "0x1.fffffep-126")) in
   let v5 := get junk o4 in
   let o6 := unwrap_parse (from_str SingleS (bytes "-0x1.fffffep-126")) in
   let v7 := get junk o6 in
   let o8 := unwrap_parse (from_str SingleS (bytes "0x1p-125")) in
   let v9 := get junk o8 in
   let o10 := unwrap_parse (from_str SingleS (bytes "-1.5")) in
   let v11 := get junk o10 in
   let o12 := unwrap_parse (from_str SingleS (bytes "1")) in
   let v13 := get junk o12 in
   let o14 := unwrap_parse (from_str SingleS (bytes "-1")) in
   let v15 := get junk o14 in
   let o16 := ieee_rem SingleS v13 v11 in
   let v17 := get (0, junk) o16 in
   let v18 := fst v17 in
   let v19 := snd v17 in
   let o20 := unwrap_parse (from_str SingleS (bytes "-0.5")) in
   let v21 := get junk o20 in
   let o22 := ieee_rem SingleS v13 v13 in
   let v23 := get (0, junk) o22 in
   let v24 := fst v23 in
   let v25 := snd v23 in
   let o26 := unwrap_parse (from_str SingleS (bytes "0x0p+0")) in
   let v27 := get junk o26 in
   let o28 := ieee_rem SingleS v13 v15 in
   let v29 := get (0, junk) o28 in
   let v30 := fst v29 in
   let v31 := snd v29 in
   let o32 := unwrap_parse (from_str SingleS (bytes "0x0p+0")) in
   let v33 := get junk o32 in
   let o34 := ieee_rem SingleS v15 v1 in
   let v35 := get (0, junk) o34 in
   let v36 := fst v35 in
   let v37 := snd v35 in
   let o38 := unwrap_parse (from_str SingleS (bytes "-0x1p+0")) in
   let v39 := get junk o38 in
   let o40 := ieee_rem SingleS v15 v3 in
   let v41 := get (0, junk) o40 in
   let v42 := fst v41 in
   let v43 := snd v41 in
   let o44 := unwrap_parse (from_str SingleS (bytes "-0x1p+0")) in
   let v45 := get junk o44 in
   let o46 := ieee_rem SingleS v15 v5 in
   let v47 := get (0, junk) o46 in
   let v48 := fst v47 in
   let v49 := snd v47 in
   let o50 := unwrap_parse (from_str SingleS (bytes "-0x0.00004p-126")) in
   let v51 := get junk o50 in
   let o52 := ieee_rem SingleS v15 v7 in
   let v53 := get (0, junk) o52 in
   let v54 := fst v53 in
   let v55 := snd v53 in
   let o56 := unwrap_parse (from_str SingleS (bytes "-0x0.00004p-126")) in
   let v57 := get junk o56 in
   let o58 := ieee_rem SingleS v15 v9 in
   let v59 := get (0, junk) o58 in
   let v60 := fst v59 in
   let v61 := snd v59 in
   let o62 := unwrap_parse (from_str SingleS (bytes "-0x0p+0")) in
   let v63 := get junk o62 in
   all_true [
      returns o16;
      OK =? v18;
      category_eqb Normal (category v19);
      returns o20;
      bitwise_eq v19 v21;
      returns o22;
      OK =? v24;
      category_eqb Zero (category v25);
      returns o26;
      bitwise_eq v25 v27;
      returns o28;
      OK =? v30;
      category_eqb Zero (category v31);
      returns o32;
      bitwise_eq v31 v33;
      returns o34;
      OK =? v36;
      category_eqb Normal (category v37);
      returns o38;
      bitwise_eq v37 v39;
      returns o40;
      OK =? v42;
      category_eqb Normal (category v43);
      returns o44;
      bitwise_eq v43 v45;
      returns o46;
      OK =? v48;
      category_eqb Normal (category v49);
      returns o50;
      bitwise_eq v49 v51;
      returns o52;
      OK =? v54;
      category_eqb Normal (category v55);
      returns o56;
      bitwise_eq v55 v57;
      returns o58;
      OK =? v60;
      category_eqb Zero (category v61);
      returns o62;
      bitwise_eq v61 v63]) = true.
Proof. vm_compute. reflexivity. Qed.

Example test_remainder_43 : (
   let o0 := unwrap_parse (from_str SingleS (bytes "-0x1p-125")) in
   let v1 := get junk o0 in
   let o2 := unwrap_parse (from_str SingleS (bytes "0x1p+127")) in
   let v3 := get junk o2 in
   let o4 := unwrap_parse (from_str SingleS (bytes "-0x1p+127")) in
   let v5 := get junk o4 in
   let o6 := unwrap_parse (from_str SingleS (bytes "1.5")) in
   let v7 := get junk o6 in
   let o8 := unwrap_parse (from_str SingleS (bytes "-1.5")) in
   let v9 := get junk o8 in
   let o10 := unwrap_parse (from_str SingleS (bytes "1")) in
   let v11 := get junk o10 in
   let o12 := unwrap_parse (from_str SingleS (bytes "-1")) in
   let v13 := get junk o12 in
   let o14 := ieee_rem SingleS v13 v1 in
   let v15 := get (0, junk) o14 in
   let v16 := fst v15 in
   let v17 := snd v15 in
   let o18 := unwrap_parse (from_str SingleS (bytes "-0x0p+0")) in
   let v19 := get junk o18 in
   let o20 := ieee_rem SingleS v13 v3 in
   let v21 := get (0, junk) o20 in
   let v22 := fst v21 in
   let v23 := snd v21 in
   let o24 := unwrap_parse (from_str SingleS (bytes "-0x1p+0")) in
   let v25 := get junk o24 in
   let o26 := ieee_rem SingleS v13 v5 in
   let v27 := get (0, junk) o26 in
   let v28 := fst v27 in
   let v29 := snd v27 in
   let o30 := unwrap_parse (from_str SingleS (bytes "-0x1p+0")) in
   let v31 := get junk o30 in
   let o32 := ieee_rem SingleS v13 v7 in
   let v33 := get (0, junk) o32 in
   let v34 := fst v33 in
   let v35 := snd v33 in
   let o36 := unwrap_parse (from_str SingleS (bytes "0.5")) in
   let v37 := get junk o36 in
   let o38 := ieee_rem SingleS v13 v9 in
   let v39 := get (0, junk) o38 in
   let v40 := fst v39 in
   let v41 := snd v39 in
   let o42 := unwrap_parse (from_str SingleS (bytes "0.5")) in
   let v43 := get junk o42 in
   let o44 := ieee_rem SingleS v13 v11 in
   let v45 := get (0, junk) o44 in
   let v46 := fst v45 in
   let v47 := snd v45 in
   let o48 := unwrap_parse (from_str SingleS (bytes "-0x0p+0")) in
   let v49 := get junk o48 in
   let o50 := ieee_rem SingleS v13 v13 in
   let v51 := get (0, junk) o50 in
   let v52 := fst v51 in
   let v53 := snd v51 in
   let o54 := unwrap_parse (from_str SingleS (bytes "-0x0p+0")) in
   let v55 := get junk o54 in
   let o56 := unwrap_parse (from_str DoubleS (bytes "0x1.3333333333333p-2")) in
   let v57 := get junk o56 in
   let o58 := unwrap_parse (from_str DoubleS (bytes "0x1.47ae147ae147bp-7")) in
   let v59 := get junk o58 in
   let o60 := unwrap_parse (from_str DoubleS (bytes "-0x1.4p-56")) in
   let v61 := get junk o60 in
   let o62 := ieee_rem DoubleS v57 v59 in
   let v63 := get (0, junk) o62 in
   let v64 := snd v63 in
   all_true [
      returns o14;
      OK =? v16;
      category_eqb Zero (category v17);
      returns o18;
      bitwise_eq v17 v19;
      returns o20;
      OK =? v22;
      category_eqb Normal (category v23);
      returns o24;
      bitwise_eq v23 v25;
      returns o26;
      OK =? v28;
      category_eqb Normal (category v29);
      returns o30;
      bitwise_eq v29 v31;
      returns o32;
      OK =? v34;
      category_eqb Normal (category v35);
      returns o36;
      bitwise_eq v35 v37;
      returns o38;
      OK =? v40;
      category_eqb Normal (category v41);
      returns o42;
      bitwise_eq v41 v43;
      returns o44;
      OK =? v46;
      category_eqb Zero (category v47);
      returns o48;
      bitwise_eq v47 v49;
      returns o50;
      OK =? v52;
      category_eqb Zero (category v53);
      returns o54;
      bitwise_eq v53 v55;
      returns o56;
      returns o58;
      returns o60;
      returns o62;
      bitwise_eq v64 v61]) = true.
Proof. vm_compute. reflexivity. Qed.

Example test_remainder_44 : (
   let o0 := unwrap_parse (from_str DoubleS (bytes "0x1.3333333333333p-2")) in
   let v1 := get junk o0 in
   let o2 := unwrap_parse (from_str DoubleS (bytes "0x1.47ae147ae147bp-7")) in
   let v3 := get junk o2 in
   let o4 := ieee_rem DoubleS v1 v3 in
   let v5 := get (0, junk) o4 in
   let v6 := fst v5 in
   let o7 := unwrap_parse (from_str DoubleS (bytes "0x1p64")) in
   let v8 := get junk o7 in
   let o9 := unwrap_parse (from_str DoubleS (bytes "1.5")) in
   let v10 := get junk o9 in
   let o11 := unwrap_parse (from_str DoubleS (bytes "-0.5")) in
   let v12 := get junk o11 in
   let o13 := ieee_rem DoubleS v8 v10 in
   let v14 := get (0, junk) o13 in
   let v15 := fst v14 in
   let v16 := snd v14 in
   let o17 := unwrap_parse (from_str DoubleS (bytes "0x1p1000")) in
   let v18 := get junk o17 in
   let o19 := unwrap_parse (from_str DoubleS (bytes "0x1p-1000")) in
   let v20 := get junk o19 in
   let o21 := unwrap_parse (from_str DoubleS (bytes "0.0")) in
   let v22 := get junk o21 in
   let o23 := ieee_rem DoubleS v18 v20 in
   let v24 := get (0, junk) o23 in
   let v25 := fst v24 in
   let v26 := snd v24 in
   let v27 := INFINITY DoubleS in
   let o28 := unwrap_parse (from_str DoubleS (bytes "1.0")) in
   let v29 := get junk o28 in
   let o30 := ieee_rem DoubleS v27 v29 in
   let v31 := get (0, junk) o30 in
   let v32 := fst v31 in
   let v33 := snd v31 in
   let o34 := unwrap_parse (from_str DoubleS (bytes "-4.0")) in
   let v35 := get junk o34 in
   let o36 := unwrap_parse (from_str DoubleS (bytes "-2.0")) in
   let v37 := get junk o36 in
   let o38 := unwrap_parse (from_str DoubleS (bytes "-0.0")) in
   let v39 := get junk o38 in
   let o40 := ieee_rem DoubleS v35 v37 in
   let v41 := get (0, junk) o40 in
   let v42 := fst v41 in
   let v43 := snd v41 in
   let o44 := unwrap_parse (from_str DoubleS (bytes "-4.0")) in
   let v45 := get junk o44 in
   let o46 := unwrap_parse (from_str DoubleS (bytes "2.0")) in
   let v47 := get junk o46 in
   let o48 := unwrap_parse (from_str DoubleS (bytes "-0.0")) in
   let v49 := get junk o48 in
   let o50 := ieee_rem DoubleS v45 v47 in
   let v51 := get (0, junk) o50 in
   let v52 := fst v51 in
   let v53 := snd v51 in
   all_true [
      v6 =? OK;
      returns o7;
      returns o9;
      returns o11;
      returns o13;
      bitwise_eq v16 v12;
      v15 =? OK;
      returns o17;
      returns o19;
      returns o21;
      returns o23;
      bitwise_eq v26 v22;
      v25 =? OK;
      returns o28;
      returns o30;
      is_nan v33;
      v32 =? INVALID_OP;
      returns o34;
      returns o36;
      returns o38;
      returns o40;
      bitwise_eq v43 v39;
      v42 =? OK;
      returns o44;
      returns o46;
      returns o48;
      returns o50;
      bitwise_eq v53 v49;
      v52 =? OK]) = true.
Proof. vm_compute. reflexivity. Qed.

(** ieee.rs:4419 [float8e4m3fn_next] *)
Example test_float8e4m3fn_next_1 : (
   let o0 := from_bits Float8E4M3FNS 0 in
   let v1 := get junk o0 in
   let o2 := from_bits Float8E4M3FNS 1 in
   let v3 := get junk o2 in
   let o4 := next_up Float8E4M3FNS v1 in
   let v5 := get (0, junk) o4 in
   let v6 := fst v5 in
   let v7 := snd v5 in
   let o8 := from_bits Float8E4M3FNS 1 in
   let v9 := get junk o8 in
   let o10 := from_bits Float8E4M3FNS 2 in
   let v11 := get junk o10 in
   let o12 := next_up Float8E4M3FNS v9 in
   let v13 := get (0, junk) o12 in
   let v14 := fst v13 in
   let v15 := snd v13 in
   let o16 := from_bits Float8E4M3FNS 2 in
   let v17 := get junk o16 in
   let o18 := from_bits Float8E4M3FNS 3 in
   let v19 := get junk o18 in
   let o20 := next_up Float8E4M3FNS v17 in
   let v21 := get (0, junk) o20 in
   let v22 := fst v21 in
   let v23 := snd v21 in
   let o24 := from_bits Float8E4M3FNS 3 in
   let v25 := get junk o24 in
   let o26 := from_bits Float8E4M3FNS 4 in
   let v27 := get junk o26 in
   let o28 := next_up Float8E4M3FNS v25 in
   let v29 := get (0, junk) o28 in
   let v30 := fst v29 in
   let v31 := snd v29 in
   let o32 := from_bits Float8E4M3FNS 4 in
   let v33 := get junk o32 in
   let o34 := from_bits Float8E4M3FNS 5 in
   let v35 := get junk o34 in
   let o36 := next_up Float8E4M3FNS v33 in
   let v37 := get (0, junk) o36 in
   let v38 := fst v37 in
   let v39 := snd v37 in
   let o40 := from_bits Float8E4M3FNS 5 in
   let v41 := get junk o40 in
   let o42 := from_bits Float8E4M3FNS 6 in
   let v43 := get junk o42 in
   let o44 := next_up Float8E4M3FNS v41 in
   let v45 := get (0, junk) o44 in
   let v46 := fst v45 in
   let v47 := snd v45 in
   let o48 := from_bits Float8E4M3FNS 6 in
   let v49 := get junk o48 in
   let o50 := from_bits Float8E4M3FNS 7 in
   let v51 := get junk o50 in
   let o52 := next_up Float8E4M3FNS v49 in
   let v53 := get (0, junk) o52 in
   let v54 := fst v53 in
   let v55 := snd v53 in
   let o56 := from_bits Float8E4M3FNS 7 in
   let v57 := get junk o56 in
   let o58 := from_bits Float8E4M3FNS 8 in
   let v59 := get junk o58 in
   let o60 := next_up Float8E4M3FNS v57 in
   let v61 := get (0, junk) o60 in
   let v62 := fst v61 in
   let v63 := snd v61 in
   all_true [
      returns o0;
      returns o2;
      returns o4;
      bitwise_eq v7 v3;
      v6 =? OK;
      returns o8;
      returns o10;
      returns o12;
      bitwise_eq v15 v11;
      v14 =? OK;
      returns o16;
      returns o18;
      returns o20;
      bitwise_eq v23 v19;
      v22 =? OK;
      returns o24;
      returns o26;
      returns o28;
      bitwise_eq v31 v27;
      v30 =? OK;
      returns o32;
      returns o34;
      returns o36;
      bitwise_eq v39 v35;
      v38 =? OK;
      returns o40;
      returns o42;
      returns o44;
      bitwise_eq v47 v43;
      v46 =? OK;
      returns o48;
      returns o50;
      returns o52;
      bitwise_eq v55 v51;
      v54 =? OK;
      returns o56;
      returns o58;
      returns o60;
      bitwise_eq v63 v59;
      v62 =? OK]) = true.
Proof. vm_compute. reflexivity. Qed.

Example test_float8e4m3fn_next_2 : (
   let o0 := from_bits Float8E4M3FNS 8 in
   let v1 := get junk o0 in
   let o2 := from_bits Float8E4M3FNS 9 in
   let v3 := get junk o2 in
   let o4 := next_up Float8E4M3FNS v1 in
   let v5 := get (0, junk) o4 in
   let v6 := fst v5 in
   let v7 := snd v5 in
   let o8 := from_bits Float8E4M3FNS 9 in
   let v9 := get junk o8 in
   let o10 := from_bits Float8E4M3FNS 10 in
   let v11 := get junk o10 in
   let o12 := next_up Float8E4M3FNS v9 in
   let v13 := get (0, junk) o12 in
   let v14 := fst v13 in
   let v15 := snd v13 in
   let o16 := from_bits Float8E4M3FNS 10 in
   let v17 := get junk o16 in
   let o18 := from_bits Float8E4M3FNS 11 in
   let v19 := get junk o18 in
   let o20 := next_up Float8E4M3FNS v17 in
   let v21 := get (0, junk) o20 in
   let v22 := fst v21 in
   let v23 := snd v21 in
   let o24 := from_bits Float8E4M3FNS 11 in
   let v25 := get junk o24 in
   let o26 := from_bits Float8E4M3FNS 12 in
   let v27 := get junk o26 in
   let o28 := next_up Float8E4M3FNS v25 in
   let v29 := get (0, junk) o28 in
   let v30 := fst v29 in
   let v31 := snd v29 in
   let o32 := from_bits Float8E4M3FNS 12 in
   let v33 := get junk o32 in
   let o34 := from_bits Float8E4M3FNS 13 in
   let v35 := get junk o34 in
   let o36 := next_up Float8E4M3FNS v33 in
   let v37 := get (0, junk) o36 in
   let v38 := fst v37 in
   let v39 := snd v37 in
   let o40 := from_bits Float8E4M3FNS 13 in
   let v41 := get junk o40 in
   let o42 := from_bits Float8E4M3FNS 14 in
   let v43 := get junk o42 in
   let o44 := next_up Float8E4M3FNS v41 in
   let v45 := get (0, junk) o44 in
   let v46 := fst v45 in
   let v47 := snd v45 in
   let o48 := from_bits Float8E4M3FNS 14 in
   let v49 := get junk o48 in
   let o50 := from_bits Float8E4M3FNS 15 in
   let v51 := get junk o50 in
   let o52 := next_up Float8E4M3FNS v49 in
   let v53 := get (0, junk) o52 in
   let v54 := fst v53 in
   let v55 := snd v53 in
   let o56 := from_bits Float8E4M3FNS 15 in
   let v57 := get junk o56 in
   let o58 := from_bits Float8E4M3FNS 16 in
   let v59 := get junk o58 in
   let o60 := next_up Float8E4M3FNS v57 in
   let v61 := get (0, junk) o60 in
   let v62 := fst v61 in
   let v63 := snd v61 in
   all_true [
      returns o0;
      returns o2;
      returns o4;
      bitwise_eq v7 v3;
      v6 =? OK;
      returns o8;
      returns o10;
      returns o12;
      bitwise_eq v15 v11;
      v14 =? OK;
      returns o16;
      returns o18;
      returns o20;
      bitwise_eq v23 v19;
      v22 =? OK;
      returns o24;
      returns o26;
      returns o28;
      bitwise_eq v31 v27;
      v30 =? OK;
      returns o32;
      returns o34;
      returns o36;
      bitwise_eq v39 v35;
      v38 =? OK;
      returns o40;
      returns o42;
      returns o44;
      bitwise_eq v47 v43;
      v46 =? OK;
      returns o48;
      returns o50;
      returns o52;
      bitwise_eq v55 v51;
      v54 =? OK;
      returns o56;
      returns o58;
      returns o60;
      bitwise_eq v63 v59;
      v62 =? OK]) = true.
Proof. vm_compute. reflexivity. Qed.

Example test_float8e4m3fn_next_3 : (
   let o0 := from_bits Float8E4M3FNS 16 in
   let v1 := get junk o0 in
   let o2 := from_bits Float8E4M3FNS 17 in
   let v3 := get junk o2 in
   let o4 := next_up Float8E4M3FNS v1 in
   let v5 := get (0, junk) o4 in
   let v6 := fst v5 in
   let v7 := snd v5 in
   let o8 := from_bits Float8E4M3FNS 17 in
   let v9 := get junk o8 in
   let o10 := from_bits Float8E4M3FNS 18 in
   let v11 := get junk o10 in
   let o12 := next_up Float8E4M3FNS v9 in
   let v13 := get (0, junk) o12 in
   let v14 := fst v13 in
   let v15 := snd v13 in
   let o16 := from_bits Float8E4M3FNS 18 in
   let v17 := get junk o16 in
   let o18 := from_bits Float8E4M3FNS 19 in
   let v19 := get junk o18 in
   let o20 := next_up Float8E4M3FNS v17 in
   let v21 := get (0, junk) o20 in
   let v22 := fst v21 in
   let v23 := snd v21 in
   let o24 := from_bits Float8E4M3FNS 19 in
   let v25 := get junk o24 in
   let o26 := from_bits Float8E4M3FNS 20 in
   let v27 := get junk o26 in
   let o28 := next_up Float8E4M3FNS v25 in
   let v29 := get (0, junk) o28 in
   let v30 := fst v29 in
   let v31 := snd v29 in
   let o32 := from_bits Float8E4M3FNS 20 in
   let v33 := get junk o32 in
   let o34 := from_bits Float8E4M3FNS 21 in
   let v35 := get junk o34 in
   let o36 := next_up Float8E4M3FNS v33 in
   let v37 := get (0, junk) o36 in
   let v38 := fst v37 in
   let v39 := snd v37 in
   let o40 := from_bits Float8E4M3FNS 21 in
   let v41 := get junk o40 in
   let o42 := from_bits Float8E4M3FNS 22 in
   let v43 := get junk o42 in
   let o44 := next_up Float8E4M3FNS v41 in
   let v45 := get (0, junk) o44 in
   let v46 := fst v45 in
   let v47 := snd v45 in
   let o48 := from_bits Float8E4M3FNS 22 in
   let v49 := get junk o48 in
   let o50 := from_bits Float8E4M3FNS 23 in
   let v51 := get junk o50 in
   let o52 := next_up Float8E4M3FNS v49 in
   let v53 := get (0, junk) o52 in
   let v54 := fst v53 in
   let v55 := snd v53 in
   let o56 := from_bits Float8E4M3FNS 23 in
   let v57 := get junk o56 in
   let o58 := from_bits Float8E4M3FNS 24 in
   let v59 := get junk o58 in
   let o60 := next_up Float8E4M3FNS v57 in
   let v61 := get (0, junk) o60 in
   let v62 := fst v61 in
   let v63 := snd v61 in
   all_true [
      returns o0;
      returns o2;
      returns o4;
      bitwise_eq v7 v3;
      v6 =? OK;
      returns o8;
      returns o10;
      returns o12;
      bitwise_eq v15 v11;
      v14 =? OK;
      returns o16;
      returns o18;
      returns o20;
      bitwise_eq v23 v19;
      v22 =? OK;
      returns o24;
      returns o26;
      returns o28;
      bitwise_eq v31 v27;
      v30 =? OK;
      returns o32;
      returns o34;
      returns o36;
      bitwise_eq v39 v35;
      v38 =? OK;
      returns o40;
      returns o42;
      returns o44;
      bitwise_eq v47 v43;
      v46 =? OK;
      returns o48;
      returns o50;
      returns o52;
      bitwise_eq v55 v51;
      v54 =? OK;
      returns o56;
      returns o58;
      returns o60;
      bitwise_eq v63 v59;
      v62 =? OK]) = true.
Proof. vm_compute. reflexivity. Qed.

Example test_float8e4m3fn_next_4 : (
   let o0 := from_bits Float8E4M3FNS 24 in
   let v1 := get junk o0 in
   let o2 := from_bits Float8E4M3FNS 25 in
   let v3 := get junk o2 in
   let o4 := next_up Float8E4M3FNS v1 in
   let v5 := get (0, junk) o4 in
   let v6 := fst v5 in
   let v7 := snd v5 in
   let o8 := from_bits Float8E4M3FNS 25 in
   let v9 := get junk o8 in
   let o10 := from_bits Float8E4M3FNS 26 in
   let v11 := get junk o10 in
   let o12 := next_up Float8E4M3FNS v9 in
   let v13 := get (0, junk) o12 in
   let v14 := fst v13 in
   let v15 := snd v13 in
   let o16 := from_bits Float8E4M3FNS 26 in
   let v17 := get junk o16 in
   let o18 := from_bits Float8E4M3FNS 27 in
   let v19 := get junk o18 in
   let o20 := next_up Float8E4M3FNS v17 in
   let v21 := get (0, junk) o20 in
   let v22 := fst v21 in
   let v23 := snd v21 in
   let o24 := from_bits Float8E4M3FNS 27 in
   let v25 := get junk o24 in
   let o26 := from_bits Float8E4M3FNS 28 in
   let v27 := get junk o26 in
   let o28 := next_up Float8E4M3FNS v25 in
   let v29 := get (0, junk) o28 in
   let v30 := fst v29 in
   let v31 := snd v29 in
   let o32 := from_bits Float8E4M3FNS 28 in
   let v33 := get junk o32 in
   let o34 := from_bits Float8E4M3FNS 29 in
   let v35 := get junk o34 in
   let o36 := next_up Float8E4M3FNS v33 in
   let v37 := get (0, junk) o36 in
   let v38 := fst v37 in
   let v39 := snd v37 in
   let o40 := from_bits Float8E4M3FNS 29 in
   let v41 := get junk o40 in
   let o42 := from_bits Float8E4M3FNS 30 in
   let v43 := get junk o42 in
   let o44 := next_up Float8E4M3FNS v41 in
   let v45 := get (0, junk) o44 in
   let v46 := fst v45 in
   let v47 := snd v45 in
   let o48 := from_bits Float8E4M3FNS 30 in
   let v49 := get junk o48 in
   let o50 := from_bits Float8E4M3FNS 31 in
   let v51 := get junk o50 in
   let o52 := next_up Float8E4M3FNS v49 in
   let v53 := get (0, junk) o52 in
   let v54 := fst v53 in
   let v55 := snd v53 in
   let o56 := from_bits Float8E4M3FNS 31 in
   let v57 := get junk o56 in
   let o58 := from_bits Float8E4M3FNS 32 in
   let v59 := get junk o58 in
   let o60 := next_up Float8E4M3FNS v57 in
   let v61 := get (0, junk) o60 in
   let v62 := fst v61 in
   let v63 := snd v61 in
   all_true [
      returns o0;
      returns o2;
      returns o4;
      bitwise_eq v7 v3;
      v6 =? OK;
      returns o8;
      returns o10;
      returns o12;
      bitwise_eq v15 v11;
      v14 =? OK;
      returns o16;
      returns o18;
      returns o20;
      bitwise_eq v23 v19;
      v22 =? OK;
      returns o24;
      returns o26;
      returns o28;
      bitwise_eq v31 v27;
      v30 =? OK;
      returns o32;
      returns o34;
      returns o36;
      bitwise_eq v39 v35;
      v38 =? OK;
      returns o40;
      returns o42;
      returns o44;
      bitwise_eq v47 v43;
      v46 =? OK;
      returns o48;
      returns o50;
      returns o52;
      bitwise_eq v55 v51;
      v54 =? OK;
      returns o56;
      returns o58;
      returns o60;
      bitwise_eq v63 v59;
      v62 =? OK]) = true.
Proof. vm_compute. reflexivity. Qed.

Example test_float8e4m3fn_next_5 : (
   let o0 := from_bits Float8E4M3FNS 32 in
   let v1 := get junk o0 in
   let o2 := from_bits Float8E4M3FNS 33 in
   let v3 := get junk o2 in
   let o4 := next_up Float8E4M3FNS v1 in
   let v5 := get (0, junk) o4 in
   let v6 := fst v5 in
   let v7 := snd v5 in
   let o8 := from_bits Float8E4M3FNS 33 in
   let v9 := get junk o8 in
   let o10 := from_bits Float8E4M3FNS 34 in
   let v11 := get junk o10 in
   let o12 := next_up Float8E4M3FNS v9 in
   let v13 := get (0, junk) o12 in
   let v14 := fst v13 in
   let v15 := snd v13 in
   let o16 := from_bits Float8E4M3FNS 34 in
   let v17 := get junk o16 in
   let o18 := from_bits Float8E4M3FNS 35 in
   let v19 := get junk o18 in
   let o20 := next_up Float8E4M3FNS v17 in
   let v21 := get (0, junk) o20 in
   let v22 := fst v21 in
   let v23 := snd v21 in
   let o24 := from_bits Float8E4M3FNS 35 in
   let v25 := get junk o24 in
   let o26 := from_bits Float8E4M3FNS 36 in
   let v27 := get junk o26 in
   let o28 := next_up Float8E4M3FNS v25 in
   let v29 := get (0, junk) o28 in
   let v30 := fst v29 in
   let v31 := snd v29 in
   let o32 := from_bits Float8E4M3FNS 36 in
   let v33 := get junk o32 in
   let o34 := from_bits Float8E4M3FNS 37 in
   let v35 := get junk o34 in
   let o36 := next_up Float8E4M3FNS v33 in
   let v37 := get (0, junk) o36 in
   let v38 := fst v37 in
   let v39 := snd v37 in
   let o40 := from_bits Float8E4M3FNS 37 in
   let v41 := get junk o40 in
   let o42 := from_bits Float8E4M3FNS 38 in
   let v43 := get junk o42 in
   let o44 := next_up Float8E4M3FNS v41 in
   let v45 := get (0, junk) o44 in
   let v46 := fst v45 in
   let v47 := snd v45 in
   let o48 := from_bits Float8E4M3FNS 38 in
   let v49 := get junk o48 in
   let o50 := from_bits Float8E4M3FNS 39 in
   let v51 := get junk o50 in
   let o52 := next_up Float8E4M3FNS v49 in
   let v53 := get (0, junk) o52 in
   let v54 := fst v53 in
   let v55 := snd v53 in
   let o56 := from_bits Float8E4M3FNS 39 in
   let v57 := get junk o56 in
   let o58 := from_bits Float8E4M3FNS 40 in
   let v59 := get junk o58 in
   let o60 := next_up Float8E4M3FNS v57 in
   let v61 := get (0, junk) o60 in
   let v62 := fst v61 in
   let v63 := snd v61 in
   all_true [
      returns o0;
      returns o2;
      returns o4;
      bitwise_eq v7 v3;
      v6 =? OK;
      returns o8;
      returns o10;
      returns o12;
      bitwise_eq v15 v11;
      v14 =? OK;
      returns o16;
      returns o18;
      returns o20;
      bitwise_eq v23 v19;
      v22 =? OK;
      returns o24;
      returns o26;
      returns o28;
      bitwise_eq v31 v27;
      v30 =? OK;
      returns o32;
      returns o34;
      returns o36;
      bitwise_eq v39 v35;
      v38 =? OK;
      returns o40;
      returns o42;
      returns o44;
      bitwise_eq v47 v43;
      v46 =? OK;
      returns o48;
      returns o50;
      returns o52;
      bitwise_eq v55 v51;
      v54 =? OK;
      returns o56;
      returns o58;
      returns o60;
      bitwise_eq v63 v59;
      v62 =? OK]) = true.
Proof. vm_compute. reflexivity. Qed.

Example test_float8e4m3fn_next_6 : (
   let o0 := from_bits Float8E4M3FNS 40 in
   let v1 := get junk o0 in
   let o2 := from_bits Float8E4M3FNS 41 in
   let v3 := get junk o2 in
   let o4 := next_up Float8E4M3FNS v1 in
   let v5 := get (0, junk) o4 in
   let v6 := fst v5 in
   let v7 := snd v5 in
   let o8 := from_bits Float8E4M3FNS 41 in
   let v9 := get junk o8 in
   let o10 := from_bits Float8E4M3FNS 42 in
   let v11 := get junk o10 in
   let o12 := next_up Float8E4M3FNS v9 in
   let v13 := get (0, junk) o12 in
   let v14 := fst v13 in
   let v15 := snd v13 in
   let o16 := from_bits Float8E4M3FNS 42 in
   let v17 := get junk o16 in
   let o18 := from_bits Float8E4M3FNS 43 in
   let v19 := get junk o18 in
   let o20 := next_up Float8E4M3FNS v17 in
   let v21 := get (0, junk) o20 in
   let v22 := fst v21 in
   let v23 := snd v21 in
   let o24 := from_bits Float8E4M3FNS 43 in
   let v25 := get junk o24 in
   let o26 := from_bits Float8E4M3FNS 44 in
   let v27 := get junk o26 in
   let o28 := next_up Float8E4M3FNS v25 in
   let v29 := get (0, junk) o28 in
   let v30 := fst v29 in
   let v31 := snd v29 in
   let o32 := from_bits Float8E4M3FNS 44 in
   let v33 := get junk o32 in
   let o34 := from_bits Float8E4M3FNS 45 in
   let v35 := get junk o34 in
   let o36 := next_up Float8E4M3FNS v33 in
   let v37 := get (0, junk) o36 in
   let v38 := fst v37 in
   let v39 := snd v37 in
   let o40 := from_bits Float8E4M3FNS 45 in
   let v41 := get junk o40 in
   let o42 := from_bits Float8E4M3FNS 46 in
   let v43 := get junk o42 in
   let o44 := next_up Float8E4M3FNS v41 in
   let v45 := get (0, junk) o44 in
   let v46 := fst v45 in
   let v47 := snd v45 in
   let o48 := from_bits Float8E4M3FNS 46 in
   let v49 := get junk o48 in
   let o50 := from_bits Float8E4M3FNS 47 in
   let v51 := get junk o50 in
   let o52 := next_up Float8E4M3FNS v49 in
   let v53 := get (0, junk) o52 in
   let v54 := fst v53 in
   let v55 := snd v53 in
   let o56 := from_bits Float8E4M3FNS 47 in
   let v57 := get junk o56 in
   let o58 := from_bits Float8E4M3FNS 48 in
   let v59 := get junk o58 in
   let o60 := next_up Float8E4M3FNS v57 in
   let v61 := get (0, junk) o60 in
   let v62 := fst v61 in
   let v63 := snd v61 in
   all_true [
      returns o0;
      returns o2;
      returns o4;
      bitwise_eq v7 v3;
      v6 =? OK;
      returns o8;
      returns o10;
      returns o12;
      bitwise_eq v15 v11;
      v14 =? OK;
      returns o16;
      returns o18;
      returns o20;
      bitwise_eq v23 v19;
      v22 =? OK;
      returns o24;
      returns o26;
      returns o28;
      bitwise_eq v31 v27;
      v30 =? OK;
      returns o32;
      returns o34;
      returns o36;
      bitwise_eq v39 v35;
      v38 =? OK;
      returns o40;
      returns o42;
      returns o44;
      bitwise_eq v47 v43;
      v46 =? OK;
      returns o48;
      returns o50;
      returns o52;
      bitwise_eq v55 v51;
      v54 =? OK;
      returns o56;
      returns o58;
      returns o60;
      bitwise_eq v63 v59;
      v62 =? OK]) = true.
Proof. vm_compute. reflexivity. Qed.

Example test_float8e4m3fn_next_7 : (
   let o0 := from_bits Float8E4M3FNS 48 in
   let v1 := get junk o0 in
   let o2 := from_bits Float8E4M3FNS 49 in
   let v3 := get junk o2 in
   let o4 := next_up Float8E4M3FNS v1 in
   let v5 := get (0, junk) o4 in
   let v6 := fst v5 in
   let v7 := snd v5 in
   let o8 := from_bits Float8E4M3FNS 49 in
   let v9 := get junk o8 in
   let o10 := from_bits Float8E4M3FNS 50 in
   let v11 := get junk o10 in
   let o12 := next_up Float8E4M3FNS v9 in
   let v13 := get (0, junk) o12 in
   let v14 := fst v13 in
   let v15 := snd v13 in
   let o16 := from_bits Float8E4M3FNS 50 in
   let v17 := get junk o16 in
   let o18 := from_bits Float8E4M3FNS 51 in
   let v19 := get junk o18 in
   let o20 := next_up Float8E4M3FNS v17 in
   let v21 := get (0, junk) o20 in
   let v22 := fst v21 in
   let v23 := snd v21 in
   let o24 := from_bits Float8E4M3FNS 51 in
   let v25 := get junk o24 in
   let o26 := from_bits Float8E4M3FNS 52 in
   let v27 := get junk o26 in
   let o28 := next_up Float8E4M3FNS v25 in
   let v29 := get (0, junk) o28 in
   let v30 := fst v29 in
   let v31 := snd v29 in
   let o32 := from_bits Float8E4M3FNS 52 in
   let v33 := get junk o32 in
   let o34 := from_bits Float8E4M3FNS 53 in
   let v35 := get junk o34 in
   let o36 := next_up Float8E4M3FNS v33 in
   let v37 := get (0, junk) o36 in
   let v38 := fst v37 in
   let v39 := snd v37 in
   let o40 := from_bits Float8E4M3FNS 53 in
   let v41 := get junk o40 in
   let o42 := from_bits Float8E4M3FNS 54 in
   let v43 := get junk o42 in
   let o44 := next_up Float8E4M3FNS v41 in
   let v45 := get (0, junk) o44 in
   let v46 := fst v45 in
   let v47 := snd v45 in
   let o48 := from_bits Float8E4M3FNS 54 in
   let v49 := get junk o48 in
   let o50 := from_bits Float8E4M3FNS 55 in
   let v51 := get junk o50 in
   let o52 := next_up Float8E4M3FNS v49 in
   let v53 := get (0, junk) o52 in
   let v54 := fst v53 in
   let v55 := snd v53 in
   let o56 := from_bits Float8E4M3FNS 55 in
   let v57 := get junk o56 in
   let o58 := from_bits Float8E4M3FNS 56 in
   let v59 := get junk o58 in
   let o60 := next_up Float8E4M3FNS v57 in
   let v61 := get (0, junk) o60 in
   let v62 := fst v61 in
   let v63 := snd v61 in
   all_true [
      returns o0;
      returns o2;
      returns o4;
      bitwise_eq v7 v3;
      v6 =? OK;
      returns o8;
      returns o10;
      returns o12;
      bitwise_eq v15 v11;
      v14 =? OK;
      returns o16;
      returns o18;
      returns o20;
      bitwise_eq v23 v19;
      v22 =? OK;
      returns o24;
      returns o26;
      returns o28;
      bitwise_eq v31 v27;
      v30 =? OK;
      returns o32;
      returns o34;
      returns o36;
      bitwise_eq v39 v35;
      v38 =? OK;
      returns o40;
      returns o42;
      returns o44;
      bitwise_eq v47 v43;
      v46 =? OK;
      returns o48;
      returns o50;
      returns o52;
      bitwise_eq v55 v51;
      v54 =? OK;
      returns o56;
      returns o58;
      returns o60;
      bitwise_eq v63 v59;
      v62 =? OK]) = true.
Proof. vm_compute. reflexivity. Qed.

Example test_float8e4m3fn_next_8 : (
   let o0 := from_bits Float8E4M3FNS 56 in
   let v1 := get junk o0 in
   let o2 := from_bits Float8E4M3FNS 57 in
   let v3 := get junk o2 in
   let o4 := next_up Float8E4M3FNS v1 in
   let v5 := get (0, junk) o4 in
   let v6 := fst v5 in
   let v7 := snd v5 in
   let o8 := from_bits Float8E4M3FNS 57 in
   let v9 := get junk o8 in
   let o10 := from_bits Float8E4M3FNS 58 in
   let v11 := get junk o10 in
   let o12 := next_up Float8E4M3FNS v9 in
   let v13 := get (0, junk) o12 in
   let v14 := fst v13 in
   let v15 := snd v13 in
   let o16 := from_bits Float8E4M3FNS 58 in
   let v17 := get junk o16 in
   let o18 := from_bits Float8E4M3FNS 59 in
   let v19 := get junk o18 in
   let o20 := next_up Float8E4M3FNS v17 in
   let v21 := get (0, junk) o20 in
   let v22 := fst v21 in
   let v23 := snd v21 in
   let o24 := from_bits Float8E4M3FNS 59 in
   let v25 := get junk o24 in
   let o26 := from_bits Float8E4M3FNS 60 in
   let v27 := get junk o26 in
   let o28 := next_up Float8E4M3FNS v25 in
   let v29 := get (0, junk) o28 in
   let v30 := fst v29 in
   let v31 := snd v29 in
   let o32 := from_bits Float8E4M3FNS 60 in
   let v33 := get junk o32 in
   let o34 := from_bits Float8E4M3FNS 61 in
   let v35 := get junk o34 in
   let o36 := next_up Float8E4M3FNS v33 in
   let v37 := get (0, junk) o36 in
   let v38 := fst v37 in
   let v39 := snd v37 in
   let o40 := from_bits Float8E4M3FNS 61 in
   let v41 := get junk o40 in
   let o42 := from_bits Float8E4M3FNS 62 in
   let v43 := get junk o42 in
   let o44 := next_up Float8E4M3FNS v41 in
   let v45 := get (0, junk) o44 in
   let v46 := fst v45 in
   let v47 := snd v45 in
   let o48 := from_bits Float8E4M3FNS 62 in
   let v49 := get junk o48 in
   let o50 := from_bits Float8E4M3FNS 63 in
   let v51 := get junk o50 in
   let o52 := next_up Float8E4M3FNS v49 in
   let v53 := get (0, junk) o52 in
   let v54 := fst v53 in
   let v55 := snd v53 in
   let o56 := from_bits Float8E4M3FNS 63 in
   let v57 := get junk o56 in
   let o58 := from_bits Float8E4M3FNS 64 in
   let v59 := get junk o58 in
   let o60 := next_up Float8E4M3FNS v57 in
   let v61 := get (0, junk) o60 in
   let v62 := fst v61 in
   let v63 := snd v61 in
   all_true [
      returns o0;
      returns o2;
      returns o4;
      bitwise_eq v7 v3;
      v6 =? OK;
      returns o8;
      returns o10;
      returns o12;
      bitwise_eq v15 v11;
      v14 =? OK;
      returns o16;
      returns o18;
      returns o20;
      bitwise_eq v23 v19;
      v22 =? OK;
      returns o24;
      returns o26;
      returns o28;
      bitwise_eq v31 v27;
      v30 =? OK;
      returns o32;
      returns o34;
      returns o36;
      bitwise_eq v39 v35;
      v38 =? OK;
      returns o40;
      returns o42;
      returns o44;
      bitwise_eq v47 v43;
      v46 =? OK;
      returns o48;
      returns o50;
      returns o52;
      bitwise_eq v55 v51;
      v54 =? OK;
      returns o56;
      returns o58;
      returns o60;
      bitwise_eq v63 v59;
      v62 =? OK]) = true.
Proof. vm_compute. reflexivity. Qed.

Example test_float8e4m3fn_next_9 : (
   let o0 := from_bits Float8E4M3FNS 64 in
   let v1 := get junk o0 in
   let o2 := from_bits Float8E4M3FNS 65 in
   let v3 := get junk o2 in
   let o4 := next_up Float8E4M3FNS v1 in
   let v5 := get (0, junk) o4 in
   let v6 := fst v5 in
   let v7 := snd v5 in
   let o8 := from_bits Float8E4M3FNS 65 in
   let v9 := get junk o8 in
   let o10 := from_bits Float8E4M3FNS 66 in
   let v11 := get junk o10 in
   let o12 := next_up Float8E4M3FNS v9 in
   let v13 := get (0, junk) o12 in
   let v14 := fst v13 in
   let v15 := snd v13 in
   let o16 := from_bits Float8E4M3FNS 66 in
   let v17 := get junk o16 in
   let o18 := from_bits Float8E4M3FNS 67 in
   let v19 := get junk o18 in
   let o20 := next_up Float8E4M3FNS v17 in
   let v21 := get (0, junk) o20 in
   let v22 := fst v21 in
   let v23 := snd v21 in
   let o24 := from_bits Float8E4M3FNS 67 in
   let v25 := get junk o24 in
   let o26 := from_bits Float8E4M3FNS 68 in
   let v27 := get junk o26 in
   let o28 := next_up Float8E4M3FNS v25 in
   let v29 := get (0, junk) o28 in
   let v30 := fst v29 in
   let v31 := snd v29 in
   let o32 := from_bits Float8E4M3FNS 68 in
   let v33 := get junk o32 in
   let o34 := from_bits Float8E4M3FNS 69 in
   let v35 := get junk o34 in
   let o36 := next_up Float8E4M3FNS v33 in
   let v37 := get (0, junk) o36 in
   let v38 := fst v37 in
   let v39 := snd v37 in
   let o40 := from_bits Float8E4M3FNS 69 in
   let v41 := get junk o40 in
   let o42 := from_bits Float8E4M3FNS 70 in
   let v43 := get junk o42 in
   let o44 := next_up Float8E4M3FNS v41 in
   let v45 := get (0, junk) o44 in
   let v46 := fst v45 in
   let v47 := snd v45 in
   let o48 := from_bits Float8E4M3FNS 70 in
   let v49 := get junk o48 in
   let o50 := from_bits Float8E4M3FNS 71 in
   let v51 := get junk o50 in
   let o52 := next_up Float8E4M3FNS v49 in
   let v53 := get (0, junk) o52 in
   let v54 := fst v53 in
   let v55 := snd v53 in
   let o56 := from_bits Float8E4M3FNS 71 in
   let v57 := get junk o56 in
   let o58 := from_bits Float8E4M3FNS 72 in
   let v59 := get junk o58 in
   let o60 := next_up Float8E4M3FNS v57 in
   let v61 := get (0, junk) o60 in
   let v62 := fst v61 in
   let v63 := snd v61 in
   all_true [
      returns o0;
      returns o2;
      returns o4;
      bitwise_eq v7 v3;
      v6 =? OK;
      returns o8;
      returns o10;
      returns o12;
      bitwise_eq v15 v11;
      v14 =? OK;
      returns o16;
      returns o18;
      returns o20;
      bitwise_eq v23 v19;
      v22 =? OK;
      returns o24;
      returns o26;
      returns o28;
      bitwise_eq v31 v27;
      v30 =? OK;
      returns o32;
      returns o34;
      returns o36;
      bitwise_eq v39 v35;
      v38 =? OK;
      returns o40;
      returns o42;
      returns o44;
      bitwise_eq v47 v43;
      v46 =? OK;
      returns o48;
      returns o50;
      returns o52;
      bitwise_eq v55 v51;
      v54 =? OK;
      returns o56;
      returns o58;
      returns o60;
      bitwise_eq v63 v59;
      v62 =? OK]) = true.
Proof. vm_compute. reflexivity. Qed.

Example test_float8e4m3fn_next_10 : (
   let o0 := from_bits Float8E4M3FNS 72 in
   let v1 := get junk o0 in
   let o2 := from_bits Float8E4M3FNS 73 in
   let v3 := get junk o2 in
   let o4 := next_up Float8E4M3FNS v1 in
   let v5 := get (0, junk) o4 in
   let v6 := fst v5 in
   let v7 := snd v5 in
   let o8 := from_bits Float8E4M3FNS 73 in
   let v9 := get junk o8 in
   let o10 := from_bits Float8E4M3FNS 74 in
   let v11 := get junk o10 in
   let o12 := next_up Float8E4M3FNS v9 in
   let v13 := get (0, junk) o12 in
   let v14 := fst v13 in
   let v15 := snd v13 in
   let o16 := from_bits Float8E4M3FNS 74 in
   let v17 := get junk o16 in
   let o18 := from_bits Float8E4M3FNS 75 in
   let v19 := get junk o18 in
   let o20 := next_up Float8E4M3FNS v17 in
   let v21 := get (0, junk) o20 in
   let v22 := fst v21 in
   let v23 := snd v21 in
   let o24 := from_bits Float8E4M3FNS 75 in
   let v25 := get junk o24 in
   let o26 := from_bits Float8E4M3FNS 76 in
   let v27 := get junk o26 in
   let o28 := next_up Float8E4M3FNS v25 in
   let v29 := get (0, junk) o28 in
   let v30 := fst v29 in
   let v31 := snd v29 in
   let o32 := from_bits Float8E4M3FNS 76 in
   let v33 := get junk o32 in
   let o34 := from_bits Float8E4M3FNS 77 in
   let v35 := get junk o34 in
   let o36 := next_up Float8E4M3FNS v33 in
   let v37 := get (0, junk) o36 in
   let v38 := fst v37 in
   let v39 := snd v37 in
   let o40 := from_bits Float8E4M3FNS 77 in
   let v41 := get junk o40 in
   let o42 := from_bits Float8E4M3FNS 78 in
   let v43 := get junk o42 in
   let o44 := next_up Float8E4M3FNS v41 in
   let v45 := get (0, junk) o44 in
   let v46 := fst v45 in
   let v47 := snd v45 in
   let o48 := from_bits Float8E4M3FNS 78 in
   let v49 := get junk o48 in
   let o50 := from_bits Float8E4M3FNS 79 in
   let v51 := get junk o50 in
   let o52 := next_up Float8E4M3FNS v49 in
   let v53 := get (0, junk) o52 in
   let v54 := fst v53 in
   let v55 := snd v53 in
   let o56 := from_bits Float8E4M3FNS 79 in
   let v57 := get junk o56 in
   let o58 := from_bits Float8E4M3FNS 80 in
   let v59 := get junk o58 in
   let o60 := next_up Float8E4M3FNS v57 in
   let v61 := get (0, junk) o60 in
   let v62 := fst v61 in
   let v63 := snd v61 in
   all_true [
      returns o0;
      returns o2;
      returns o4;
      bitwise_eq v7 v3;
      v6 =? OK;
      returns o8;
      returns o10;
      returns o12;
      bitwise_eq v15 v11;
      v14 =? OK;
      returns o16;
      returns o18;
      returns o20;
      bitwise_eq v23 v19;
      v22 =? OK;
      returns o24;
      returns o26;
      returns o28;
      bitwise_eq v31 v27;
      v30 =? OK;
      returns o32;
      returns o34;
      returns o36;
      bitwise_eq v39 v35;
      v38 =? OK;
      returns o40;
      returns o42;
      returns o44;
      bitwise_eq v47 v43;
      v46 =? OK;
      returns o48;
      returns o50;
      returns o52;
      bitwise_eq v55 v51;
      v54 =? OK;
      returns o56;
      returns o58;
      returns o60;
      bitwise_eq v63 v59;
      v62 =? OK]) = true.
Proof. vm_compute. reflexivity. Qed.

Example test_float8e4m3fn_next_11 : (
   let o0 := from_bits Float8E4M3FNS 80 in
   let v1 := get junk o0 in
   let o2 := from_bits Float8E4M3FNS 81 in
   let v3 := get junk o2 in
   let o4 := next_up Float8E4M3FNS v1 in
   let v5 := get (0, junk) o4 in
   let v6 := fst v5 in
   let v7 := snd v5 in
   let o8 := from_bits Float8E4M3FNS 81 in
   let v9 := get junk o8 in
   let o10 := from_bits Float8E4M3FNS 82 in
   let v11 := get junk o10 in
   let o12 := next_up Float8E4M3FNS v9 in
   let v13 := get (0, junk) o12 in
   let v14 := fst v13 in
   let v15 := snd v13 in
   let o16 := from_bits Float8E4M3FNS 82 in
   let v17 := get junk o16 in
   let o18 := from_bits Float8E4M3FNS 83 in
   let v19 := get junk o18 in
   let o20 := next_up Float8E4M3FNS v17 in
   let v21 := get (0, junk) o20 in
   let v22 := fst v21 in
   let v23 := snd v21 in
   let o24 := from_bits Float8E4M3FNS 83 in
   let v25 := get junk o24 in
   let o26 := from_bits Float8E4M3FNS 84 in
   let v27 := get junk o26 in
   let o28 := next_up Float8E4M3FNS v25 in
   let v29 := get (0, junk) o28 in
   let v30 := fst v29 in
   let v31 := snd v29 in
   let o32 := from_bits Float8E4M3FNS 84 in
   let v33 := get junk o32 in
   let o34 := from_bits Float8E4M3FNS 85 in
   let v35 := get junk o34 in
   let o36 := next_up Float8E4M3FNS v33 in
   let v37 := get (0, junk) o36 in
   let v38 := fst v37 in
   let v39 := snd v37 in
   let o40 := from_bits Float8E4M3FNS 85 in
   let v41 := get junk o40 in
   let o42 := from_bits Float8E4M3FNS 86 in
   let v43 := get junk o42 in
   let o44 := next_up Float8E4M3FNS v41 in
   let v45 := get (0, junk) o44 in
   let v46 := fst v45 in
   let v47 := snd v45 in
   let o48 := from_bits Float8E4M3FNS 86 in
   let v49 := get junk o48 in
   let o50 := from_bits Float8E4M3FNS 87 in
   let v51 := get junk o50 in
   let o52 := next_up Float8E4M3FNS v49 in
   let v53 := get (0, junk) o52 in
   let v54 := fst v53 in
   let v55 := snd v53 in
   let o56 := from_bits Float8E4M3FNS 87 in
   let v57 := get junk o56 in
   let o58 := from_bits Float8E4M3FNS 88 in
   let v59 := get junk o58 in
   let o60 := next_up Float8E4M3FNS v57 in
   let v61 := get (0, junk) o60 in
   let v62 := fst v61 in
   let v63 := snd v61 in
   all_true [
      returns o0;
      returns o2;
      returns o4;
      bitwise_eq v7 v3;
      v6 =? OK;
      returns o8;
      returns o10;
      returns o12;
      bitwise_eq v15 v11;
      v14 =? OK;
      returns o16;
      returns o18;
      returns o20;
      bitwise_eq v23 v19;
      v22 =? OK;
      returns o24;
      returns o26;
      returns o28;
      bitwise_eq v31 v27;
      v30 =? OK;
      returns o32;
      returns o34;
      returns o36;
      bitwise_eq v39 v35;
      v38 =? OK;
      returns o40;
      returns o42;
      returns o44;
      bitwise_eq v47 v43;
      v46 =? OK;
      returns o48;
      returns o50;
      returns o52;
      bitwise_eq v55 v51;
      v54 =? OK;
      returns o56;
      returns o58;
      returns o60;
      bitwise_eq v63 v59;
      v62 =? OK]) = true.
Proof. vm_compute. reflexivity. Qed.

Example test_float8e4m3fn_next_12 : (
   let o0 := from_bits Float8E4M3FNS 88 in
   let v1 := get junk o0 in
   let o2 := from_bits Float8E4M3FNS 89 in
   let v3 := get junk o2 in
   let o4 := next_up Float8E4M3FNS v1 in
   let v5 := get (0, junk) o4 in
   let v6 := fst v5 in
   let v7 := snd v5 in
   let o8 := from_bits Float8E4M3FNS 89 in
   let v9 := get junk o8 in
   let o10 := from_bits Float8E4M3FNS 90 in
   let v11 := get junk o10 in
   let o12 := next_up Float8E4M3FNS v9 in
   let v13 := get (0, junk) o12 in
   let v14 := fst v13 in
   let v15 := snd v13 in
   let o16 := from_bits Float8E4M3FNS 90 in
   let v17 := get junk o16 in
   let o18 := from_bits Float8E4M3FNS 91 in
   let v19 := get junk o18 in
   let o20 := next_up Float8E4M3FNS v17 in
   let v21 := get (0, junk) o20 in
   let v22 := fst v21 in
   let v23 := snd v21 in
   let o24 := from_bits Float8E4M3FNS 91 in
   let v25 := get junk o24 in
   let o26 := from_bits Float8E4M3FNS 92 in
   let v27 := get junk o26 in
   let o28 := next_up Float8E4M3FNS v25 in
   let v29 := get (0, junk) o28 in
   let v30 := fst v29 in
   let v31 := snd v29 in
   let o32 := from_bits Float8E4M3FNS 92 in
   let v33 := get junk o32 in
   let o34 := from_bits Float8E4M3FNS 93 in
   let v35 := get junk o34 in
   let o36 := next_up Float8E4M3FNS v33 in
   let v37 := get (0, junk) o36 in
   let v38 := fst v37 in
   let v39 := snd v37 in
   let o40 := from_bits Float8E4M3FNS 93 in
   let v41 := get junk o40 in
   let o42 := from_bits Float8E4M3FNS 94 in
   let v43 := get junk o42 in
   let o44 := next_up Float8E4M3FNS v41 in
   let v45 := get (0, junk) o44 in
   let v46 := fst v45 in
   let v47 := snd v45 in
   let o48 := from_bits Float8E4M3FNS 94 in
   let v49 := get junk o48 in
   let o50 := from_bits Float8E4M3FNS 95 in
   let v51 := get junk o50 in
   let o52 := next_up Float8E4M3FNS v49 in
   let v53 := get (0, junk) o52 in
   let v54 := fst v53 in
   let v55 := snd v53 in
   let o56 := from_bits Float8E4M3FNS 95 in
   let v57 := get junk o56 in
   let o58 := from_bits Float8E4M3FNS 96 in
   let v59 := get junk o58 in
   let o60 := next_up Float8E4M3FNS v57 in
   let v61 := get (0, junk) o60 in
   let v62 := fst v61 in
   let v63 := snd v61 in
   all_true [
      returns o0;
      returns o2;
      returns o4;
      bitwise_eq v7 v3;
      v6 =? OK;
      returns o8;
      returns o10;
      returns o12;
      bitwise_eq v15 v11;
      v14 =? OK;
      returns o16;
      returns o18;
      returns o20;
      bitwise_eq v23 v19;
      v22 =? OK;
      returns o24;
      returns o26;
      returns o28;
      bitwise_eq v31 v27;
      v30 =? OK;
      returns o32;
      returns o34;
      returns o36;
      bitwise_eq v39 v35;
      v38 =? OK;
      returns o40;
      returns o42;
      returns o44;
      bitwise_eq v47 v43;
      v46 =? OK;
      returns o48;
      returns o50;
      returns o52;
      bitwise_eq v55 v51;
      v54 =? OK;
      returns o56;
      returns o58;
      returns o60;
      bitwise_eq v63 v59;
      v62 =? OK]) = true.
Proof. vm_compute. reflexivity. Qed.

Example test_float8e4m3fn_next_13 : (
   let o0 := from_bits Float8E4M3FNS 96 in
   let v1 := get junk o0 in
   let o2 := from_bits Float8E4M3FNS 97 in
   let v3 := get junk o2 in
   let o4 := next_up Float8E4M3FNS v1 in
   let v5 := get (0, junk) o4 in
   let v6 := fst v5 in
   let v7 := snd v5 in
   let o8 := from_bits Float8E4M3FNS 97 in
   let v9 := get junk o8 in
   let o10 := from_bits Float8E4M3FNS 98 in
   let v11 := get junk o10 in
   let o12 := next_up Float8E4M3FNS v9 in
   let v13 := get (0, junk) o12 in
   let v14 := fst v13 in
   let v15 := snd v13 in
   let o16 := from_bits Float8E4M3FNS 98 in
   let v17 := get junk o16 in
   let o18 := from_bits Float8E4M3FNS 99 in
   let v19 := get junk o18 in
   let o20 := next_up Float8E4M3FNS v17 in
   let v21 := get (0, junk) o20 in
   let v22 := fst v21 in
   let v23 := snd v21 in
   let o24 := from_bits Float8E4M3FNS 99 in
   let v25 := get junk o24 in
   let o26 := from_bits Float8E4M3FNS 100 in
   let v27 := get junk o26 in
   let o28 := next_up Float8E4M3FNS v25 in
   let v29 := get (0, junk) o28 in
   let v30 := fst v29 in
   let v31 := snd v29 in
   let o32 := from_bits Float8E4M3FNS 100 in
   let v33 := get junk o32 in
   let o34 := from_bits Float8E4M3FNS 101 in
   let v35 := get junk o34 in
   let o36 := next_up Float8E4M3FNS v33 in
   let v37 := get (0, junk) o36 in
   let v38 := fst v37 in
   let v39 := snd v37 in
   let o40 := from_bits Float8E4M3FNS 101 in
   let v41 := get junk o40 in
   let o42 := from_bits Float8E4M3FNS 102 in
   let v43 := get junk o42 in
   let o44 := next_up Float8E4M3FNS v41 in
   let v45 := get (0, junk) o44 in
   let v46 := fst v45 in
   let v47 := snd v45 in
   let o48 := from_bits Float8E4M3FNS 102 in
   let v49 := get junk o48 in
   let o50 := from_bits Float8E4M3FNS 103 in
   let v51 := get junk o50 in
   let o52 := next_up Float8E4M3FNS v49 in
   let v53 := get (0, junk) o52 in
   let v54 := fst v53 in
   let v55 := snd v53 in
   let o56 := from_bits Float8E4M3FNS 103 in
   let v57 := get junk o56 in
   let o58 := from_bits Float8E4M3FNS 104 in
   let v59 := get junk o58 in
   let o60 := next_up Float8E4M3FNS v57 in
   let v61 := get (0, junk) o60 in
   let v62 := fst v61 in
   let v63 := snd v61 in
   all_true [
      returns o0;
      returns o2;
      returns o4;
      bitwise_eq v7 v3;
      v6 =? OK;
      returns o8;
      returns o10;
      returns o12;
      bitwise_eq v15 v11;
      v14 =? OK;
      returns o16;
      returns o18;
      returns o20;
      bitwise_eq v23 v19;
      v22 =? OK;
      returns o24;
      returns o26;
      returns o28;
      bitwise_eq v31 v27;
      v30 =? OK;
      returns o32;
      returns o34;
      returns o36;
      bitwise_eq v39 v35;
      v38 =? OK;
      returns o40;
      returns o42;
      returns o44;
      bitwise_eq v47 v43;
      v46 =? OK;
      returns o48;
      returns o50;
      returns o52;
      bitwise_eq v55 v51;
      v54 =? OK;
      returns o56;
      returns o58;
      returns o60;
      bitwise_eq v63 v59;
      v62 =? OK]) = true.
Proof. vm_compute. reflexivity. Qed.

Example test_float8e4m3fn_next_14 : (
   let o0 := from_bits Float8E4M3FNS 104 in
   let v1 := get junk o0 in
   let o2 := from_bits Float8E4M3FNS 105 in
   let v3 := get junk o2 in
   let o4 := next_up Float8E4M3FNS v1 in
   let v5 := get (0, junk) o4 in
   let v6 := fst v5 in
   let v7 := snd v5 in
   let o8 := from_bits Float8E4M3FNS 105 in
   let v9 := get junk o8 in
   let o10 := from_bits Float8E4M3FNS 106 in
   let v11 := get junk o10 in
   let o12 := next_up Float8E4M3FNS v9 in
   let v13 := get (0, junk) o12 in
   let v14 := fst v13 in
   let v15 := snd v13 in
   let o16 := from_bits Float8E4M3FNS 106 in
   let v17 := get junk o16 in
   let o18 := from_bits Float8E4M3FNS 107 in
   let v19 := get junk o18 in
   let o20 := next_up Float8E4M3FNS v17 in
   let v21 := get (0, junk) o20 in
   let v22 := fst v21 in
   let v23 := snd v21 in
   let o24 := from_bits Float8E4M3FNS 107 in
   let v25 := get junk o24 in
   let o26 := from_bits Float8E4M3FNS 108 in
   let v27 := get junk o26 in
   let o28 := next_up Float8E4M3FNS v25 in
   let v29 := get (0, junk) o28 in
   let v30 := fst v29 in
   let v31 := snd v29 in
   let o32 := from_bits Float8E4M3FNS 108 in
   let v33 := get junk o32 in
   let o34 := from_bits Float8E4M3FNS 109 in
   let v35 := get junk o34 in
   let o36 := next_up Float8E4M3FNS v33 in
   let v37 := get (0, junk) o36 in
   let v38 := fst v37 in
   let v39 := snd v37 in
   let o40 := from_bits Float8E4M3FNS 109 in
   let v41 := get junk o40 in
   let o42 := from_bits Float8E4M3FNS 110 in
   let v43 := get junk o42 in
   let o44 := next_up Float8E4M3FNS v41 in
   let v45 := get (0, junk) o44 in
   let v46 := fst v45 in
   let v47 := snd v45 in
   let o48 := from_bits Float8E4M3FNS 110 in
   let v49 := get junk o48 in
   let o50 := from_bits Float8E4M3FNS 111 in
   let v51 := get junk o50 in
   let o52 := next_up Float8E4M3FNS v49 in
   let v53 := get (0, junk) o52 in
   let v54 := fst v53 in
   let v55 := snd v53 in
   let o56 := from_bits Float8E4M3FNS 111 in
   let v57 := get junk o56 in
   let o58 := from_bits Float8E4M3FNS 112 in
   let v59 := get junk o58 in
   let o60 := next_up Float8E4M3FNS v57 in
   let v61 := get (0, junk) o60 in
   let v62 := fst v61 in
   let v63 := snd v61 in
   all_true [
      returns o0;
      returns o2;
      returns o4;
      bitwise_eq v7 v3;
      v6 =? OK;
      returns o8;
      returns o10;
      returns o12;
      bitwise_eq v15 v11;
      v14 =? OK;
      returns o16;
      returns o18;
      returns o20;
      bitwise_eq v23 v19;
      v22 =? OK;
      returns o24;
      returns o26;
      returns o28;
      bitwise_eq v31 v27;
      v30 =? OK;
      returns o32;
      returns o34;
      returns o36;
      bitwise_eq v39 v35;
      v38 =? OK;
      returns o40;
      returns o42;
      returns o44;
      bitwise_eq v47 v43;
      v46 =? OK;
      returns o48;
      returns o50;
      returns o52;
      bitwise_eq v55 v51;
      v54 =? OK;
      returns o56;
      returns o58;
      returns o60;
      bitwise_eq v63 v59;
      v62 =? OK]) = true.
Proof. vm_compute. reflexivity. Qed.

Example test_float8e4m3fn_next_15 : (
   let o0 := from_bits Float8E4M3FNS 112 in
   let v1 := get junk o0 in
   let o2 := from_bits Float8E4M3FNS 113 in
   let v3 := get junk o2 in
   let o4 := next_up Float8E4M3FNS v1 in
   let v5 := get (0, junk) o4 in
   let v6 := fst v5 in
   let v7 := snd v5 in
   let o8 := from_bits Float8E4M3FNS 113 in
   let v9 := get junk o8 in
   let o10 := from_bits Float8E4M3FNS 114 in
   let v11 := get junk o10 in
   let o12 := next_up Float8E4M3FNS v9 in
   let v13 := get (0, junk) o12 in
   let v14 := fst v13 in
   let v15 := snd v13 in
   let o16 := from_bits Float8E4M3FNS 114 in
   let v17 := get junk o16 in
   let o18 := from_bits Float8E4M3FNS 115 in
   let v19 := get junk o18 in
   let o20 := next_up Float8E4M3FNS v17 in
   let v21 := get (0, junk) o20 in
   let v22 := fst v21 in
   let v23 := snd v21 in
   let o24 := from_bits Float8E4M3FNS 115 in
   let v25 := get junk o24 in
   let o26 := from_bits Float8E4M3FNS 116 in
   let v27 := get junk o26 in
   let o28 := next_up Float8E4M3FNS v25 in
   let v29 := get (0, junk) o28 in
   let v30 := fst v29 in
   let v31 := snd v29 in
   let o32 := from_bits Float8E4M3FNS 116 in
   let v33 := get junk o32 in
   let o34 := from_bits Float8E4M3FNS 117 in
   let v35 := get junk o34 in
   let o36 := next_up Float8E4M3FNS v33 in
   let v37 := get (0, junk) o36 in
   let v38 := fst v37 in
   let v39 := snd v37 in
   let o40 := from_bits Float8E4M3FNS 117 in
   let v41 := get junk o40 in
   let o42 := from_bits Float8E4M3FNS 118 in
   let v43 := get junk o42 in
   let o44 := next_up Float8E4M3FNS v41 in
   let v45 := get (0, junk) o44 in
   let v46 := fst v45 in
   let v47 := snd v45 in
   let o48 := from_bits Float8E4M3FNS 118 in
   let v49 := get junk o48 in
   let o50 := from_bits Float8E4M3FNS 119 in
   let v51 := get junk o50 in
   let o52 := next_up Float8E4M3FNS v49 in
   let v53 := get (0, junk) o52 in
   let v54 := fst v53 in
   let v55 := snd v53 in
   let o56 := from_bits Float8E4M3FNS 119 in
   let v57 := get junk o56 in
   let o58 := from_bits Float8E4M3FNS 120 in
   let v59 := get junk o58 in
   let o60 := next_up Float8E4M3FNS v57 in
   let v61 := get (0, junk) o60 in
   let v62 := fst v61 in
   let v63 := snd v61 in
   all_true [
      returns o0;
      returns o2;
      returns o4;
      bitwise_eq v7 v3;
      v6 =? OK;
      returns o8;
      returns o10;
      returns o12;
      bitwise_eq v15 v11;
      v14 =? OK;
      returns o16;
      returns o18;
      returns o20;
      bitwise_eq v23 v19;
      v22 =? OK;
      returns o24;
      returns o26;
      returns o28;
      bitwise_eq v31 v27;
      v30 =? OK;
      returns o32;
      returns o34;
      returns o36;
      bitwise_eq v39 v35;
      v38 =? OK;
      returns o40;
      returns o42;
      returns o44;
      bitwise_eq v47 v43;
      v46 =? OK;
      returns o48;
      returns o50;
      returns o52;
      bitwise_eq v55 v51;
      v54 =? OK;
      returns o56;
      returns o58;
      returns o60;
      bitwise_eq v63 v59;
      v62 =? OK]) = true.
Proof. vm_compute. reflexivity. Qed.

Example test_float8e4m3fn_next_16 : (
   let o0 := from_bits Float8E4M3FNS 120 in
   let v1 := get junk o0 in
   let o2 := from_bits Float8E4M3FNS 121 in
   let v3 := get junk o2 in
   let o4 := next_up Float8E4M3FNS v1 in
   let v5 := get (0, junk) o4 in
   let v6 := fst v5 in
   let v7 := snd v5 in
   let o8 := from_bits Float8E4M3FNS 121 in
   let v9 := get junk o8 in
   let o10 := from_bits Float8E4M3FNS 122 in
   let v11 := get junk o10 in
   let o12 := next_up Float8E4M3FNS v9 in
   let v13 := get (0, junk) o12 in
   let v14 := fst v13 in
   let v15 := snd v13 in
   let o16 := from_bits Float8E4M3FNS 122 in
   let v17 := get junk o16 in
   let o18 := from_bits Float8E4M3FNS 123 in
   let v19 := get junk o18 in
   let o20 := next_up Float8E4M3FNS v17 in
   let v21 := get (0, junk) o20 in
   let v22 := fst v21 in
   let v23 := snd v21 in
   let o24 := from_bits Float8E4M3FNS 123 in
   let v25 := get junk o24 in
   let o26 := from_bits Float8E4M3FNS 124 in
   let v27 := get junk o26 in
   let o28 := next_up Float8E4M3FNS v25 in
   let v29 := get (0, junk) o28 in
   let v30 := fst v29 in
   let v31 := snd v29 in
   let o32 := from_bits Float8E4M3FNS 124 in
   let v33 := get junk o32 in
   let o34 := from_bits Float8E4M3FNS 125 in
   let v35 := get junk o34 in
   let o36 := next_up Float8E4M3FNS v33 in
   let v37 := get (0, junk) o36 in
   let v38 := fst v37 in
   let v39 := snd v37 in
   let o40 := from_bits Float8E4M3FNS 125 in
   let v41 := get junk o40 in
   let o42 := from_bits Float8E4M3FNS 126 in
   let v43 := get junk o42 in
   let o44 := next_up Float8E4M3FNS v41 in
   let v45 := get (0, junk) o44 in
   let v46 := fst v45 in
   let v47 := snd v45 in
   let o48 := from_bits Float8E4M3FNS 126 in
   let v49 := get junk o48 in
   let o50 := from_bits Float8E4M3FNS 127 in
   let v51 := get junk o50 in
   let o52 := next_up Float8E4M3FNS v49 in
   let v53 := get (0, junk) o52 in
   let v54 := fst v53 in
   let v55 := snd v53 in
   let v56 := neg (ZERO Float8E4M3FNS) in
   let v57 := SMALLEST Float8E4M3FNS in
   let o58 := next_up Float8E4M3FNS v56 in
   let v59 := get (0, junk) o58 in
   let v60 := fst v59 in
   let v61 := snd v59 in
   let o62 := from_bits Float8E4M3FNS 129 in
   let o63 := from_bits Float8E4M3FNS 128 in
   all_true [
      returns o0;
      returns o2;
      returns o4;
      bitwise_eq v7 v3;
      v6 =? OK;
      returns o8;
      returns o10;
      returns o12;
      bitwise_eq v15 v11;
      v14 =? OK;
      returns o16;
      returns o18;
      returns o20;
      bitwise_eq v23 v19;
      v22 =? OK;
      returns o24;
      returns o26;
      returns o28;
      bitwise_eq v31 v27;
      v30 =? OK;
      returns o32;
      returns o34;
      returns o36;
      bitwise_eq v39 v35;
      v38 =? OK;
      returns o40;
      returns o42;
      returns o44;
      bitwise_eq v47 v43;
      v46 =? OK;
      returns o48;
      returns o50;
      returns o52;
      bitwise_eq v55 v51;
      v54 =? OK;
      returns o58;
      bitwise_eq v61 v57;
      v60 =? OK;
      returns o62;
      returns o63]) = true.
Proof. vm_compute. reflexivity. Qed.

Example test_float8e4m3fn_next_17 : (
   let o0 := from_bits Float8E4M3FNS 129 in
   let v1 := get junk o0 in
   let o2 := from_bits Float8E4M3FNS 128 in
   let v3 := get junk o2 in
   let o4 := next_up Float8E4M3FNS v1 in
   let v5 := get (0, junk) o4 in
   let v6 := fst v5 in
   let v7 := snd v5 in
   let o8 := from_bits Float8E4M3FNS 130 in
   let v9 := get junk o8 in
   let o10 := from_bits Float8E4M3FNS 129 in
   let v11 := get junk o10 in
   let o12 := next_up Float8E4M3FNS v9 in
   let v13 := get (0, junk) o12 in
   let v14 := fst v13 in
   let v15 := snd v13 in
   let o16 := from_bits Float8E4M3FNS 131 in
   let v17 := get junk o16 in
   let o18 := from_bits Float8E4M3FNS 130 in
   let v19 := get junk o18 in
   let o20 := next_up Float8E4M3FNS v17 in
   let v21 := get (0, junk) o20 in
   let v22 := fst v21 in
   let v23 := snd v21 in
   let o24 := from_bits Float8E4M3FNS 132 in
   let v25 := get junk o24 in
   let o26 := from_bits Float8E4M3FNS 131 in
   let v27 := get junk o26 in
   let o28 := next_up Float8E4M3FNS v25 in
   let v29 := get (0, junk) o28 in
   let v30 := fst v29 in
   let v31 := snd v29 in
   let o32 := from_bits Float8E4M3FNS 133 in
   let v33 := get junk o32 in
   let o34 := from_bits Float8E4M3FNS 132 in
   let v35 := get junk o34 in
   let o36 := next_up Float8E4M3FNS v33 in
   let v37 := get (0, junk) o36 in
   let v38 := fst v37 in
   let v39 := snd v37 in
   let o40 := from_bits Float8E4M3FNS 134 in
   let v41 := get junk o40 in
   let o42 := from_bits Float8E4M3FNS 133 in
   let v43 := get junk o42 in
   let o44 := next_up Float8E4M3FNS v41 in
   let v45 := get (0, junk) o44 in
   let v46 := fst v45 in
   let v47 := snd v45 in
   let o48 := from_bits Float8E4M3FNS 135 in
   let v49 := get junk o48 in
   let o50 := from_bits Float8E4M3FNS 134 in
   let v51 := get junk o50 in
   let o52 := next_up Float8E4M3FNS v49 in
   let v53 := get (0, junk) o52 in
   let v54 := fst v53 in
   let v55 := snd v53 in
   let o56 := from_bits Float8E4M3FNS 136 in
   let v57 := get junk o56 in
   let o58 := from_bits Float8E4M3FNS 135 in
   let v59 := get junk o58 in
   let o60 := next_up Float8E4M3FNS v57 in
   let v61 := get (0, junk) o60 in
   let v62 := fst v61 in
   let v63 := snd v61 in
   let o64 := from_bits Float8E4M3FNS 137 in
   let o65 := from_bits Float8E4M3FNS 136 in
   all_true [
      returns o4;
      bitwise_eq v7 v3;
      v6 =? OK;
      returns o8;
      returns o10;
      returns o12;
      bitwise_eq v15 v11;
      v14 =? OK;
      returns o16;
      returns o18;
      returns o20;
      bitwise_eq v23 v19;
      v22 =? OK;
      returns o24;
      returns o26;
      returns o28;
      bitwise_eq v31 v27;
      v30 =? OK;
      returns o32;
      returns o34;
      returns o36;
      bitwise_eq v39 v35;
      v38 =? OK;
      returns o40;
      returns o42;
      returns o44;
      bitwise_eq v47 v43;
      v46 =? OK;
      returns o48;
      returns o50;
      returns o52;
      bitwise_eq v55 v51;
      v54 =? OK;
      returns o56;
      returns o58;
      returns o60;
      bitwise_eq v63 v59;
      v62 =? OK;
      returns o64;
      returns o65]) = true.
Proof. vm_compute. reflexivity. Qed.

Example test_float8e4m3fn_next_18 : (
   let o0 := from_bits Float8E4M3FNS 137 in
   let v1 := get junk o0 in
   let o2 := from_bits Float8E4M3FNS 136 in
   let v3 := get junk o2 in
   let o4 := next_up Float8E4M3FNS v1 in
   let v5 := get (0, junk) o4 in
   let v6 := fst v5 in
   let v7 := snd v5 in
   let o8 := from_bits Float8E4M3FNS 138 in
   let v9 := get junk o8 in
   let o10 := from_bits Float8E4M3FNS 137 in
   let v11 := get junk o10 in
   let o12 := next_up Float8E4M3FNS v9 in
   let v13 := get (0, junk) o12 in
   let v14 := fst v13 in
   let v15 := snd v13 in
   let o16 := from_bits Float8E4M3FNS 139 in
   let v17 := get junk o16 in
   let o18 := from_bits Float8E4M3FNS 138 in
   let v19 := get junk o18 in
   let o20 := next_up Float8E4M3FNS v17 in
   let v21 := get (0, junk) o20 in
   let v22 := fst v21 in
   let v23 := snd v21 in
   let o24 := from_bits Float8E4M3FNS 140 in
   let v25 := get junk o24 in
   let o26 := from_bits Float8E4M3FNS 139 in
   let v27 := get junk o26 in
   let o28 := next_up Float8E4M3FNS v25 in
   let v29 := get (0, junk) o28 in
   let v30 := fst v29 in
   let v31 := snd v29 in
   let o32 := from_bits Float8E4M3FNS 141 in
   let v33 := get junk o32 in
   let o34 := from_bits Float8E4M3FNS 140 in
   let v35 := get junk o34 in
   let o36 := next_up Float8E4M3FNS v33 in
   let v37 := get (0, junk) o36 in
   let v38 := fst v37 in
   let v39 := snd v37 in
   let o40 := from_bits Float8E4M3FNS 142 in
   let v41 := get junk o40 in
   let o42 := from_bits Float8E4M3FNS 141 in
   let v43 := get junk o42 in
   let o44 := next_up Float8E4M3FNS v41 in
   let v45 := get (0, junk) o44 in
   let v46 := fst v45 in
   let v47 := snd v45 in
   let o48 := from_bits Float8E4M3FNS 143 in
   let v49 := get junk o48 in
   let o50 := from_bits Float8E4M3FNS 142 in
   let v51 := get junk o50 in
   let o52 := next_up Float8E4M3FNS v49 in
   let v53 := get (0, junk) o52 in
   let v54 := fst v53 in
   let v55 := snd v53 in
   let o56 := from_bits Float8E4M3FNS 144 in
   let v57 := get junk o56 in
   let o58 := from_bits Float8E4M3FNS 143 in
   let v59 := get junk o58 in
   let o60 := next_up Float8E4M3FNS v57 in
   let v61 := get (0, junk) o60 in
   let v62 := fst v61 in
   let v63 := snd v61 in
   let o64 := from_bits Float8E4M3FNS 145 in
   let o65 := from_bits Float8E4M3FNS 144 in
   all_true [
      returns o4;
      bitwise_eq v7 v3;
      v6 =? OK;
      returns o8;
      returns o10;
      returns o12;
      bitwise_eq v15 v11;
      v14 =? OK;
      returns o16;
      returns o18;
      returns o20;
      bitwise_eq v23 v19;
      v22 =? OK;
      returns o24;
      returns o26;
      returns o28;
      bitwise_eq v31 v27;
      v30 =? OK;
      returns o32;
      returns o34;
      returns o36;
      bitwise_eq v39 v35;
      v38 =? OK;
      returns o40;
      returns o42;
      returns o44;
      bitwise_eq v47 v43;
      v46 =? OK;
      returns o48;
      returns o50;
      returns o52;
      bitwise_eq v55 v51;
      v54 =? OK;
      returns o56;
      returns o58;
      returns o60;
      bitwise_eq v63 v59;
      v62 =? OK;
      returns o64;
      returns o65]) = true.
Proof. vm_compute. reflexivity. Qed.

Example test_float8e4m3fn_next_19 : (
   let o0 := from_bits Float8E4M3FNS 145 in
   let v1 := get junk o0 in
   let o2 := from_bits Float8E4M3FNS 144 in
   let v3 := get junk o2 in
   let o4 := next_up Float8E4M3FNS v1 in
   let v5 := get (0, junk) o4 in
   let v6 := fst v5 in
   let v7 := snd v5 in
   let o8 := from_bits Float8E4M3FNS 146 in
   let v9 := get junk o8 in
   let o10 := from_bits Float8E4M3FNS 145 in
   let v11 := get junk o10 in
   let o12 := next_up Float8E4M3FNS v9 in
   let v13 := get (0, junk) o12 in
   let v14 := fst v13 in
   let v15 := snd v13 in
   let o16 := from_bits Float8E4M3FNS 147 in
   let v17 := get junk o16 in
   let o18 := from_bits Float8E4M3FNS 146 in
   let v19 := get junk o18 in
   let o20 := next_up Float8E4M3FNS v17 in
   let v21 := get (0, junk) o20 in
   let v22 := fst v21 in
   let v23 := snd v21 in
   let o24 := from_bits Float8E4M3FNS 148 in
   let v25 := get junk o24 in
   let o26 := from_bits Float8E4M3FNS 147 in
   let v27 := get junk o26 in
   let o28 := next_up Float8E4M3FNS v25 in
   let v29 := get (0, junk) o28 in
   let v30 := fst v29 in
   let v31 := snd v29 in
   let o32 := from_bits Float8E4M3FNS 149 in
   let v33 := get junk o32 in
   let o34 := from_bits Float8E4M3FNS 148 in
   let v35 := get junk o34 in
   let o36 := next_up Float8E4M3FNS v33 in
   let v37 := get (0, junk) o36 in
   let v38 := fst v37 in
   let v39 := snd v37 in
   let o40 := from_bits Float8E4M3FNS 150 in
   let v41 := get junk o40 in
   let o42 := from_bits Float8E4M3FNS 149 in
   let v43 := get junk o42 in
   let o44 := next_up Float8E4M3FNS v41 in
   let v45 := get (0, junk) o44 in
   let v46 := fst v45 in
   let v47 := snd v45 in
   let o48 := from_bits Float8E4M3FNS 151 in
   let v49 := get junk o48 in
   let o50 := from_bits Float8E4M3FNS 150 in
   let v51 := get junk o50 in
   let o52 := next_up Float8E4M3FNS v49 in
   let v53 := get (0, junk) o52 in
   let v54 := fst v53 in
   let v55 := snd v53 in
   let o56 := from_bits Float8E4M3FNS 152 in
   let v57 := get junk o56 in
   let o58 := from_bits Float8E4M3FNS 151 in
   let v59 := get junk o58 in
   let o60 := next_up Float8E4M3FNS v57 in
   let v61 := get (0, junk) o60 in
   let v62 := fst v61 in
   let v63 := snd v61 in
   let o64 := from_bits Float8E4M3FNS 153 in
   let o65 := from_bits Float8E4M3FNS 152 in
   all_true [
      returns o4;
      bitwise_eq v7 v3;
      v6 =? OK;
      returns o8;
      returns o10;
      returns o12;
      bitwise_eq v15 v11;
      v14 =? OK;
      returns o16;
      returns o18;
      returns o20;
      bitwise_eq v23 v19;
      v22 =? OK;
      returns o24;
      returns o26;
      returns o28;
      bitwise_eq v31 v27;
      v30 =? OK;
      returns o32;
      returns o34;
      returns o36;
      bitwise_eq v39 v35;
      v38 =? OK;
      returns o40;
      returns o42;
      returns o44;
      bitwise_eq v47 v43;
      v46 =? OK;
      returns o48;
      returns o50;
      returns o52;
      bitwise_eq v55 v51;
      v54 =? OK;
      returns o56;
      returns o58;
      returns o60;
      bitwise_eq v63 v59;
      v62 =? OK;
      returns o64;
      returns o65]) = true.
Proof. vm_compute. reflexivity. Qed.

Example test_float8e4m3fn_next_20 : (
   let o0 := from_bits Float8E4M3FNS 153 in
   let v1 := get junk o0 in
   let o2 := from_bits Float8E4M3FNS 152 in
   let v3 := get junk o2 in
   let o4 := next_up Float8E4M3FNS v1 in
   let v5 := get (0, junk) o4 in
   let v6 := fst v5 in
   let v7 := snd v5 in
   let o8 := from_bits Float8E4M3FNS 154 in
   let v9 := get junk o8 in
   let o10 := from_bits Float8E4M3FNS 153 in
   let v11 := get junk o10 in
   let o12 := next_up Float8E4M3FNS v9 in
   let v13 := get (0, junk) o12 in
   let v14 := fst v13 in
   let v15 := snd v13 in
   let o16 := from_bits Float8E4M3FNS 155 in
   let v17 := get junk o16 in
   let o18 := from_bits Float8E4M3FNS 154 in
   let v19 := get junk o18 in
   let o20 := next_up Float8E4M3FNS v17 in
   let v21 := get (0, junk) o20 in
   let v22 := fst v21 in
   let v23 := snd v21 in
   let o24 := from_bits Float8E4M3FNS 156 in
   let v25 := get junk o24 in
   let o26 := from_bits Float8E4M3FNS 155 in
   let v27 := get junk o26 in
   let o28 := next_up Float8E4M3FNS v25 in
   let v29 := get (0, junk) o28 in
   let v30 := fst v29 in
   let v31 := snd v29 in
   let o32 := from_bits Float8E4M3FNS 157 in
   let v33 := get junk o32 in
   let o34 := from_bits Float8E4M3FNS 156 in
   let v35 := get junk o34 in
   let o36 := next_up Float8E4M3FNS v33 in
   let v37 := get (0, junk) o36 in
   let v38 := fst v37 in
   let v39 := snd v37 in
   let o40 := from_bits Float8E4M3FNS 158 in
   let v41 := get junk o40 in
   let o42 := from_bits Float8E4M3FNS 157 in
   let v43 := get junk o42 in
   let o44 := next_up Float8E4M3FNS v41 in
   let v45 := get (0, junk) o44 in
   let v46 := fst v45 in
   let v47 := snd v45 in
   let o48 := from_bits Float8E4M3FNS 159 in
   let v49 := get junk o48 in
   let o50 := from_bits Float8E4M3FNS 158 in
   let v51 := get junk o50 in
   let o52 := next_up Float8E4M3FNS v49 in
   let v53 := get (0, junk) o52 in
   let v54 := fst v53 in
   let v55 := snd v53 in
   let o56 := from_bits Float8E4M3FNS 160 in
   let v57 := get junk o56 in
   let o58 := from_bits Float8E4M3FNS 159 in
   let v59 := get junk o58 in
   let o60 := next_up Float8E4M3FNS v57 in
   let v61 := get (0, junk) o60 in
   let v62 := fst v61 in
   let v63 := snd v61 in
   let o64 := from_bits Float8E4M3FNS 161 in
   let o65 := from_bits Float8E4M3FNS 160 in
   all_true [
      returns o4;
      bitwise_eq v7 v3;
      v6 =? OK;
      returns o8;
      returns o10;
      returns o12;
      bitwise_eq v15 v11;
      v14 =? OK;
      returns o16;
      returns o18;
      returns o20;
      bitwise_eq v23 v19;
      v22 =? OK;
      returns o24;
      returns o26;
      returns o28;
      bitwise_eq v31 v27;
      v30 =? OK;
      returns o32;
      returns o34;
      returns o36;
      bitwise_eq v39 v35;
      v38 =? OK;
      returns o40;
      returns o42;
      returns o44;
      bitwise_eq v47 v43;
      v46 =? OK;
      returns o48;
      returns o50;
      returns o52;
      bitwise_eq v55 v51;
      v54 =? OK;
      returns o56;
      returns o58;
      returns o60;
      bitwise_eq v63 v59;
      v62 =? OK;
      returns o64;
      returns o65]) = true.
Proof. vm_compute. reflexivity. Qed.

Example test_float8e4m3fn_next_21 : (
   let o0 := from_bits Float8E4M3FNS 161 in
   let v1 := get junk o0 in
   let o2 := from_bits Float8E4M3FNS 160 in
   let v3 := get junk o2 in
   let o4 := next_up Float8E4M3FNS v1 in
   let v5 := get (0, junk) o4 in
   let v6 := fst v5 in
   let v7 := snd v5 in
   let o8 := from_bits Float8E4M3FNS 162 in
   let v9 := get junk o8 in
   let o10 := from_bits Float8E4M3FNS 161 in
   let v11 := get junk o10 in
   let o12 := next_up Float8E4M3FNS v9 in
   let v13 := get (0, junk) o12 in
   let v14 := fst v13 in
   let v15 := snd v13 in
   let o16 := from_bits Float8E4M3FNS 163 in
   let v17 := get junk o16 in
   let o18 := from_bits Float8E4M3FNS 162 in
   let v19 := get junk o18 in
   let o20 := next_up Float8E4M3FNS v17 in
   let v21 := get (0, junk) o20 in
   let v22 := fst v21 in
   let v23 := snd v21 in
   let o24 := from_bits Float8E4M3FNS 164 in
   let v25 := get junk o24 in
   let o26 := from_bits Float8E4M3FNS 163 in
   let v27 := get junk o26 in
   let o28 := next_up Float8E4M3FNS v25 in
   let v29 := get (0, junk) o28 in
   let v30 := fst v29 in
   let v31 := snd v29 in
   let o32 := from_bits Float8E4M3FNS 165 in
   let v33 := get junk o32 in
   let o34 := from_bits Float8E4M3FNS 164 in
   let v35 := get junk o34 in
   let o36 := next_up Float8E4M3FNS v33 in
   let v37 := get (0, junk) o36 in
   let v38 := fst v37 in
   let v39 := snd v37 in
   let o40 := from_bits Float8E4M3FNS 166 in
   let v41 := get junk o40 in
   let o42 := from_bits Float8E4M3FNS 165 in
   let v43 := get junk o42 in
   let o44 := next_up Float8E4M3FNS v41 in
   let v45 := get (0, junk) o44 in
   let v46 := fst v45 in
   let v47 := snd v45 in
   let o48 := from_bits Float8E4M3FNS 167 in
   let v49 := get junk o48 in
   let o50 := from_bits Float8E4M3FNS 166 in
   let v51 := get junk o50 in
   let o52 := next_up Float8E4M3FNS v49 in
   let v53 := get (0, junk) o52 in
   let v54 := fst v53 in
   let v55 := snd v53 in
   let o56 := from_bits Float8E4M3FNS 168 in
   let v57 := get junk o56 in
   let o58 := from_bits Float8E4M3FNS 167 in
   let v59 := get junk o58 in
   let o60 := next_up Float8E4M3FNS v57 in
   let v61 := get (0, junk) o60 in
   let v62 := fst v61 in
   let v63 := snd v61 in
   let o64 := from_bits Float8E4M3FNS 169 in
   let o65 := from_bits Float8E4M3FNS 168 in
   all_true [
      returns o4;
      bitwise_eq v7 v3;
      v6 =? OK;
      returns o8;
      returns o10;
      returns o12;
      bitwise_eq v15 v11;
      v14 =? OK;
      returns o16;
      returns o18;
      returns o20;
      bitwise_eq v23 v19;
      v22 =? OK;
      returns o24;
      returns o26;
      returns o28;
      bitwise_eq v31 v27;
      v30 =? OK;
      returns o32;
      returns o34;
      returns o36;
      bitwise_eq v39 v35;
      v38 =? OK;
      returns o40;
      returns o42;
      returns o44;
      bitwise_eq v47 v43;
      v46 =? OK;
      returns o48;
      returns o50;
      returns o52;
      bitwise_eq v55 v51;
      v54 =? OK;
      returns o56;
      returns o58;
      returns o60;
      bitwise_eq v63 v59;
      v62 =? OK;
      returns o64;
      returns o65]) = true.
Proof. vm_compute. reflexivity. Qed.

Example test_float8e4m3fn_next_22 : (
   let o0 := from_bits Float8E4M3FNS 169 in
   let v1 := get junk o0 in
   let o2 := from_bits Float8E4M3FNS 168 in
   let v3 := get junk o2 in
   let o4 := next_up Float8E4M3FNS v1 in
   let v5 := get (0, junk) o4 in
   let v6 := fst v5 in
   let v7 := snd v5 in
   let o8 := from_bits Float8E4M3FNS 170 in
   let v9 := get junk o8 in
   let o10 := from_bits Float8E4M3FNS 169 in
   let v11 := get junk o10 in
   let o12 := next_up Float8E4M3FNS v9 in
   let v13 := get (0, junk) o12 in
   let v14 := fst v13 in
   let v15 := snd v13 in
   let o16 := from_bits Float8E4M3FNS 171 in
   let v17 := get junk o16 in
   let o18 := from_bits Float8E4M3FNS 170 in
   let v19 := get junk o18 in
   let o20 := next_up Float8E4M3FNS v17 in
   let v21 := get (0, junk) o20 in
   let v22 := fst v21 in
   let v23 := snd v21 in
   let o24 := from_bits Float8E4M3FNS 172 in
   let v25 := get junk o24 in
   let o26 := from_bits Float8E4M3FNS 171 in
   let v27 := get junk o26 in
   let o28 := next_up Float8E4M3FNS v25 in
   let v29 := get (0, junk) o28 in
   let v30 := fst v29 in
   let v31 := snd v29 in
   let o32 := from_bits Float8E4M3FNS 173 in
   let v33 := get junk o32 in
   let o34 := from_bits Float8E4M3FNS 172 in
   let v35 := get junk o34 in
   let o36 := next_up Float8E4M3FNS v33 in
   let v37 := get (0, junk) o36 in
   let v38 := fst v37 in
   let v39 := snd v37 in
   let o40 := from_bits Float8E4M3FNS 174 in
   let v41 := get junk o40 in
   let o42 := from_bits Float8E4M3FNS 173 in
   let v43 := get junk o42 in
   let o44 := next_up Float8E4M3FNS v41 in
   let v45 := get (0, junk) o44 in
   let v46 := fst v45 in
   let v47 := snd v45 in
   let o48 := from_bits Float8E4M3FNS 175 in
   let v49 := get junk o48 in
   let o50 := from_bits Float8E4M3FNS 174 in
   let v51 := get junk o50 in
   let o52 := next_up Float8E4M3FNS v49 in
   let v53 := get (0, junk) o52 in
   let v54 := fst v53 in
   let v55 := snd v53 in
   let o56 := from_bits Float8E4M3FNS 176 in
   let v57 := get junk o56 in
   let o58 := from_bits Float8E4M3FNS 175 in
   let v59 := get junk o58 in
   let o60 := next_up Float8E4M3FNS v57 in
   let v61 := get (0, junk) o60 in
   let v62 := fst v61 in
   let v63 := snd v61 in
   let o64 := from_bits Float8E4M3FNS 177 in
   let o65 := from_bits Float8E4M3FNS 176 in
   all_true [
      returns o4;
      bitwise_eq v7 v3;
      v6 =? OK;
      returns o8;
      returns o10;
      returns o12;
      bitwise_eq v15 v11;
      v14 =? OK;
      returns o16;
      returns o18;
      returns o20;
      bitwise_eq v23 v19;
      v22 =? OK;
      returns o24;
      returns o26;
      returns o28;
      bitwise_eq v31 v27;
      v30 =? OK;
      returns o32;
      returns o34;
      returns o36;
      bitwise_eq v39 v35;
      v38 =? OK;
      returns o40;
      returns o42;
      returns o44;
      bitwise_eq v47 v43;
      v46 =? OK;
      returns o48;
      returns o50;
      returns o52;
      bitwise_eq v55 v51;
      v54 =? OK;
      returns o56;
      returns o58;
      returns o60;
      bitwise_eq v63 v59;
      v62 =? OK;
      returns o64;
      returns o65]) = true.
Proof. vm_compute. reflexivity. Qed.

Example test_float8e4m3fn_next_23 : (
   let o0 := from_bits Float8E4M3FNS 177 in
   let v1 := get junk o0 in
   let o2 := from_bits Float8E4M3FNS 176 in
   let v3 := get junk o2 in
   let o4 := next_up Float8E4M3FNS v1 in
   let v5 := get (0, junk) o4 in
   let v6 := fst v5 in
   let v7 := snd v5 in
   let o8 := from_bits Float8E4M3FNS 178 in
   let v9 := get junk o8 in
   let o10 := from_bits Float8E4M3FNS 177 in
   let v11 := get junk o10 in
   let o12 := next_up Float8E4M3FNS v9 in
   let v13 := get (0, junk) o12 in
   let v14 := fst v13 in
   let v15 := snd v13 in
   let o16 := from_bits Float8E4M3FNS 179 in
   let v17 := get junk o16 in
   let o18 := from_bits Float8E4M3FNS 178 in
   let v19 := get junk o18 in
   let o20 := next_up Float8E4M3FNS v17 in
   let v21 := get (0, junk) o20 in
   let v22 := fst v21 in
   let v23 := snd v21 in
   let o24 := from_bits Float8E4M3FNS 180 in
   let v25 := get junk o24 in
   let o26 := from_bits Float8E4M3FNS 179 in
   let v27 := get junk o26 in
   let o28 := next_up Float8E4M3FNS v25 in
   let v29 := get (0, junk) o28 in
   let v30 := fst v29 in
   let v31 := snd v29 in
   let o32 := from_bits Float8E4M3FNS 181 in
   let v33 := get junk o32 in
   let o34 := from_bits Float8E4M3FNS 180 in
   let v35 := get junk o34 in
   let o36 := next_up Float8E4M3FNS v33 in
   let v37 := get (0, junk) o36 in
   let v38 := fst v37 in
   let v39 := snd v37 in
   let o40 := from_bits Float8E4M3FNS 182 in
   let v41 := get junk o40 in
   let o42 := from_bits Float8E4M3FNS 181 in
   let v43 := get junk o42 in
   let o44 := next_up Float8E4M3FNS v41 in
   let v45 := get (0, junk) o44 in
   let v46 := fst v45 in
   let v47 := snd v45 in
   let o48 := from_bits Float8E4M3FNS 183 in
   let v49 := get junk o48 in
   let o50 := from_bits Float8E4M3FNS 182 in
   let v51 := get junk o50 in
   let o52 := next_up Float8E4M3FNS v49 in
   let v53 := get (0, junk) o52 in
   let v54 := fst v53 in
   let v55 := snd v53 in
   let o56 := from_bits Float8E4M3FNS 184 in
   let v57 := get junk o56 in
   let o58 := from_bits Float8E4M3FNS 183 in
   let v59 := get junk o58 in
   let o60 := next_up Float8E4M3FNS v57 in
   let v61 := get (0, junk) o60 in
   let v62 := fst v61 in
   let v63 := snd v61 in
   let o64 := from_bits Float8E4M3FNS 185 in
   let o65 := from_bits Float8E4M3FNS 184 in
   all_true [
      returns o4;
      bitwise_eq v7 v3;
      v6 =? OK;
      returns o8;
      returns o10;
      returns o12;
      bitwise_eq v15 v11;
      v14 =? OK;
      returns o16;
      returns o18;
      returns o20;
      bitwise_eq v23 v19;
      v22 =? OK;
      returns o24;
      returns o26;
      returns o28;
      bitwise_eq v31 v27;
      v30 =? OK;
      returns o32;
      returns o34;
      returns o36;
      bitwise_eq v39 v35;
      v38 =? OK;
      returns o40;
      returns o42;
      returns o44;
      bitwise_eq v47 v43;
      v46 =? OK;
      returns o48;
      returns o50;
      returns o52;
      bitwise_eq v55 v51;
      v54 =? OK;
      returns o56;
      returns o58;
      returns o60;
      bitwise_eq v63 v59;
      v62 =? OK;
      returns o64;
      returns o65]) = true.
Proof. vm_compute. reflexivity. Qed.

Example test_float8e4m3fn_next_24 : (
   let o0 := from_bits Float8E4M3FNS 185 in
   let v1 := get junk o0 in
   let o2 := from_bits Float8E4M3FNS 184 in
   let v3 := get junk o2 in
   let o4 := next_up Float8E4M3FNS v1 in
   let v5 := get (0, junk) o4 in
   let v6 := fst v5 in
   let v7 := snd v5 in
   let o8 := from_bits Float8E4M3FNS 186 in
   let v9 := get junk o8 in
   let o10 := from_bits Float8E4M3FNS 185 in
   let v11 := get junk o10 in
   let o12 := next_up Float8E4M3FNS v9 in
   let v13 := get (0, junk) o12 in
   let v14 := fst v13 in
   let v15 := snd v13 in
   let o16 := from_bits Float8E4M3FNS 187 in
   let v17 := get junk o16 in
   let o18 := from_bits Float8E4M3FNS 186 in
   let v19 := get junk o18 in
   let o20 := next_up Float8E4M3FNS v17 in
   let v21 := get (0, junk) o20 in
   let v22 := fst v21 in
   let v23 := snd v21 in
   let o24 := from_bits Float8E4M3FNS 188 in
   let v25 := get junk o24 in
   let o26 := from_bits Float8E4M3FNS 187 in
   let v27 := get junk o26 in
   let o28 := next_up Float8E4M3FNS v25 in
   let v29 := get (0, junk) o28 in
   let v30 := fst v29 in
   let v31 := snd v29 in
   let o32 := from_bits Float8E4M3FNS 189 in
   let v33 := get junk o32 in
   let o34 := from_bits Float8E4M3FNS 188 in
   let v35 := get junk o34 in
   let o36 := next_up Float8E4M3FNS v33 in
   let v37 := get (0, junk) o36 in
   let v38 := fst v37 in
   let v39 := snd v37 in
   let o40 := from_bits Float8E4M3FNS 190 in
   let v41 := get junk o40 in
   let o42 := from_bits Float8E4M3FNS 189 in
   let v43 := get junk o42 in
   let o44 := next_up Float8E4M3FNS v41 in
   let v45 := get (0, junk) o44 in
   let v46 := fst v45 in
   let v47 := snd v45 in
   let o48 := from_bits Float8E4M3FNS 191 in
   let v49 := get junk o48 in
   let o50 := from_bits Float8E4M3FNS 190 in
   let v51 := get junk o50 in
   let o52 := next_up Float8E4M3FNS v49 in
   let v53 := get (0, junk) o52 in
   let v54 := fst v53 in
   let v55 := snd v53 in
   let o56 := from_bits Float8E4M3FNS 192 in
   let v57 := get junk o56 in
   let o58 := from_bits Float8E4M3FNS 191 in
   let v59 := get junk o58 in
   let o60 := next_up Float8E4M3FNS v57 in
   let v61 := get (0, junk) o60 in
   let v62 := fst v61 in
   let v63 := snd v61 in
   let o64 := from_bits Float8E4M3FNS 193 in
   let o65 := from_bits Float8E4M3FNS 192 in
   all_true [
      returns o4;
      bitwise_eq v7 v3;
      v6 =? OK;
      returns o8;
      returns o10;
      returns o12;
      bitwise_eq v15 v11;
      v14 =? OK;
      returns o16;
      returns o18;
      returns o20;
      bitwise_eq v23 v19;
      v22 =? OK;
      returns o24;
      returns o26;
      returns o28;
      bitwise_eq v31 v27;
      v30 =? OK;
      returns o32;
      returns o34;
      returns o36;
      bitwise_eq v39 v35;
      v38 =? OK;
      returns o40;
      returns o42;
      returns o44;
      bitwise_eq v47 v43;
      v46 =? OK;
      returns o48;
      returns o50;
      returns o52;
      bitwise_eq v55 v51;
      v54 =? OK;
      returns o56;
      returns o58;
      returns o60;
      bitwise_eq v63 v59;
      v62 =? OK;
      returns o64;
      returns o65]) = true.
Proof. vm_compute. reflexivity. Qed.

Example test_float8e4m3fn_next_25 : (
   let o0 := from_bits Float8E4M3FNS 193 in
   let v1 := get junk o0 in
   let o2 := from_bits Float8E4M3FNS 192 in
   let v3 := get junk o2 in
   let o4 := next_up Float8E4M3FNS v1 in
   let v5 := get (0, junk) o4 in
   let v6 := fst v5 in
   let v7 := snd v5 in
   let o8 := from_bits Float8E4M3FNS 194 in
   let v9 := get junk o8 in
   let o10 := from_bits Float8E4M3FNS 193 in
   let v11 := get junk o10 in
   let o12 := next_up Float8E4M3FNS v9 in
   let v13 := get (0, junk) o12 in
   let v14 := fst v13 in
   let v15 := snd v13 in
   let o16 := from_bits Float8E4M3FNS 195 in
   let v17 := get junk o16 in
   let o18 := from_bits Float8E4M3FNS 194 in
   let v19 := get junk o18 in
   let o20 := next_up Float8E4M3FNS v17 in
   let v21 := get (0, junk) o20 in
   let v22 := fst v21 in
   let v23 := snd v21 in
   let o24 := from_bits Float8E4M3FNS 196 in
   let v25 := get junk o24 in
   let o26 := from_bits Float8E4M3FNS 195 in
   let v27 := get junk o26 in
   let o28 := next_up Float8E4M3FNS v25 in
   let v29 := get (0, junk) o28 in
   let v30 := fst v29 in
   let v31 := snd v29 in
   let o32 := from_bits Float8E4M3FNS 197 in
   let v33 := get junk o32 in
   let o34 := from_bits Float8E4M3FNS 196 in
   let v35 := get junk o34 in
   let o36 := next_up Float8E4M3FNS v33 in
   let v37 := get (0, junk) o36 in
   let v38 := fst v37 in
   let v39 := snd v37 in
   let o40 := from_bits Float8E4M3FNS 198 in
   let v41 := get junk o40 in
   let o42 := from_bits Float8E4M3FNS 197 in
   let v43 := get junk o42 in
   let o44 := next_up Float8E4M3FNS v41 in
   let v45 := get (0, junk) o44 in
   let v46 := fst v45 in
   let v47 := snd v45 in
   let o48 := from_bits Float8E4M3FNS 199 in
   let v49 := get junk o48 in
   let o50 := from_bits Float8E4M3FNS 198 in
   let v51 := get junk o50 in
   let o52 := next_up Float8E4M3FNS v49 in
   let v53 := get (0, junk) o52 in
   let v54 := fst v53 in
   let v55 := snd v53 in
   let o56 := from_bits Float8E4M3FNS 200 in
   let v57 := get junk o56 in
   let o58 := from_bits Float8E4M3FNS 199 in
   let v59 := get junk o58 in
   let o60 := next_up Float8E4M3FNS v57 in
   let v61 := get (0, junk) o60 in
   let v62 := fst v61 in
   let v63 := snd v61 in
   let o64 := from_bits Float8E4M3FNS 201 in
   let o65 := from_bits Float8E4M3FNS 200 in
   all_true [
      returns o4;
      bitwise_eq v7 v3;
      v6 =? OK;
      returns o8;
      returns o10;
      returns o12;
      bitwise_eq v15 v11;
      v14 =? OK;
      returns o16;
      returns o18;
      returns o20;
      bitwise_eq v23 v19;
      v22 =? OK;
      returns o24;
      returns o26;
      returns o28;
      bitwise_eq v31 v27;
      v30 =? OK;
      returns o32;
      returns o34;
      returns o36;
      bitwise_eq v39 v35;
      v38 =? OK;
      returns o40;
      returns o42;
      returns o44;
      bitwise_eq v47 v43;
      v46 =? OK;
      returns o48;
      returns o50;
      returns o52;
      bitwise_eq v55 v51;
      v54 =? OK;
      returns o56;
      returns o58;
      returns o60;
      bitwise_eq v63 v59;
      v62 =? OK;
      returns o64;
      returns o65]) = true.
Proof. vm_compute. reflexivity. Qed.

Example test_float8e4m3fn_next_26 : (
   let o0 := from_bits Float8E4M3FNS 201 in
   let v1 := get junk o0 in
   let o2 := from_bits Float8E4M3FNS 200 in
   let v3 := get junk o2 in
   let o4 := next_up Float8E4M3FNS v1 in
   let v5 := get (0, junk) o4 in
   let v6 := fst v5 in
   let v7 := snd v5 in
   let o8 := from_bits Float8E4M3FNS 202 in
   let v9 := get junk o8 in
   let o10 := from_bits Float8E4M3FNS 201 in
   let v11 := get junk o10 in
   let o12 := next_up Float8E4M3FNS v9 in
   let v13 := get (0, junk) o12 in
   let v14 := fst v13 in
   let v15 := snd v13 in
   let o16 := from_bits Float8E4M3FNS 203 in
   let v17 := get junk o16 in
   let o18 := from_bits Float8E4M3FNS 202 in
   let v19 := get junk o18 in
   let o20 := next_up Float8E4M3FNS v17 in
   let v21 := get (0, junk) o20 in
   let v22 := fst v21 in
   let v23 := snd v21 in
   let o24 := from_bits Float8E4M3FNS 204 in
   let v25 := get junk o24 in
   let o26 := from_bits Float8E4M3FNS 203 in
   let v27 := get junk o26 in
   let o28 := next_up Float8E4M3FNS v25 in
   let v29 := get (0, junk) o28 in
   let v30 := fst v29 in
   let v31 := snd v29 in
   let o32 := from_bits Float8E4M3FNS 205 in
   let v33 := get junk o32 in
   let o34 := from_bits Float8E4M3FNS 204 in
   let v35 := get junk o34 in
   let o36 := next_up Float8E4M3FNS v33 in
   let v37 := get (0, junk) o36 in
   let v38 := fst v37 in
   let v39 := snd v37 in
   let o40 := from_bits Float8E4M3FNS 206 in
   let v41 := get junk o40 in
   let o42 := from_bits Float8E4M3FNS 205 in
   let v43 := get junk o42 in
   let o44 := next_up Float8E4M3FNS v41 in
   let v45 := get (0, junk) o44 in
   let v46 := fst v45 in
   let v47 := snd v45 in
   let o48 := from_bits Float8E4M3FNS 207 in
   let v49 := get junk o48 in
   let o50 := from_bits Float8E4M3FNS 206 in
   let v51 := get junk o50 in
   let o52 := next_up Float8E4M3FNS v49 in
   let v53 := get (0, junk) o52 in
   let v54 := fst v53 in
   let v55 := snd v53 in
   let o56 := from_bits Float8E4M3FNS 208 in
   let v57 := get junk o56 in
   let o58 := from_bits Float8E4M3FNS 207 in
   let v59 := get junk o58 in
   let o60 := next_up Float8E4M3FNS v57 in
   let v61 := get (0, junk) o60 in
   let v62 := fst v61 in
   let v63 := snd v61 in
   let o64 := from_bits Float8E4M3FNS 209 in
   let o65 := from_bits Float8E4M3FNS 208 in
   all_true [
      returns o4;
      bitwise_eq v7 v3;
      v6 =? OK;
      returns o8;
      returns o10;
      returns o12;
      bitwise_eq v15 v11;
      v14 =? OK;
      returns o16;
      returns o18;
      returns o20;
      bitwise_eq v23 v19;
      v22 =? OK;
      returns o24;
      returns o26;
      returns o28;
      bitwise_eq v31 v27;
      v30 =? OK;
      returns o32;
      returns o34;
      returns o36;
      bitwise_eq v39 v35;
      v38 =? OK;
      returns o40;
      returns o42;
      returns o44;
      bitwise_eq v47 v43;
      v46 =? OK;
      returns o48;
      returns o50;
      returns o52;
      bitwise_eq v55 v51;
      v54 =? OK;
      returns o56;
      returns o58;
      returns o60;
      bitwise_eq v63 v59;
      v62 =? OK;
      returns o64;
      returns o65]) = true.
Proof. vm_compute. reflexivity. Qed.

Example test_float8e4m3fn_next_27 : (
   let o0 := from_bits Float8E4M3FNS 209 in
   let v1 := get junk o0 in
   let o2 := from_bits Float8E4M3FNS 208 in
   let v3 := get junk o2 in
   let o4 := next_up Float8E4M3FNS v1 in
   let v5 := get (0, junk) o4 in
   let v6 := fst v5 in
   let v7 := snd v5 in
   let o8 := from_bits Float8E4M3FNS 210 in
   let v9 := get junk o8 in
   let o10 := from_bits Float8E4M3FNS 209 in
   let v11 := get junk o10 in
   let o12 := next_up Float8E4M3FNS v9 in
   let v13 := get (0, junk) o12 in
   let v14 := fst v13 in
   let v15 := snd v13 in
   let o16 := from_bits Float8E4M3FNS 211 in
   let v17 := get junk o16 in
   let o18 := from_bits Float8E4M3FNS 210 in
   let v19 := get junk o18 in
   let o20 := next_up Float8E4M3FNS v17 in
   let v21 := get (0, junk) o20 in
   let v22 := fst v21 in
   let v23 := snd v21 in
   let o24 := from_bits Float8E4M3FNS 212 in
   let v25 := get junk o24 in
   let o26 := from_bits Float8E4M3FNS 211 in
   let v27 := get junk o26 in
   let o28 := next_up Float8E4M3FNS v25 in
   let v29 := get (0, junk) o28 in
   let v30 := fst v29 in
   let v31 := snd v29 in
   let o32 := from_bits Float8E4M3FNS 213 in
   let v33 := get junk o32 in
   let o34 := from_bits Float8E4M3FNS 212 in
   let v35 := get junk o34 in
   let o36 := next_up Float8E4M3FNS v33 in
   let v37 := get (0, junk) o36 in
   let v38 := fst v37 in
   let v39 := snd v37 in
   let o40 := from_bits Float8E4M3FNS 214 in
   let v41 := get junk o40 in
   let o42 := from_bits Float8E4M3FNS 213 in
   let v43 := get junk o42 in
   let o44 := next_up Float8E4M3FNS v41 in
   let v45 := get (0, junk) o44 in
   let v46 := fst v45 in
   let v47 := snd v45 in
   let o48 := from_bits Float8E4M3FNS 215 in
   let v49 := get junk o48 in
   let o50 := from_bits Float8E4M3FNS 214 in
   let v51 := get junk o50 in
   let o52 := next_up Float8E4M3FNS v49 in
   let v53 := get (0, junk) o52 in
   let v54 := fst v53 in
   let v55 := snd v53 in
   let o56 := from_bits Float8E4M3FNS 216 in
   let v57 := get junk o56 in
   let o58 := from_bits Float8E4M3FNS 215 in
   let v59 := get junk o58 in
   let o60 := next_up Float8E4M3FNS v57 in
   let v61 := get (0, junk) o60 in
   let v62 := fst v61 in
   let v63 := snd v61 in
   let o64 := from_bits Float8E4M3FNS 217 in
   let o65 := from_bits Float8E4M3FNS 216 in
   all_true [
      returns o4;
      bitwise_eq v7 v3;
      v6 =? OK;
      returns o8;
      returns o10;
      returns o12;
      bitwise_eq v15 v11;
      v14 =? OK;
      returns o16;
      returns o18;
      returns o20;
      bitwise_eq v23 v19;
      v22 =? OK;
      returns o24;
      returns o26;
      returns o28;
      bitwise_eq v31 v27;
      v30 =? OK;
      returns o32;
      returns o34;
      returns o36;
      bitwise_eq v39 v35;
      v38 =? OK;
      returns o40;
      returns o42;
      returns o44;
      bitwise_eq v47 v43;
      v46 =? OK;
      returns o48;
      returns o50;
      returns o52;
      bitwise_eq v55 v51;
      v54 =? OK;
      returns o56;
      returns o58;
      returns o60;
      bitwise_eq v63 v59;
      v62 =? OK;
      returns o64;
      returns o65]) = true.
Proof. vm_compute. reflexivity. Qed.

Example test_float8e4m3fn_next_28 : (
   let o0 := from_bits Float8E4M3FNS 217 in
   let v1 := get junk o0 in
   let o2 := from_bits Float8E4M3FNS 216 in
   let v3 := get junk o2 in
   let o4 := next_up Float8E4M3FNS v1 in
   let v5 := get (0, junk) o4 in
   let v6 := fst v5 in
   let v7 := snd v5 in
   let o8 := from_bits Float8E4M3FNS 218 in
   let v9 := get junk o8 in
   let o10 := from_bits Float8E4M3FNS 217 in
   let v11 := get junk o10 in
   let o12 := next_up Float8E4M3FNS v9 in
   let v13 := get (0, junk) o12 in
   let v14 := fst v13 in
   let v15 := snd v13 in
   let o16 := from_bits Float8E4M3FNS 219 in
   let v17 := get junk o16 in
   let o18 := from_bits Float8E4M3FNS 218 in
   let v19 := get junk o18 in
   let o20 := next_up Float8E4M3FNS v17 in
   let v21 := get (0, junk) o20 in
   let v22 := fst v21 in
   let v23 := snd v21 in
   let o24 := from_bits Float8E4M3FNS 220 in
   let v25 := get junk o24 in
   let o26 := from_bits Float8E4M3FNS 219 in
   let v27 := get junk o26 in
   let o28 := next_up Float8E4M3FNS v25 in
   let v29 := get (0, junk) o28 in
   let v30 := fst v29 in
   let v31 := snd v29 in
   let o32 := from_bits Float8E4M3FNS 221 in
   let v33 := get junk o32 in
   let o34 := from_bits Float8E4M3FNS 220 in
   let v35 := get junk o34 in
   let o36 := next_up Float8E4M3FNS v33 in
   let v37 := get (0, junk) o36 in
   let v38 := fst v37 in
   let v39 := snd v37 in
   let o40 := from_bits Float8E4M3FNS 222 in
   let v41 := get junk o40 in
   let o42 := from_bits Float8E4M3FNS 221 in
   let v43 := get junk o42 in
   let o44 := next_up Float8E4M3FNS v41 in
   let v45 := get (0, junk) o44 in
   let v46 := fst v45 in
   let v47 := snd v45 in
   let o48 := from_bits Float8E4M3FNS 223 in
   let v49 := get junk o48 in
   let o50 := from_bits Float8E4M3FNS 222 in
   let v51 := get junk o50 in
   let o52 := next_up Float8E4M3FNS v49 in
   let v53 := get (0, junk) o52 in
   let v54 := fst v53 in
   let v55 := snd v53 in
   let o56 := from_bits Float8E4M3FNS 224 in
   let v57 := get junk o56 in
   let o58 := from_bits Float8E4M3FNS 223 in
   let v59 := get junk o58 in
   let o60 := next_up Float8E4M3FNS v57 in
   let v61 := get (0, junk) o60 in
   let v62 := fst v61 in
   let v63 := snd v61 in
   let o64 := from_bits Float8E4M3FNS 225 in
   let o65 := from_bits Float8E4M3FNS 224 in
   all_true [
      returns o4;
      bitwise_eq v7 v3;
      v6 =? OK;
      returns o8;
      returns o10;
      returns o12;
      bitwise_eq v15 v11;
      v14 =? OK;
      returns o16;
      returns o18;
      returns o20;
      bitwise_eq v23 v19;
      v22 =? OK;
      returns o24;
      returns o26;
      returns o28;
      bitwise_eq v31 v27;
      v30 =? OK;
      returns o32;
      returns o34;
      returns o36;
      bitwise_eq v39 v35;
      v38 =? OK;
      returns o40;
      returns o42;
      returns o44;
      bitwise_eq v47 v43;
      v46 =? OK;
      returns o48;
      returns o50;
      returns o52;
      bitwise_eq v55 v51;
      v54 =? OK;
      returns o56;
      returns o58;
      returns o60;
      bitwise_eq v63 v59;
      v62 =? OK;
      returns o64;
      returns o65]) = true.
Proof. vm_compute. reflexivity. Qed.

Example test_float8e4m3fn_next_29 : (
   let o0 := from_bits Float8E4M3FNS 225 in
   let v1 := get junk o0 in
   let o2 := from_bits Float8E4M3FNS 224 in
   let v3 := get junk o2 in
   let o4 := next_up Float8E4M3FNS v1 in
   let v5 := get (0, junk) o4 in
   let v6 := fst v5 in
   let v7 := snd v5 in
   let o8 := from_bits Float8E4M3FNS 226 in
   let v9 := get junk o8 in
   let o10 := from_bits Float8E4M3FNS 225 in
   let v11 := get junk o10 in
   let o12 := next_up Float8E4M3FNS v9 in
   let v13 := get (0, junk) o12 in
   let v14 := fst v13 in
   let v15 := snd v13 in
   let o16 := from_bits Float8E4M3FNS 227 in
   let v17 := get junk o16 in
   let o18 := from_bits Float8E4M3FNS 226 in
   let v19 := get junk o18 in
   let o20 := next_up Float8E4M3FNS v17 in
   let v21 := get (0, junk) o20 in
   let v22 := fst v21 in
   let v23 := snd v21 in
   let o24 := from_bits Float8E4M3FNS 228 in
   let v25 := get junk o24 in
   let o26 := from_bits Float8E4M3FNS 227 in
   let v27 := get junk o26 in
   let o28 := next_up Float8E4M3FNS v25 in
   let v29 := get (0, junk) o28 in
   let v30 := fst v29 in
   let v31 := snd v29 in
   let o32 := from_bits Float8E4M3FNS 229 in
   let v33 := get junk o32 in
   let o34 := from_bits Float8E4M3FNS 228 in
   let v35 := get junk o34 in
   let o36 := next_up Float8E4M3FNS v33 in
   let v37 := get (0, junk) o36 in
   let v38 := fst v37 in
   let v39 := snd v37 in
   let o40 := from_bits Float8E4M3FNS 230 in
   let v41 := get junk o40 in
   let o42 := from_bits Float8E4M3FNS 229 in
   let v43 := get junk o42 in
   let o44 := next_up Float8E4M3FNS v41 in
   let v45 := get (0, junk) o44 in
   let v46 := fst v45 in
   let v47 := snd v45 in
   let o48 := from_bits Float8E4M3FNS 231 in
   let v49 := get junk o48 in
   let o50 := from_bits Float8E4M3FNS 230 in
   let v51 := get junk o50 in
   let o52 := next_up Float8E4M3FNS v49 in
   let v53 := get (0, junk) o52 in
   let v54 := fst v53 in
   let v55 := snd v53 in
   let o56 := from_bits Float8E4M3FNS 232 in
   let v57 := get junk o56 in
   let o58 := from_bits Float8E4M3FNS 231 in
   let v59 := get junk o58 in
   let o60 := next_up Float8E4M3FNS v57 in
   let v61 := get (0, junk) o60 in
   let v62 := fst v61 in
   let v63 := snd v61 in
   let o64 := from_bits Float8E4M3FNS 233 in
   let o65 := from_bits Float8E4M3FNS 232 in
   all_true [
      returns o4;
      bitwise_eq v7 v3;
      v6 =? OK;
      returns o8;
      returns o10;
      returns o12;
      bitwise_eq v15 v11;
      v14 =? OK;
      returns o16;
      returns o18;
      returns o20;
      bitwise_eq v23 v19;
      v22 =? OK;
      returns o24;
      returns o26;
      returns o28;
      bitwise_eq v31 v27;
      v30 =? OK;
      returns o32;
      returns o34;
      returns o36;
      bitwise_eq v39 v35;
      v38 =? OK;
      returns o40;
      returns o42;
      returns o44;
      bitwise_eq v47 v43;
      v46 =? OK;
      returns o48;
      returns o50;
      returns o52;
      bitwise_eq v55 v51;
      v54 =? OK;
      returns o56;
      returns o58;
      returns o60;
      bitwise_eq v63 v59;
      v62 =? OK;
      returns o64;
      returns o65]) = true.
Proof. vm_compute. reflexivity. Qed.

Example test_float8e4m3fn_next_30 : (
   let o0 := from_bits Float8E4M3FNS 233 in
   let v1 := get junk o0 in
   let o2 := from_bits Float8E4M3FNS 232 in
   let v3 := get junk o2 in
   let o4 := next_up Float8E4M3FNS v1 in
   let v5 := get (0, junk) o4 in
   let v6 := fst v5 in
   let v7 := snd v5 in
   let o8 := from_bits Float8E4M3FNS 234 in
   let v9 := get junk o8 in
   let o10 := from_bits Float8E4M3FNS 233 in
   let v11 := get junk o10 in
   let o12 := next_up Float8E4M3FNS v9 in
   let v13 := get (0, junk) o12 in
   let v14 := fst v13 in
   let v15 := snd v13 in
   let o16 := from_bits Float8E4M3FNS 235 in
   let v17 := get junk o16 in
   let o18 := from_bits Float8E4M3FNS 234 in
   let v19 := get junk o18 in
   let o20 := next_up Float8E4M3FNS v17 in
   let v21 := get (0, junk) o20 in
   let v22 := fst v21 in
   let v23 := snd v21 in
   let o24 := from_bits Float8E4M3FNS 236 in
   let v25 := get junk o24 in
   let o26 := from_bits Float8E4M3FNS 235 in
   let v27 := get junk o26 in
   let o28 := next_up Float8E4M3FNS v25 in
   let v29 := get (0, junk) o28 in
   let v30 := fst v29 in
   let v31 := snd v29 in
   let o32 := from_bits Float8E4M3FNS 237 in
   let v33 := get junk o32 in
   let o34 := from_bits Float8E4M3FNS 236 in
   let v35 := get junk o34 in
   let o36 := next_up Float8E4M3FNS v33 in
   let v37 := get (0, junk) o36 in
   let v38 := fst v37 in
   let v39 := snd v37 in
   let o40 := from_bits Float8E4M3FNS 238 in
   let v41 := get junk o40 in
   let o42 := from_bits Float8E4M3FNS 237 in
   let v43 := get junk o42 in
   let o44 := next_up Float8E4M3FNS v41 in
   let v45 := get (0, junk) o44 in
   let v46 := fst v45 in
   let v47 := snd v45 in
   let o48 := from_bits Float8E4M3FNS 239 in
   let v49 := get junk o48 in
   let o50 := from_bits Float8E4M3FNS 238 in
   let v51 := get junk o50 in
   let o52 := next_up Float8E4M3FNS v49 in
   let v53 := get (0, junk) o52 in
   let v54 := fst v53 in
   let v55 := snd v53 in
   let o56 := from_bits Float8E4M3FNS 240 in
   let v57 := get junk o56 in
   let o58 := from_bits Float8E4M3FNS 239 in
   let v59 := get junk o58 in
   let o60 := next_up Float8E4M3FNS v57 in
   let v61 := get (0, junk) o60 in
   let v62 := fst v61 in
   let v63 := snd v61 in
   let o64 := from_bits Float8E4M3FNS 241 in
   let o65 := from_bits Float8E4M3FNS 240 in
   all_true [
      returns o4;
      bitwise_eq v7 v3;
      v6 =? OK;
      returns o8;
      returns o10;
      returns o12;
      bitwise_eq v15 v11;
      v14 =? OK;
      returns o16;
      returns o18;
      returns o20;
      bitwise_eq v23 v19;
      v22 =? OK;
      returns o24;
      returns o26;
      returns o28;
      bitwise_eq v31 v27;
      v30 =? OK;
      returns o32;
      returns o34;
      returns o36;
      bitwise_eq v39 v35;
      v38 =? OK;
      returns o40;
      returns o42;
      returns o44;
      bitwise_eq v47 v43;
      v46 =? OK;
      returns o48;
      returns o50;
      returns o52;
      bitwise_eq v55 v51;
      v54 =? OK;
      returns o56;
      returns o58;
      returns o60;
      bitwise_eq v63 v59;
      v62 =? OK;
      returns o64;
      returns o65]) = true.
Proof. vm_compute. reflexivity. Qed.

Example test_float8e4m3fn_next_31 : (
   let o0 := from_bits Float8E4M3FNS 241 in
   let v1 := get junk o0 in
   let o2 := from_bits Float8E4M3FNS 240 in
   let v3 := get junk o2 in
   let o4 := next_up Float8E4M3FNS v1 in
   let v5 := get (0, junk) o4 in
   let v6 := fst v5 in
   let v7 := snd v5 in
   let o8 := from_bits Float8E4M3FNS 242 in
   let v9 := get junk o8 in
   let o10 := from_bits Float8E4M3FNS 241 in
   let v11 := get junk o10 in
   let o12 := next_up Float8E4M3FNS v9 in
   let v13 := get (0, junk) o12 in
   let v14 := fst v13 in
   let v15 := snd v13 in
   let o16 := from_bits Float8E4M3FNS 243 in
   let v17 := get junk o16 in
   let o18 := from_bits Float8E4M3FNS 242 in
   let v19 := get junk o18 in
   let o20 := next_up Float8E4M3FNS v17 in
   let v21 := get (0, junk) o20 in
   let v22 := fst v21 in
   let v23 := snd v21 in
   let o24 := from_bits Float8E4M3FNS 244 in
   let v25 := get junk o24 in
   let o26 := from_bits Float8E4M3FNS 243 in
   let v27 := get junk o26 in
   let o28 := next_up Float8E4M3FNS v25 in
   let v29 := get (0, junk) o28 in
   let v30 := fst v29 in
   let v31 := snd v29 in
   let o32 := from_bits Float8E4M3FNS 245 in
   let v33 := get junk o32 in
   let o34 := from_bits Float8E4M3FNS 244 in
   let v35 := get junk o34 in
   let o36 := next_up Float8E4M3FNS v33 in
   let v37 := get (0, junk) o36 in
   let v38 := fst v37 in
   let v39 := snd v37 in
   let o40 := from_bits Float8E4M3FNS 246 in
   let v41 := get junk o40 in
   let o42 := from_bits Float8E4M3FNS 245 in
   let v43 := get junk o42 in
   let o44 := next_up Float8E4M3FNS v41 in
   let v45 := get (0, junk) o44 in
   let v46 := fst v45 in
   let v47 := snd v45 in
   let o48 := from_bits Float8E4M3FNS 247 in
   let v49 := get junk o48 in
   let o50 := from_bits Float8E4M3FNS 246 in
   let v51 := get junk o50 in
   let o52 := next_up Float8E4M3FNS v49 in
   let v53 := get (0, junk) o52 in
   let v54 := fst v53 in
   let v55 := snd v53 in
   let o56 := from_bits Float8E4M3FNS 248 in
   let v57 := get junk o56 in
   let o58 := from_bits Float8E4M3FNS 247 in
   let v59 := get junk o58 in
   let o60 := next_up Float8E4M3FNS v57 in
   let v61 := get (0, junk) o60 in
   let v62 := fst v61 in
   let v63 := snd v61 in
   let o64 := from_bits Float8E4M3FNS 249 in
   let o65 := from_bits Float8E4M3FNS 248 in
   all_true [
      returns o4;
      bitwise_eq v7 v3;
      v6 =? OK;
      returns o8;
      returns o10;
      returns o12;
      bitwise_eq v15 v11;
      v14 =? OK;
      returns o16;
      returns o18;
      returns o20;
      bitwise_eq v23 v19;
      v22 =? OK;
      returns o24;
      returns o26;
      returns o28;
      bitwise_eq v31 v27;
      v30 =? OK;
      returns o32;
      returns o34;
      returns o36;
      bitwise_eq v39 v35;
      v38 =? OK;
      returns o40;
      returns o42;
      returns o44;
      bitwise_eq v47 v43;
      v46 =? OK;
      returns o48;
      returns o50;
      returns o52;
      bitwise_eq v55 v51;
      v54 =? OK;
      returns o56;
      returns o58;
      returns o60;
      bitwise_eq v63 v59;
      v62 =? OK;
      returns o64;
      returns o65]) = true.
Proof. vm_compute. reflexivity. Qed.

Example test_float8e4m3fn_next_32 : (
   let o0 := from_bits Float8E4M3FNS 249 in
   let v1 := get junk o0 in
   let o2 := from_bits Float8E4M3FNS 248 in
   let v3 := get junk o2 in
   let o4 := next_up Float8E4M3FNS v1 in
   let v5 := get (0, junk) o4 in
   let v6 := fst v5 in
   let v7 := snd v5 in
   let o8 := from_bits Float8E4M3FNS 250 in
   let v9 := get junk o8 in
   let o10 := from_bits Float8E4M3FNS 249 in
   let v11 := get junk o10 in
   let o12 := next_up Float8E4M3FNS v9 in
   let v13 := get (0, junk) o12 in
   let v14 := fst v13 in
   let v15 := snd v13 in
   let o16 := from_bits Float8E4M3FNS 251 in
   let v17 := get junk o16 in
   let o18 := from_bits Float8E4M3FNS 250 in
   let v19 := get junk o18 in
   let o20 := next_up Float8E4M3FNS v17 in
   let v21 := get (0, junk) o20 in
   let v22 := fst v21 in
   let v23 := snd v21 in
   let o24 := from_bits Float8E4M3FNS 252 in
   let v25 := get junk o24 in
   let o26 := from_bits Float8E4M3FNS 251 in
   let v27 := get junk o26 in
   let o28 := next_up Float8E4M3FNS v25 in
   let v29 := get (0, junk) o28 in
   let v30 := fst v29 in
   let v31 := snd v29 in
   let o32 := from_bits Float8E4M3FNS 253 in
   let v33 := get junk o32 in
   let o34 := from_bits Float8E4M3FNS 252 in
   let v35 := get junk o34 in
   let o36 := next_up Float8E4M3FNS v33 in
   let v37 := get (0, junk) o36 in
   let v38 := fst v37 in
   let v39 := snd v37 in
   let o40 := from_bits Float8E4M3FNS 254 in
   let v41 := get junk o40 in
   let o42 := from_bits Float8E4M3FNS 253 in
   let v43 := get junk o42 in
   let o44 := next_up Float8E4M3FNS v41 in
   let v45 := get (0, junk) o44 in
   let v46 := fst v45 in
   let v47 := snd v45 in
   let v48 := qnan Float8E4M3FNS None in
   let v49 := qnan Float8E4M3FNS None in
   let o50 := next_up Float8E4M3FNS v48 in
   let v51 := get (0, junk) o50 in
   let v52 := fst v51 in
   let v53 := snd v51 in
   let o54 := from_bits Float8E4M3FNS 1 in
   let v55 := get junk o54 in
   let o56 := from_bits Float8E4M3FNS 0 in
   let v57 := get junk o56 in
   let o58 := next_down Float8E4M3FNS v55 in
   let v59 := get (0, junk) o58 in
   let v60 := fst v59 in
   let v61 := snd v59 in
   let o62 := from_bits Float8E4M3FNS 2 in
   let v63 := get junk o62 in
   let o64 := from_bits Float8E4M3FNS 1 in
   let v65 := get junk o64 in
   let o66 := next_down Float8E4M3FNS v63 in
   let v67 := get (0, junk) o66 in
   let v68 := snd v67 in
   all_true [
      returns o4;
      bitwise_eq v7 v3;
      v6 =? OK;
      returns o8;
      returns o10;
      returns o12;
      bitwise_eq v15 v11;
      v14 =? OK;
      returns o16;
      returns o18;
      returns o20;
      bitwise_eq v23 v19;
      v22 =? OK;
      returns o24;
      returns o26;
      returns o28;
      bitwise_eq v31 v27;
      v30 =? OK;
      returns o32;
      returns o34;
      returns o36;
      bitwise_eq v39 v35;
      v38 =? OK;
      returns o40;
      returns o42;
      returns o44;
      bitwise_eq v47 v43;
      v46 =? OK;
      returns o50;
      bitwise_eq v53 v49;
      v52 =? OK;
      returns o54;
      returns o56;
      returns o58;
      bitwise_eq v61 v57;
      v60 =? OK;
      returns o62;
      returns o64;
      returns o66;
      bitwise_eq v68 v65]) = true.
Proof. vm_compute. reflexivity. Qed.

Example test_float8e4m3fn_next_33 : (
   let o0 := from_bits Float8E4M3FNS 2 in
   let v1 := get junk o0 in
   let o2 := next_down Float8E4M3FNS v1 in
   let v3 := get (0, junk) o2 in
   let v4 := fst v3 in
   let o5 := from_bits Float8E4M3FNS 3 in
   let v6 := get junk o5 in
   let o7 := from_bits Float8E4M3FNS 2 in
   let v8 := get junk o7 in
   let o9 := next_down Float8E4M3FNS v6 in
   let v10 := get (0, junk) o9 in
   let v11 := fst v10 in
   let v12 := snd v10 in
   let o13 := from_bits Float8E4M3FNS 4 in
   let v14 := get junk o13 in
   let o15 := from_bits Float8E4M3FNS 3 in
   let v16 := get junk o15 in
   let o17 := next_down Float8E4M3FNS v14 in
   let v18 := get (0, junk) o17 in
   let v19 := fst v18 in
   let v20 := snd v18 in
   let o21 := from_bits Float8E4M3FNS 5 in
   let v22 := get junk o21 in
   let o23 := from_bits Float8E4M3FNS 4 in
   let v24 := get junk o23 in
   let o25 := next_down Float8E4M3FNS v22 in
   let v26 := get (0, junk) o25 in
   let v27 := fst v26 in
   let v28 := snd v26 in
   let o29 := from_bits Float8E4M3FNS 6 in
   let v30 := get junk o29 in
   let o31 := from_bits Float8E4M3FNS 5 in
   let v32 := get junk o31 in
   let o33 := next_down Float8E4M3FNS v30 in
   let v34 := get (0, junk) o33 in
   let v35 := fst v34 in
   let v36 := snd v34 in
   let o37 := from_bits Float8E4M3FNS 7 in
   let v38 := get junk o37 in
   let o39 := from_bits Float8E4M3FNS 6 in
   let v40 := get junk o39 in
   let o41 := next_down Float8E4M3FNS v38 in
   let v42 := get (0, junk) o41 in
   let v43 := fst v42 in
   let v44 := snd v42 in
   let o45 := from_bits Float8E4M3FNS 8 in
   let v46 := get junk o45 in
   let o47 := from_bits Float8E4M3FNS 7 in
   let v48 := get junk o47 in
   let o49 := next_down Float8E4M3FNS v46 in
   let v50 := get (0, junk) o49 in
   let v51 := fst v50 in
   let v52 := snd v50 in
   let o53 := from_bits Float8E4M3FNS 9 in
   let v54 := get junk o53 in
   let o55 := from_bits Float8E4M3FNS 8 in
   let v56 := get junk o55 in
   let o57 := next_down Float8E4M3FNS v54 in
   let v58 := get (0, junk) o57 in
   let v59 := fst v58 in
   let v60 := snd v58 in
   let o61 := from_bits Float8E4M3FNS 10 in
   let v62 := get junk o61 in
   let o63 := from_bits Float8E4M3FNS 9 in
   let v64 := get junk o63 in
   let o65 := next_down Float8E4M3FNS v62 in
   let v66 := get (0, junk) o65 in
   let v67 := snd v66 in
   all_true [
      v4 =? OK;
      returns o5;
      returns o7;
      returns o9;
      bitwise_eq v12 v8;
      v11 =? OK;
      returns o13;
      returns o15;
      returns o17;
      bitwise_eq v20 v16;
      v19 =? OK;
      returns o21;
      returns o23;
      returns o25;
      bitwise_eq v28 v24;
      v27 =? OK;
      returns o29;
      returns o31;
      returns o33;
      bitwise_eq v36 v32;
      v35 =? OK;
      returns o37;
      returns o39;
      returns o41;
      bitwise_eq v44 v40;
      v43 =? OK;
      returns o45;
      returns o47;
      returns o49;
      bitwise_eq v52 v48;
      v51 =? OK;
      returns o53;
      returns o55;
      returns o57;
      bitwise_eq v60 v56;
      v59 =? OK;
      returns o61;
      returns o63;
      returns o65;
      bitwise_eq v67 v64]) = true.
Proof. vm_compute. reflexivity. Qed.

Example test_float8e4m3fn_next_34 : (
   let o0 := from_bits Float8E4M3FNS 10 in
   let v1 := get junk o0 in
   let o2 := next_down Float8E4M3FNS v1 in
   let v3 := get (0, junk) o2 in
   let v4 := fst v3 in
   let o5 := from_bits Float8E4M3FNS 11 in
   let v6 := get junk o5 in
   let o7 := from_bits Float8E4M3FNS 10 in
   let v8 := get junk o7 in
   let o9 := next_down Float8E4M3FNS v6 in
   let v10 := get (0, junk) o9 in
   let v11 := fst v10 in
   let v12 := snd v10 in
   let o13 := from_bits Float8E4M3FNS 12 in
   let v14 := get junk o13 in
   let o15 := from_bits Float8E4M3FNS 11 in
   let v16 := get junk o15 in
   let o17 := next_down Float8E4M3FNS v14 in
   let v18 := get (0, junk) o17 in
   let v19 := fst v18 in
   let v20 := snd v18 in
   let o21 := from_bits Float8E4M3FNS 13 in
   let v22 := get junk o21 in
   let o23 := from_bits Float8E4M3FNS 12 in
   let v24 := get junk o23 in
   let o25 := next_down Float8E4M3FNS v22 in
   let v26 := get (0, junk) o25 in
   let v27 := fst v26 in
   let v28 := snd v26 in
   let o29 := from_bits Float8E4M3FNS 14 in
   let v30 := get junk o29 in
   let o31 := from_bits Float8E4M3FNS 13 in
   let v32 := get junk o31 in
   let o33 := next_down Float8E4M3FNS v30 in
   let v34 := get (0, junk) o33 in
   let v35 := fst v34 in
   let v36 := snd v34 in
   let o37 := from_bits Float8E4M3FNS 15 in
   let v38 := get junk o37 in
   let o39 := from_bits Float8E4M3FNS 14 in
   let v40 := get junk o39 in
   let o41 := next_down Float8E4M3FNS v38 in
   let v42 := get (0, junk) o41 in
   let v43 := fst v42 in
   let v44 := snd v42 in
   let o45 := from_bits Float8E4M3FNS 16 in
   let v46 := get junk o45 in
   let o47 := from_bits Float8E4M3FNS 15 in
   let v48 := get junk o47 in
   let o49 := next_down Float8E4M3FNS v46 in
   let v50 := get (0, junk) o49 in
   let v51 := fst v50 in
   let v52 := snd v50 in
   let o53 := from_bits Float8E4M3FNS 17 in
   let v54 := get junk o53 in
   let o55 := from_bits Float8E4M3FNS 16 in
   let v56 := get junk o55 in
   let o57 := next_down Float8E4M3FNS v54 in
   let v58 := get (0, junk) o57 in
   let v59 := fst v58 in
   let v60 := snd v58 in
   let o61 := from_bits Float8E4M3FNS 18 in
   let v62 := get junk o61 in
   let o63 := from_bits Float8E4M3FNS 17 in
   let v64 := get junk o63 in
   let o65 := next_down Float8E4M3FNS v62 in
   let v66 := get (0, junk) o65 in
   let v67 := snd v66 in
   all_true [
      v4 =? OK;
      returns o5;
      returns o7;
      returns o9;
      bitwise_eq v12 v8;
      v11 =? OK;
      returns o13;
      returns o15;
      returns o17;
      bitwise_eq v20 v16;
      v19 =? OK;
      returns o21;
      returns o23;
      returns o25;
      bitwise_eq v28 v24;
      v27 =? OK;
      returns o29;
      returns o31;
      returns o33;
      bitwise_eq v36 v32;
      v35 =? OK;
      returns o37;
      returns o39;
      returns o41;
      bitwise_eq v44 v40;
      v43 =? OK;
      returns o45;
      returns o47;
      returns o49;
      bitwise_eq v52 v48;
      v51 =? OK;
      returns o53;
      returns o55;
      returns o57;
      bitwise_eq v60 v56;
      v59 =? OK;
      returns o61;
      returns o63;
      returns o65;
      bitwise_eq v67 v64]) = true.
Proof. vm_compute. reflexivity. Qed.

Example test_float8e4m3fn_next_35 : (
   let o0 := from_bits Float8E4M3FNS 18 in
   let v1 := get junk o0 in
   let o2 := next_down Float8E4M3FNS v1 in
   let v3 := get (0, junk) o2 in
   let v4 := fst v3 in
   let o5 := from_bits Float8E4M3FNS 19 in
   let v6 := get junk o5 in
   let o7 := from_bits Float8E4M3FNS 18 in
   let v8 := get junk o7 in
   let o9 := next_down Float8E4M3FNS v6 in
   let v10 := get (0, junk) o9 in
   let v11 := fst v10 in
   let v12 := snd v10 in
   let o13 := from_bits Float8E4M3FNS 20 in
   let v14 := get junk o13 in
   let o15 := from_bits Float8E4M3FNS 19 in
   let v16 := get junk o15 in
   let o17 := next_down Float8E4M3FNS v14 in
   let v18 := get (0, junk) o17 in
   let v19 := fst v18 in
   let v20 := snd v18 in
   let o21 := from_bits Float8E4M3FNS 21 in
   let v22 := get junk o21 in
   let o23 := from_bits Float8E4M3FNS 20 in
   let v24 := get junk o23 in
   let o25 := next_down Float8E4M3FNS v22 in
   let v26 := get (0, junk) o25 in
   let v27 := fst v26 in
   let v28 := snd v26 in
   let o29 := from_bits Float8E4M3FNS 22 in
   let v30 := get junk o29 in
   let o31 := from_bits Float8E4M3FNS 21 in
   let v32 := get junk o31 in
   let o33 := next_down Float8E4M3FNS v30 in
   let v34 := get (0, junk) o33 in
   let v35 := fst v34 in
   let v36 := snd v34 in
   let o37 := from_bits Float8E4M3FNS 23 in
   let v38 := get junk o37 in
   let o39 := from_bits Float8E4M3FNS 22 in
   let v40 := get junk o39 in
   let o41 := next_down Float8E4M3FNS v38 in
   let v42 := get (0, junk) o41 in
   let v43 := fst v42 in
   let v44 := snd v42 in
   let o45 := from_bits Float8E4M3FNS 24 in
   let v46 := get junk o45 in
   let o47 := from_bits Float8E4M3FNS 23 in
   let v48 := get junk o47 in
   let o49 := next_down Float8E4M3FNS v46 in
   let v50 := get (0, junk) o49 in
   let v51 := fst v50 in
   let v52 := snd v50 in
   let o53 := from_bits Float8E4M3FNS 25 in
   let v54 := get junk o53 in
   let o55 := from_bits Float8E4M3FNS 24 in
   let v56 := get junk o55 in
   let o57 := next_down Float8E4M3FNS v54 in
   let v58 := get (0, junk) o57 in
   let v59 := fst v58 in
   let v60 := snd v58 in
   let o61 := from_bits Float8E4M3FNS 26 in
   let v62 := get junk o61 in
   let o63 := from_bits Float8E4M3FNS 25 in
   let v64 := get junk o63 in
   let o65 := next_down Float8E4M3FNS v62 in
   let v66 := get (0, junk) o65 in
   let v67 := snd v66 in
   all_true [
      v4 =? OK;
      returns o5;
      returns o7;
      returns o9;
      bitwise_eq v12 v8;
      v11 =? OK;
      returns o13;
      returns o15;
      returns o17;
      bitwise_eq v20 v16;
      v19 =? OK;
      returns o21;
      returns o23;
      returns o25;
      bitwise_eq v28 v24;
      v27 =? OK;
      returns o29;
      returns o31;
      returns o33;
      bitwise_eq v36 v32;
      v35 =? OK;
      returns o37;
      returns o39;
      returns o41;
      bitwise_eq v44 v40;
      v43 =? OK;
      returns o45;
      returns o47;
      returns o49;
      bitwise_eq v52 v48;
      v51 =? OK;
      returns o53;
      returns o55;
      returns o57;
      bitwise_eq v60 v56;
      v59 =? OK;
      returns o61;
      returns o63;
      returns o65;
      bitwise_eq v67 v64]) = true.
Proof. vm_compute. reflexivity. Qed.

Example test_float8e4m3fn_next_36 : (
   let o0 := from_bits Float8E4M3FNS 26 in
   let v1 := get junk o0 in
   let o2 := next_down Float8E4M3FNS v1 in
   let v3 := get (0, junk) o2 in
   let v4 := fst v3 in
   let o5 := from_bits Float8E4M3FNS 27 in
   let v6 := get junk o5 in
   let o7 := from_bits Float8E4M3FNS 26 in
   let v8 := get junk o7 in
   let o9 := next_down Float8E4M3FNS v6 in
   let v10 := get (0, junk) o9 in
   let v11 := fst v10 in
   let v12 := snd v10 in
   let o13 := from_bits Float8E4M3FNS 28 in
   let v14 := get junk o13 in
   let o15 := from_bits Float8E4M3FNS 27 in
   let v16 := get junk o15 in
   let o17 := next_down Float8E4M3FNS v14 in
   let v18 := get (0, junk) o17 in
   let v19 := fst v18 in
   let v20 := snd v18 in
   let o21 := from_bits Float8E4M3FNS 29 in
   let v22 := get junk o21 in
   let o23 := from_bits Float8E4M3FNS 28 in
   let v24 := get junk o23 in
   let o25 := next_down Float8E4M3FNS v22 in
   let v26 := get (0, junk) o25 in
   let v27 := fst v26 in
   let v28 := snd v26 in
   let o29 := from_bits Float8E4M3FNS 30 in
   let v30 := get junk o29 in
   let o31 := from_bits Float8E4M3FNS 29 in
   let v32 := get junk o31 in
   let o33 := next_down Float8E4M3FNS v30 in
   let v34 := get (0, junk) o33 in
   let v35 := fst v34 in
   let v36 := snd v34 in
   let o37 := from_bits Float8E4M3FNS 31 in
   let v38 := get junk o37 in
   let o39 := from_bits Float8E4M3FNS 30 in
   let v40 := get junk o39 in
   let o41 := next_down Float8E4M3FNS v38 in
   let v42 := get (0, junk) o41 in
   let v43 := fst v42 in
   let v44 := snd v42 in
   let o45 := from_bits Float8E4M3FNS 32 in
   let v46 := get junk o45 in
   let o47 := from_bits Float8E4M3FNS 31 in
   let v48 := get junk o47 in
   let o49 := next_down Float8E4M3FNS v46 in
   let v50 := get (0, junk) o49 in
   let v51 := fst v50 in
   let v52 := snd v50 in
   let o53 := from_bits Float8E4M3FNS 33 in
   let v54 := get junk o53 in
   let o55 := from_bits Float8E4M3FNS 32 in
   let v56 := get junk o55 in
   let o57 := next_down Float8E4M3FNS v54 in
   let v58 := get (0, junk) o57 in
   let v59 := fst v58 in
   let v60 := snd v58 in
   let o61 := from_bits Float8E4M3FNS 34 in
   let v62 := get junk o61 in
   let o63 := from_bits Float8E4M3FNS 33 in
   let v64 := get junk o63 in
   let o65 := next_down Float8E4M3FNS v62 in
   let v66 := get (0, junk) o65 in
   let v67 := snd v66 in
   all_true [
      v4 =? OK;
      returns o5;
      returns o7;
      returns o9;
      bitwise_eq v12 v8;
      v11 =? OK;
      returns o13;
      returns o15;
      returns o17;
      bitwise_eq v20 v16;
      v19 =? OK;
      returns o21;
      returns o23;
      returns o25;
      bitwise_eq v28 v24;
      v27 =? OK;
      returns o29;
      returns o31;
      returns o33;
      bitwise_eq v36 v32;
      v35 =? OK;
      returns o37;
      returns o39;
      returns o41;
      bitwise_eq v44 v40;
      v43 =? OK;
      returns o45;
      returns o47;
      returns o49;
      bitwise_eq v52 v48;
      v51 =? OK;
      returns o53;
      returns o55;
      returns o57;
      bitwise_eq v60 v56;
      v59 =? OK;
      returns o61;
      returns o63;
      returns o65;
      bitwise_eq v67 v64]) = true.
Proof. vm_compute. reflexivity. Qed.

Example test_float8e4m3fn_next_37 : (
   let o0 := from_bits Float8E4M3FNS 34 in
   let v1 := get junk o0 in
   let o2 := next_down Float8E4M3FNS v1 in
   let v3 := get (0, junk) o2 in
   let v4 := fst v3 in
   let o5 := from_bits Float8E4M3FNS 35 in
   let v6 := get junk o5 in
   let o7 := from_bits Float8E4M3FNS 34 in
   let v8 := get junk o7 in
   let o9 := next_down Float8E4M3FNS v6 in
   let v10 := get (0, junk) o9 in
   let v11 := fst v10 in
   let v12 := snd v10 in
   let o13 := from_bits Float8E4M3FNS 36 in
   let v14 := get junk o13 in
   let o15 := from_bits Float8E4M3FNS 35 in
   let v16 := get junk o15 in
   let o17 := next_down Float8E4M3FNS v14 in
   let v18 := get (0, junk) o17 in
   let v19 := fst v18 in
   let v20 := snd v18 in
   let o21 := from_bits Float8E4M3FNS 37 in
   let v22 := get junk o21 in
   let o23 := from_bits Float8E4M3FNS 36 in
   let v24 := get junk o23 in
   let o25 := next_down Float8E4M3FNS v22 in
   let v26 := get (0, junk) o25 in
   let v27 := fst v26 in
   let v28 := snd v26 in
   let o29 := from_bits Float8E4M3FNS 38 in
   let v30 := get junk o29 in
   let o31 := from_bits Float8E4M3FNS 37 in
   let v32 := get junk o31 in
   let o33 := next_down Float8E4M3FNS v30 in
   let v34 := get (0, junk) o33 in
   let v35 := fst v34 in
   let v36 := snd v34 in
   let o37 := from_bits Float8E4M3FNS 39 in
   let v38 := get junk o37 in
   let o39 := from_bits Float8E4M3FNS 38 in
   let v40 := get junk o39 in
   let o41 := next_down Float8E4M3FNS v38 in
   let v42 := get (0, junk) o41 in
   let v43 := fst v42 in
   let v44 := snd v42 in
   let o45 := from_bits Float8E4M3FNS 40 in
   let v46 := get junk o45 in
   let o47 := from_bits Float8E4M3FNS 39 in
   let v48 := get junk o47 in
   let o49 := next_down Float8E4M3FNS v46 in
   let v50 := get (0, junk) o49 in
   let v51 := fst v50 in
   let v52 := snd v50 in
   let o53 := from_bits Float8E4M3FNS 41 in
   let v54 := get junk o53 in
   let o55 := from_bits Float8E4M3FNS 40 in
   let v56 := get junk o55 in
   let o57 := next_down Float8E4M3FNS v54 in
   let v58 := get (0, junk) o57 in
   let v59 := fst v58 in
   let v60 := snd v58 in
   let o61 := from_bits Float8E4M3FNS 42 in
   let v62 := get junk o61 in
   let o63 := from_bits Float8E4M3FNS 41 in
   let v64 := get junk o63 in
   let o65 := next_down Float8E4M3FNS v62 in
   let v66 := get (0, junk) o65 in
   let v67 := snd v66 in
   all_true [
      v4 =? OK;
      returns o5;
      returns o7;
      returns o9;
      bitwise_eq v12 v8;
      v11 =? OK;
      returns o13;
      returns o15;
      returns o17;
      bitwise_eq v20 v16;
      v19 =? OK;
      returns o21;
      returns o23;
      returns o25;
      bitwise_eq v28 v24;
      v27 =? OK;
      returns o29;
      returns o31;
      returns o33;
      bitwise_eq v36 v32;
      v35 =? OK;
      returns o37;
      returns o39;
      returns o41;
      bitwise_eq v44 v40;
      v43 =? OK;
      returns o45;
      returns o47;
      returns o49;
      bitwise_eq v52 v48;
      v51 =? OK;
      returns o53;
      returns o55;
      returns o57;
      bitwise_eq v60 v56;
      v59 =? OK;
      returns o61;
      returns o63;
      returns o65;
      bitwise_eq v67 v64]) = true.
Proof. vm_compute. reflexivity. Qed.

Example test_float8e4m3fn_next_38 : (
   let o0 := from_bits Float8E4M3FNS 42 in
   let v1 := get junk o0 in
   let o2 := next_down Float8E4M3FNS v1 in
   let v3 := get (0, junk) o2 in
   let v4 := fst v3 in
   let o5 := from_bits Float8E4M3FNS 43 in
   let v6 := get junk o5 in
   let o7 := from_bits Float8E4M3FNS 42 in
   let v8 := get junk o7 in
   let o9 := next_down Float8E4M3FNS v6 in
   let v10 := get (0, junk) o9 in
   let v11 := fst v10 in
   let v12 := snd v10 in
   let o13 := from_bits Float8E4M3FNS 44 in
   let v14 := get junk o13 in
   let o15 := from_bits Float8E4M3FNS 43 in
   let v16 := get junk o15 in
   let o17 := next_down Float8E4M3FNS v14 in
   let v18 := get (0, junk) o17 in
   let v19 := fst v18 in
   let v20 := snd v18 in
   let o21 := from_bits Float8E4M3FNS 45 in
   let v22 := get junk o21 in
   let o23 := from_bits Float8E4M3FNS 44 in
   let v24 := get junk o23 in
   let o25 := next_down Float8E4M3FNS v22 in
   let v26 := get (0, junk) o25 in
   let v27 := fst v26 in
   let v28 := snd v26 in
   let o29 := from_bits Float8E4M3FNS 46 in
   let v30 := get junk o29 in
   let o31 := from_bits Float8E4M3FNS 45 in
   let v32 := get junk o31 in
   let o33 := next_down Float8E4M3FNS v30 in
   let v34 := get (0, junk) o33 in
   let v35 := fst v34 in
   let v36 := snd v34 in
   let o37 := from_bits Float8E4M3FNS 47 in
   let v38 := get junk o37 in
   let o39 := from_bits Float8E4M3FNS 46 in
   let v40 := get junk o39 in
   let o41 := next_down Float8E4M3FNS v38 in
   let v42 := get (0, junk) o41 in
   let v43 := fst v42 in
   let v44 := snd v42 in
   let o45 := from_bits Float8E4M3FNS 48 in
   let v46 := get junk o45 in
   let o47 := from_bits Float8E4M3FNS 47 in
   let v48 := get junk o47 in
   let o49 := next_down Float8E4M3FNS v46 in
   let v50 := get (0, junk) o49 in
   let v51 := fst v50 in
   let v52 := snd v50 in
   let o53 := from_bits Float8E4M3FNS 49 in
   let v54 := get junk o53 in
   let o55 := from_bits Float8E4M3FNS 48 in
   let v56 := get junk o55 in
   let o57 := next_down Float8E4M3FNS v54 in
   let v58 := get (0, junk) o57 in
   let v59 := fst v58 in
   let v60 := snd v58 in
   let o61 := from_bits Float8E4M3FNS 50 in
   let v62 := get junk o61 in
   let o63 := from_bits Float8E4M3FNS 49 in
   let v64 := get junk o63 in
   let o65 := next_down Float8E4M3FNS v62 in
   let v66 := get (0, junk) o65 in
   let v67 := snd v66 in
   all_true [
      v4 =? OK;
      returns o5;
      returns o7;
      returns o9;
      bitwise_eq v12 v8;
      v11 =? OK;
      returns o13;
      returns o15;
      returns o17;
      bitwise_eq v20 v16;
      v19 =? OK;
      returns o21;
      returns o23;
      returns o25;
      bitwise_eq v28 v24;
      v27 =? OK;
      returns o29;
      returns o31;
      returns o33;
      bitwise_eq v36 v32;
      v35 =? OK;
      returns o37;
      returns o39;
      returns o41;
      bitwise_eq v44 v40;
      v43 =? OK;
      returns o45;
      returns o47;
      returns o49;
      bitwise_eq v52 v48;
      v51 =? OK;
      returns o53;
      returns o55;
      returns o57;
      bitwise_eq v60 v56;
      v59 =? OK;
      returns o61;
      returns o63;
      returns o65;
      bitwise_eq v67 v64]) = true.
Proof. vm_compute. reflexivity. Qed.

Example test_float8e4m3fn_next_39 : (
   let o0 := from_bits Float8E4M3FNS 50 in
   let v1 := get junk o0 in
   let o2 := next_down Float8E4M3FNS v1 in
   let v3 := get (0, junk) o2 in
   let v4 := fst v3 in
   let o5 := from_bits Float8E4M3FNS 51 in
   let v6 := get junk o5 in
   let o7 := from_bits Float8E4M3FNS 50 in
   let v8 := get junk o7 in
   let o9 := next_down Float8E4M3FNS v6 in
   let v10 := get (0, junk) o9 in
   let v11 := fst v10 in
   let v12 := snd v10 in
   let o13 := from_bits Float8E4M3FNS 52 in
   let v14 := get junk o13 in
   let o15 := from_bits Float8E4M3FNS 51 in
   let v16 := get junk o15 in
   let o17 := next_down Float8E4M3FNS v14 in
   let v18 := get (0, junk) o17 in
   let v19 := fst v18 in
   let v20 := snd v18 in
   let o21 := from_bits Float8E4M3FNS 53 in
   let v22 := get junk o21 in
   let o23 := from_bits Float8E4M3FNS 52 in
   let v24 := get junk o23 in
   let o25 := next_down Float8E4M3FNS v22 in
   let v26 := get (0, junk) o25 in
   let v27 := fst v26 in
   let v28 := snd v26 in
   let o29 := from_bits Float8E4M3FNS 54 in
   let v30 := get junk o29 in
   let o31 := from_bits Float8E4M3FNS 53 in
   let v32 := get junk o31 in
   let o33 := next_down Float8E4M3FNS v30 in
   let v34 := get (0, junk) o33 in
   let v35 := fst v34 in
   let v36 := snd v34 in
   let o37 := from_bits Float8E4M3FNS 55 in
   let v38 := get junk o37 in
   let o39 := from_bits Float8E4M3FNS 54 in
   let v40 := get junk o39 in
   let o41 := next_down Float8E4M3FNS v38 in
   let v42 := get (0, junk) o41 in
   let v43 := fst v42 in
   let v44 := snd v42 in
   let o45 := from_bits Float8E4M3FNS 56 in
   let v46 := get junk o45 in
   let o47 := from_bits Float8E4M3FNS 55 in
   let v48 := get junk o47 in
   let o49 := next_down Float8E4M3FNS v46 in
   let v50 := get (0, junk) o49 in
   let v51 := fst v50 in
   let v52 := snd v50 in
   let o53 := from_bits Float8E4M3FNS 57 in
   let v54 := get junk o53 in
   let o55 := from_bits Float8E4M3FNS 56 in
   let v56 := get junk o55 in
   let o57 := next_down Float8E4M3FNS v54 in
   let v58 := get (0, junk) o57 in
   let v59 := fst v58 in
   let v60 := snd v58 in
   let o61 := from_bits Float8E4M3FNS 58 in
   let v62 := get junk o61 in
   let o63 := from_bits Float8E4M3FNS 57 in
   let v64 := get junk o63 in
   let o65 := next_down Float8E4M3FNS v62 in
   let v66 := get (0, junk) o65 in
   let v67 := snd v66 in
   all_true [
      v4 =? OK;
      returns o5;
      returns o7;
      returns o9;
      bitwise_eq v12 v8;
      v11 =? OK;
      returns o13;
      returns o15;
      returns o17;
      bitwise_eq v20 v16;
      v19 =? OK;
      returns o21;
      returns o23;
      returns o25;
      bitwise_eq v28 v24;
      v27 =? OK;
      returns o29;
      returns o31;
      returns o33;
      bitwise_eq v36 v32;
      v35 =? OK;
      returns o37;
      returns o39;
      returns o41;
      bitwise_eq v44 v40;
      v43 =? OK;
      returns o45;
      returns o47;
      returns o49;
      bitwise_eq v52 v48;
      v51 =? OK;
      returns o53;
      returns o55;
      returns o57;
      bitwise_eq v60 v56;
      v59 =? OK;
      returns o61;
      returns o63;
      returns o65;
      bitwise_eq v67 v64]) = true.
Proof. vm_compute. reflexivity. Qed.

Example test_float8e4m3fn_next_40 : (
   let o0 := from_bits Float8E4M3FNS 58 in
   let v1 := get junk o0 in
   let o2 := next_down Float8E4M3FNS v1 in
   let v3 := get (0, junk) o2 in
   let v4 := fst v3 in
   let o5 := from_bits Float8E4M3FNS 59 in
   let v6 := get junk o5 in
   let o7 := from_bits Float8E4M3FNS 58 in
   let v8 := get junk o7 in
   let o9 := next_down Float8E4M3FNS v6 in
   let v10 := get (0, junk) o9 in
   let v11 := fst v10 in
   let v12 := snd v10 in
   let o13 := from_bits Float8E4M3FNS 60 in
   let v14 := get junk o13 in
   let o15 := from_bits Float8E4M3FNS 59 in
   let v16 := get junk o15 in
   let o17 := next_down Float8E4M3FNS v14 in
   let v18 := get (0, junk) o17 in
   let v19 := fst v18 in
   let v20 := snd v18 in
   let o21 := from_bits Float8E4M3FNS 61 in
   let v22 := get junk o21 in
   let o23 := from_bits Float8E4M3FNS 60 in
   let v24 := get junk o23 in
   let o25 := next_down Float8E4M3FNS v22 in
   let v26 := get (0, junk) o25 in
   let v27 := fst v26 in
   let v28 := snd v26 in
   let o29 := from_bits Float8E4M3FNS 62 in
   let v30 := get junk o29 in
   let o31 := from_bits Float8E4M3FNS 61 in
   let v32 := get junk o31 in
   let o33 := next_down Float8E4M3FNS v30 in
   let v34 := get (0, junk) o33 in
   let v35 := fst v34 in
   let v36 := snd v34 in
   let o37 := from_bits Float8E4M3FNS 63 in
   let v38 := get junk o37 in
   let o39 := from_bits Float8E4M3FNS 62 in
   let v40 := get junk o39 in
   let o41 := next_down Float8E4M3FNS v38 in
   let v42 := get (0, junk) o41 in
   let v43 := fst v42 in
   let v44 := snd v42 in
   let o45 := from_bits Float8E4M3FNS 64 in
   let v46 := get junk o45 in
   let o47 := from_bits Float8E4M3FNS 63 in
   let v48 := get junk o47 in
   let o49 := next_down Float8E4M3FNS v46 in
   let v50 := get (0, junk) o49 in
   let v51 := fst v50 in
   let v52 := snd v50 in
   let o53 := from_bits Float8E4M3FNS 65 in
   let v54 := get junk o53 in
   let o55 := from_bits Float8E4M3FNS 64 in
   let v56 := get junk o55 in
   let o57 := next_down Float8E4M3FNS v54 in
   let v58 := get (0, junk) o57 in
   let v59 := fst v58 in
   let v60 := snd v58 in
   let o61 := from_bits Float8E4M3FNS 66 in
   let v62 := get junk o61 in
   let o63 := from_bits Float8E4M3FNS 65 in
   let v64 := get junk o63 in
   let o65 := next_down Float8E4M3FNS v62 in
   let v66 := get (0, junk) o65 in
   let v67 := snd v66 in
   all_true [
      v4 =? OK;
      returns o5;
      returns o7;
      returns o9;
      bitwise_eq v12 v8;
      v11 =? OK;
      returns o13;
      returns o15;
      returns o17;
      bitwise_eq v20 v16;
      v19 =? OK;
      returns o21;
      returns o23;
      returns o25;
      bitwise_eq v28 v24;
      v27 =? OK;
      returns o29;
      returns o31;
      returns o33;
      bitwise_eq v36 v32;
      v35 =? OK;
      returns o37;
      returns o39;
      returns o41;
      bitwise_eq v44 v40;
      v43 =? OK;
      returns o45;
      returns o47;
      returns o49;
      bitwise_eq v52 v48;
      v51 =? OK;
      returns o53;
      returns o55;
      returns o57;
      bitwise_eq v60 v56;
      v59 =? OK;
      returns o61;
      returns o63;
      returns o65;
      bitwise_eq v67 v64]) = true.
Proof. vm_compute. reflexivity. Qed.

Example test_float8e4m3fn_next_41 : (
   let o0 := from_bits Float8E4M3FNS 66 in
   let v1 := get junk o0 in
   let o2 := next_down Float8E4M3FNS v1 in
   let v3 := get (0, junk) o2 in
   let v4 := fst v3 in
   let o5 := from_bits Float8E4M3FNS 67 in
   let v6 := get junk o5 in
   let o7 := from_bits Float8E4M3FNS 66 in
   let v8 := get junk o7 in
   let o9 := next_down Float8E4M3FNS v6 in
   let v10 := get (0, junk) o9 in
   let v11 := fst v10 in
   let v12 := snd v10 in
   let o13 := from_bits Float8E4M3FNS 68 in
   let v14 := get junk o13 in
   let o15 := from_bits Float8E4M3FNS 67 in
   let v16 := get junk o15 in
   let o17 := next_down Float8E4M3FNS v14 in
   let v18 := get (0, junk) o17 in
   let v19 := fst v18 in
   let v20 := snd v18 in
   let o21 := from_bits Float8E4M3FNS 69 in
   let v22 := get junk o21 in
   let o23 := from_bits Float8E4M3FNS 68 in
   let v24 := get junk o23 in
   let o25 := next_down Float8E4M3FNS v22 in
   let v26 := get (0, junk) o25 in
   let v27 := fst v26 in
   let v28 := snd v26 in
   let o29 := from_bits Float8E4M3FNS 70 in
   let v30 := get junk o29 in
   let o31 := from_bits Float8E4M3FNS 69 in
   let v32 := get junk o31 in
   let o33 := next_down Float8E4M3FNS v30 in
   let v34 := get (0, junk) o33 in
   let v35 := fst v34 in
   let v36 := snd v34 in
   let o37 := from_bits Float8E4M3FNS 71 in
   let v38 := get junk o37 in
   let o39 := from_bits Float8E4M3FNS 70 in
   let v40 := get junk o39 in
   let o41 := next_down Float8E4M3FNS v38 in
   let v42 := get (0, junk) o41 in
   let v43 := fst v42 in
   let v44 := snd v42 in
   let o45 := from_bits Float8E4M3FNS 72 in
   let v46 := get junk o45 in
   let o47 := from_bits Float8E4M3FNS 71 in
   let v48 := get junk o47 in
   let o49 := next_down Float8E4M3FNS v46 in
   let v50 := get (0, junk) o49 in
   let v51 := fst v50 in
   let v52 := snd v50 in
   let o53 := from_bits Float8E4M3FNS 73 in
   let v54 := get junk o53 in
   let o55 := from_bits Float8E4M3FNS 72 in
   let v56 := get junk o55 in
   let o57 := next_down Float8E4M3FNS v54 in
   let v58 := get (0, junk) o57 in
   let v59 := fst v58 in
   let v60 := snd v58 in
   let o61 := from_bits Float8E4M3FNS 74 in
   let v62 := get junk o61 in
   let o63 := from_bits Float8E4M3FNS 73 in
   let v64 := get junk o63 in
   let o65 := next_down Float8E4M3FNS v62 in
   let v66 := get (0, junk) o65 in
   let v67 := snd v66 in
   all_true [
      v4 =? OK;
      returns o5;
      returns o7;
      returns o9;
      bitwise_eq v12 v8;
      v11 =? OK;
      returns o13;
      returns o15;
      returns o17;
      bitwise_eq v20 v16;
      v19 =? OK;
      returns o21;
      returns o23;
      returns o25;
      bitwise_eq v28 v24;
      v27 =? OK;
      returns o29;
      returns o31;
      returns o33;
      bitwise_eq v36 v32;
      v35 =? OK;
      returns o37;
      returns o39;
      returns o41;
      bitwise_eq v44 v40;
      v43 =? OK;
      returns o45;
      returns o47;
      returns o49;
      bitwise_eq v52 v48;
      v51 =? OK;
      returns o53;
      returns o55;
      returns o57;
      bitwise_eq v60 v56;
      v59 =? OK;
      returns o61;
      returns o63;
      returns o65;
      bitwise_eq v67 v64]) = true.
Proof. vm_compute. reflexivity. Qed.

Example test_float8e4m3fn_next_42 : (
   let o0 := from_bits Float8E4M3FNS 74 in
   let v1 := get junk o0 in
   let o2 := next_down Float8E4M3FNS v1 in
   let v3 := get (0, junk) o2 in
   let v4 := fst v3 in
   let o5 := from_bits Float8E4M3FNS 75 in
   let v6 := get junk o5 in
   let o7 := from_bits Float8E4M3FNS 74 in
   let v8 := get junk o7 in
   let o9 := next_down Float8E4M3FNS v6 in
   let v10 := get (0, junk) o9 in
   let v11 := fst v10 in
   let v12 := snd v10 in
   let o13 := from_bits Float8E4M3FNS 76 in
   let v14 := get junk o13 in
   let o15 := from_bits Float8E4M3FNS 75 in
   let v16 := get junk o15 in
   let o17 := next_down Float8E4M3FNS v14 in
   let v18 := get (0, junk) o17 in
   let v19 := fst v18 in
   let v20 := snd v18 in
   let o21 := from_bits Float8E4M3FNS 77 in
   let v22 := get junk o21 in
   let o23 := from_bits Float8E4M3FNS 76 in
   let v24 := get junk o23 in
   let o25 := next_down Float8E4M3FNS v22 in
   let v26 := get (0, junk) o25 in
   let v27 := fst v26 in
   let v28 := snd v26 in
   let o29 := from_bits Float8E4M3FNS 78 in
   let v30 := get junk o29 in
   let o31 := from_bits Float8E4M3FNS 77 in
   let v32 := get junk o31 in
   let o33 := next_down Float8E4M3FNS v30 in
   let v34 := get (0, junk) o33 in
   let v35 := fst v34 in
   let v36 := snd v34 in
   let o37 := from_bits Float8E4M3FNS 79 in
   let v38 := get junk o37 in
   let o39 := from_bits Float8E4M3FNS 78 in
   let v40 := get junk o39 in
   let o41 := next_down Float8E4M3FNS v38 in
   let v42 := get (0, junk) o41 in
   let v43 := fst v42 in
   let v44 := snd v42 in
   let o45 := from_bits Float8E4M3FNS 80 in
   let v46 := get junk o45 in
   let o47 := from_bits Float8E4M3FNS 79 in
   let v48 := get junk o47 in
   let o49 := next_down Float8E4M3FNS v46 in
   let v50 := get (0, junk) o49 in
   let v51 := fst v50 in
   let v52 := snd v50 in
   let o53 := from_bits Float8E4M3FNS 81 in
   let v54 := get junk o53 in
   let o55 := from_bits Float8E4M3FNS 80 in
   let v56 := get junk o55 in
   let o57 := next_down Float8E4M3FNS v54 in
   let v58 := get (0, junk) o57 in
   let v59 := fst v58 in
   let v60 := snd v58 in
   let o61 := from_bits Float8E4M3FNS 82 in
   let v62 := get junk o61 in
   let o63 := from_bits Float8E4M3FNS 81 in
   let v64 := get junk o63 in
   let o65 := next_down Float8E4M3FNS v62 in
   let v66 := get (0, junk) o65 in
   let v67 := snd v66 in
   all_true [
      v4 =? OK;
      returns o5;
      returns o7;
      returns o9;
      bitwise_eq v12 v8;
      v11 =? OK;
      returns o13;
      returns o15;
      returns o17;
      bitwise_eq v20 v16;
      v19 =? OK;
      returns o21;
      returns o23;
      returns o25;
      bitwise_eq v28 v24;
      v27 =? OK;
      returns o29;
      returns o31;
      returns o33;
      bitwise_eq v36 v32;
      v35 =? OK;
      returns o37;
      returns o39;
      returns o41;
      bitwise_eq v44 v40;
      v43 =? OK;
      returns o45;
      returns o47;
      returns o49;
      bitwise_eq v52 v48;
      v51 =? OK;
      returns o53;
      returns o55;
      returns o57;
      bitwise_eq v60 v56;
      v59 =? OK;
      returns o61;
      returns o63;
      returns o65;
      bitwise_eq v67 v64]) = true.
Proof. vm_compute. reflexivity. Qed.

Example test_float8e4m3fn_next_43 : (
   let o0 := from_bits Float8E4M3FNS 82 in
   let v1 := get junk o0 in
   let o2 := next_down Float8E4M3FNS v1 in
   let v3 := get (0, junk) o2 in
   let v4 := fst v3 in
   let o5 := from_bits Float8E4M3FNS 83 in
   let v6 := get junk o5 in
   let o7 := from_bits Float8E4M3FNS 82 in
   let v8 := get junk o7 in
   let o9 := next_down Float8E4M3FNS v6 in
   let v10 := get (0, junk) o9 in
   let v11 := fst v10 in
   let v12 := snd v10 in
   let o13 := from_bits Float8E4M3FNS 84 in
   let v14 := get junk o13 in
   let o15 := from_bits Float8E4M3FNS 83 in
   let v16 := get junk o15 in
   let o17 := next_down Float8E4M3FNS v14 in
   let v18 := get (0, junk) o17 in
   let v19 := fst v18 in
   let v20 := snd v18 in
   let o21 := from_bits Float8E4M3FNS 85 in
   let v22 := get junk o21 in
   let o23 := from_bits Float8E4M3FNS 84 in
   let v24 := get junk o23 in
   let o25 := next_down Float8E4M3FNS v22 in
   let v26 := get (0, junk) o25 in
   let v27 := fst v26 in
   let v28 := snd v26 in
   let o29 := from_bits Float8E4M3FNS 86 in
   let v30 := get junk o29 in
   let o31 := from_bits Float8E4M3FNS 85 in
   let v32 := get junk o31 in
   let o33 := next_down Float8E4M3FNS v30 in
   let v34 := get (0, junk) o33 in
   let v35 := fst v34 in
   let v36 := snd v34 in
   let o37 := from_bits Float8E4M3FNS 87 in
   let v38 := get junk o37 in
   let o39 := from_bits Float8E4M3FNS 86 in
   let v40 := get junk o39 in
   let o41 := next_down Float8E4M3FNS v38 in
   let v42 := get (0, junk) o41 in
   let v43 := fst v42 in
   let v44 := snd v42 in
   let o45 := from_bits Float8E4M3FNS 88 in
   let v46 := get junk o45 in
   let o47 := from_bits Float8E4M3FNS 87 in
   let v48 := get junk o47 in
   let o49 := next_down Float8E4M3FNS v46 in
   let v50 := get (0, junk) o49 in
   let v51 := fst v50 in
   let v52 := snd v50 in
   let o53 := from_bits Float8E4M3FNS 89 in
   let v54 := get junk o53 in
   let o55 := from_bits Float8E4M3FNS 88 in
   let v56 := get junk o55 in
   let o57 := next_down Float8E4M3FNS v54 in
   let v58 := get (0, junk) o57 in
   let v59 := fst v58 in
   let v60 := snd v58 in
   let o61 := from_bits Float8E4M3FNS 90 in
   let v62 := get junk o61 in
   let o63 := from_bits Float8E4M3FNS 89 in
   let v64 := get junk o63 in
   let o65 := next_down Float8E4M3FNS v62 in
   let v66 := get (0, junk) o65 in
   let v67 := snd v66 in
   all_true [
      v4 =? OK;
      returns o5;
      returns o7;
      returns o9;
      bitwise_eq v12 v8;
      v11 =? OK;
      returns o13;
      returns o15;
      returns o17;
      bitwise_eq v20 v16;
      v19 =? OK;
      returns o21;
      returns o23;
      returns o25;
      bitwise_eq v28 v24;
      v27 =? OK;
      returns o29;
      returns o31;
      returns o33;
      bitwise_eq v36 v32;
      v35 =? OK;
      returns o37;
      returns o39;
      returns o41;
      bitwise_eq v44 v40;
      v43 =? OK;
      returns o45;
      returns o47;
      returns o49;
      bitwise_eq v52 v48;
      v51 =? OK;
      returns o53;
      returns o55;
      returns o57;
      bitwise_eq v60 v56;
      v59 =? OK;
      returns o61;
      returns o63;
      returns o65;
      bitwise_eq v67 v64]) = true.
Proof. vm_compute. reflexivity. Qed.

Example test_float8e4m3fn_next_44 : (
   let o0 := from_bits Float8E4M3FNS 90 in
   let v1 := get junk o0 in
   let o2 := next_down Float8E4M3FNS v1 in
   let v3 := get (0, junk) o2 in
   let v4 := fst v3 in
   let o5 := from_bits Float8E4M3FNS 91 in
   let v6 := get junk o5 in
   let o7 := from_bits Float8E4M3FNS 90 in
   let v8 := get junk o7 in
   let o9 := next_down Float8E4M3FNS v6 in
   let v10 := get (0, junk) o9 in
   let v11 := fst v10 in
   let v12 := snd v10 in
   let o13 := from_bits Float8E4M3FNS 92 in
   let v14 := get junk o13 in
   let o15 := from_bits Float8E4M3FNS 91 in
   let v16 := get junk o15 in
   let o17 := next_down Float8E4M3FNS v14 in
   let v18 := get (0, junk) o17 in
   let v19 := fst v18 in
   let v20 := snd v18 in
   let o21 := from_bits Float8E4M3FNS 93 in
   let v22 := get junk o21 in
   let o23 := from_bits Float8E4M3FNS 92 in
   let v24 := get junk o23 in
   let o25 := next_down Float8E4M3FNS v22 in
   let v26 := get (0, junk) o25 in
   let v27 := fst v26 in
   let v28 := snd v26 in
   let o29 := from_bits Float8E4M3FNS 94 in
   let v30 := get junk o29 in
   let o31 := from_bits Float8E4M3FNS 93 in
   let v32 := get junk o31 in
   let o33 := next_down Float8E4M3FNS v30 in
   let v34 := get (0, junk) o33 in
   let v35 := fst v34 in
   let v36 := snd v34 in
   let o37 := from_bits Float8E4M3FNS 95 in
   let v38 := get junk o37 in
   let o39 := from_bits Float8E4M3FNS 94 in
   let v40 := get junk o39 in
   let o41 := next_down Float8E4M3FNS v38 in
   let v42 := get (0, junk) o41 in
   let v43 := fst v42 in
   let v44 := snd v42 in
   let o45 := from_bits Float8E4M3FNS 96 in
   let v46 := get junk o45 in
   let o47 := from_bits Float8E4M3FNS 95 in
   let v48 := get junk o47 in
   let o49 := next_down Float8E4M3FNS v46 in
   let v50 := get (0, junk) o49 in
   let v51 := fst v50 in
   let v52 := snd v50 in
   let o53 := from_bits Float8E4M3FNS 97 in
   let v54 := get junk o53 in
   let o55 := from_bits Float8E4M3FNS 96 in
   let v56 := get junk o55 in
   let o57 := next_down Float8E4M3FNS v54 in
   let v58 := get (0, junk) o57 in
   let v59 := fst v58 in
   let v60 := snd v58 in
   let o61 := from_bits Float8E4M3FNS 98 in
   let v62 := get junk o61 in
   let o63 := from_bits Float8E4M3FNS 97 in
   let v64 := get junk o63 in
   let o65 := next_down Float8E4M3FNS v62 in
   let v66 := get (0, junk) o65 in
   let v67 := snd v66 in
   all_true [
      v4 =? OK;
      returns o5;
      returns o7;
      returns o9;
      bitwise_eq v12 v8;
      v11 =? OK;
      returns o13;
      returns o15;
      returns o17;
      bitwise_eq v20 v16;
      v19 =? OK;
      returns o21;
      returns o23;
      returns o25;
      bitwise_eq v28 v24;
      v27 =? OK;
      returns o29;
      returns o31;
      returns o33;
      bitwise_eq v36 v32;
      v35 =? OK;
      returns o37;
      returns o39;
      returns o41;
      bitwise_eq v44 v40;
      v43 =? OK;
      returns o45;
      returns o47;
      returns o49;
      bitwise_eq v52 v48;
      v51 =? OK;
      returns o53;
      returns o55;
      returns o57;
      bitwise_eq v60 v56;
      v59 =? OK;
      returns o61;
      returns o63;
      returns o65;
      bitwise_eq v67 v64]) = true.
Proof. vm_compute. reflexivity. Qed.

Example test_float8e4m3fn_next_45 : (
   let o0 := from_bits Float8E4M3FNS 98 in
   let v1 := get junk o0 in
   let o2 := next_down Float8E4M3FNS v1 in
   let v3 := get (0, junk) o2 in
   let v4 := fst v3 in
   let o5 := from_bits Float8E4M3FNS 99 in
   let v6 := get junk o5 in
   let o7 := from_bits Float8E4M3FNS 98 in
   let v8 := get junk o7 in
   let o9 := next_down Float8E4M3FNS v6 in
   let v10 := get (0, junk) o9 in
   let v11 := fst v10 in
   let v12 := snd v10 in
   let o13 := from_bits Float8E4M3FNS 100 in
   let v14 := get junk o13 in
   let o15 := from_bits Float8E4M3FNS 99 in
   let v16 := get junk o15 in
   let o17 := next_down Float8E4M3FNS v14 in
   let v18 := get (0, junk) o17 in
   let v19 := fst v18 in
   let v20 := snd v18 in
   let o21 := from_bits Float8E4M3FNS 101 in
   let v22 := get junk o21 in
   let o23 := from_bits Float8E4M3FNS 100 in
   let v24 := get junk o23 in
   let o25 := next_down Float8E4M3FNS v22 in
   let v26 := get (0, junk) o25 in
   let v27 := fst v26 in
   let v28 := snd v26 in
   let o29 := from_bits Float8E4M3FNS 102 in
   let v30 := get junk o29 in
   let o31 := from_bits Float8E4M3FNS 101 in
   let v32 := get junk o31 in
   let o33 := next_down Float8E4M3FNS v30 in
   let v34 := get (0, junk) o33 in
   let v35 := fst v34 in
   let v36 := snd v34 in
   let o37 := from_bits Float8E4M3FNS 103 in
   let v38 := get junk o37 in
   let o39 := from_bits Float8E4M3FNS 102 in
   let v40 := get junk o39 in
   let o41 := next_down Float8E4M3FNS v38 in
   let v42 := get (0, junk) o41 in
   let v43 := fst v42 in
   let v44 := snd v42 in
   let o45 := from_bits Float8E4M3FNS 104 in
   let v46 := get junk o45 in
   let o47 := from_bits Float8E4M3FNS 103 in
   let v48 := get junk o47 in
   let o49 := next_down Float8E4M3FNS v46 in
   let v50 := get (0, junk) o49 in
   let v51 := fst v50 in
   let v52 := snd v50 in
   let o53 := from_bits Float8E4M3FNS 105 in
   let v54 := get junk o53 in
   let o55 := from_bits Float8E4M3FNS 104 in
   let v56 := get junk o55 in
   let o57 := next_down Float8E4M3FNS v54 in
   let v58 := get (0, junk) o57 in
   let v59 := fst v58 in
   let v60 := snd v58 in
   let o61 := from_bits Float8E4M3FNS 106 in
   let v62 := get junk o61 in
   let o63 := from_bits Float8E4M3FNS 105 in
   let v64 := get junk o63 in
   let o65 := next_down Float8E4M3FNS v62 in
   let v66 := get (0, junk) o65 in
   let v67 := snd v66 in
   all_true [
      v4 =? OK;
      returns o5;
      returns o7;
      returns o9;
      bitwise_eq v12 v8;
      v11 =? OK;
      returns o13;
      returns o15;
      returns o17;
      bitwise_eq v20 v16;
      v19 =? OK;
      returns o21;
      returns o23;
      returns o25;
      bitwise_eq v28 v24;
      v27 =? OK;
      returns o29;
      returns o31;
      returns o33;
      bitwise_eq v36 v32;
      v35 =? OK;
      returns o37;
      returns o39;
      returns o41;
      bitwise_eq v44 v40;
      v43 =? OK;
      returns o45;
      returns o47;
      returns o49;
      bitwise_eq v52 v48;
      v51 =? OK;
      returns o53;
      returns o55;
      returns o57;
      bitwise_eq v60 v56;
      v59 =? OK;
      returns o61;
      returns o63;
      returns o65;
      bitwise_eq v67 v64]) = true.
Proof. vm_compute. reflexivity. Qed.

Example test_float8e4m3fn_next_46 : (
   let o0 := from_bits Float8E4M3FNS 106 in
   let v1 := get junk o0 in
   let o2 := next_down Float8E4M3FNS v1 in
   let v3 := get (0, junk) o2 in
   let v4 := fst v3 in
   let o5 := from_bits Float8E4M3FNS 107 in
   let v6 := get junk o5 in
   let o7 := from_bits Float8E4M3FNS 106 in
   let v8 := get junk o7 in
   let o9 := next_down Float8E4M3FNS v6 in
   let v10 := get (0, junk) o9 in
   let v11 := fst v10 in
   let v12 := snd v10 in
   let o13 := from_bits Float8E4M3FNS 108 in
   let v14 := get junk o13 in
   let o15 := from_bits Float8E4M3FNS 107 in
   let v16 := get junk o15 in
   let o17 := next_down Float8E4M3FNS v14 in
   let v18 := get (0, junk) o17 in
   let v19 := fst v18 in
   let v20 := snd v18 in
   let o21 := from_bits Float8E4M3FNS 109 in
   let v22 := get junk o21 in
   let o23 := from_bits Float8E4M3FNS 108 in
   let v24 := get junk o23 in
   let o25 := next_down Float8E4M3FNS v22 in
   let v26 := get (0, junk) o25 in
   let v27 := fst v26 in
   let v28 := snd v26 in
   let o29 := from_bits Float8E4M3FNS 110 in
   let v30 := get junk o29 in
   let o31 := from_bits Float8E4M3FNS 109 in
   let v32 := get junk o31 in
   let o33 := next_down Float8E4M3FNS v30 in
   let v34 := get (0, junk) o33 in
   let v35 := fst v34 in
   let v36 := snd v34 in
   let o37 := from_bits Float8E4M3FNS 111 in
   let v38 := get junk o37 in
   let o39 := from_bits Float8E4M3FNS 110 in
   let v40 := get junk o39 in
   let o41 := next_down Float8E4M3FNS v38 in
   let v42 := get (0, junk) o41 in
   let v43 := fst v42 in
   let v44 := snd v42 in
   let o45 := from_bits Float8E4M3FNS 112 in
   let v46 := get junk o45 in
   let o47 := from_bits Float8E4M3FNS 111 in
   let v48 := get junk o47 in
   let o49 := next_down Float8E4M3FNS v46 in
   let v50 := get (0, junk) o49 in
   let v51 := fst v50 in
   let v52 := snd v50 in
   let o53 := from_bits Float8E4M3FNS 113 in
   let v54 := get junk o53 in
   let o55 := from_bits Float8E4M3FNS 112 in
   let v56 := get junk o55 in
   let o57 := next_down Float8E4M3FNS v54 in
   let v58 := get (0, junk) o57 in
   let v59 := fst v58 in
   let v60 := snd v58 in
   let o61 := from_bits Float8E4M3FNS 114 in
   let v62 := get junk o61 in
   let o63 := from_bits Float8E4M3FNS 113 in
   let v64 := get junk o63 in
   let o65 := next_down Float8E4M3FNS v62 in
   let v66 := get (0, junk) o65 in
   let v67 := snd v66 in
   all_true [
      v4 =? OK;
      returns o5;
      returns o7;
      returns o9;
      bitwise_eq v12 v8;
      v11 =? OK;
      returns o13;
      returns o15;
      returns o17;
      bitwise_eq v20 v16;
      v19 =? OK;
      returns o21;
      returns o23;
      returns o25;
      bitwise_eq v28 v24;
      v27 =? OK;
      returns o29;
      returns o31;
      returns o33;
      bitwise_eq v36 v32;
      v35 =? OK;
      returns o37;
      returns o39;
      returns o41;
      bitwise_eq v44 v40;
      v43 =? OK;
      returns o45;
      returns o47;
      returns o49;
      bitwise_eq v52 v48;
      v51 =? OK;
      returns o53;
      returns o55;
      returns o57;
      bitwise_eq v60 v56;
      v59 =? OK;
      returns o61;
      returns o63;
      returns o65;
      bitwise_eq v67 v64]) = true.
Proof. vm_compute. reflexivity. Qed.

Example test_float8e4m3fn_next_47 : (
   let o0 := from_bits Float8E4M3FNS 114 in
   let v1 := get junk o0 in
   let o2 := next_down Float8E4M3FNS v1 in
   let v3 := get (0, junk) o2 in
   let v4 := fst v3 in
   let o5 := from_bits Float8E4M3FNS 115 in
   let v6 := get junk o5 in
   let o7 := from_bits Float8E4M3FNS 114 in
   let v8 := get junk o7 in
   let o9 := next_down Float8E4M3FNS v6 in
   let v10 := get (0, junk) o9 in
   let v11 := fst v10 in
   let v12 := snd v10 in
   let o13 := from_bits Float8E4M3FNS 116 in
   let v14 := get junk o13 in
   let o15 := from_bits Float8E4M3FNS 115 in
   let v16 := get junk o15 in
   let o17 := next_down Float8E4M3FNS v14 in
   let v18 := get (0, junk) o17 in
   let v19 := fst v18 in
   let v20 := snd v18 in
   let o21 := from_bits Float8E4M3FNS 117 in
   let v22 := get junk o21 in
   let o23 := from_bits Float8E4M3FNS 116 in
   let v24 := get junk o23 in
   let o25 := next_down Float8E4M3FNS v22 in
   let v26 := get (0, junk) o25 in
   let v27 := fst v26 in
   let v28 := snd v26 in
   let o29 := from_bits Float8E4M3FNS 118 in
   let v30 := get junk o29 in
   let o31 := from_bits Float8E4M3FNS 117 in
   let v32 := get junk o31 in
   let o33 := next_down Float8E4M3FNS v30 in
   let v34 := get (0, junk) o33 in
   let v35 := fst v34 in
   let v36 := snd v34 in
   let o37 := from_bits Float8E4M3FNS 119 in
   let v38 := get junk o37 in
   let o39 := from_bits Float8E4M3FNS 118 in
   let v40 := get junk o39 in
   let o41 := next_down Float8E4M3FNS v38 in
   let v42 := get (0, junk) o41 in
   let v43 := fst v42 in
   let v44 := snd v42 in
   let o45 := from_bits Float8E4M3FNS 120 in
   let v46 := get junk o45 in
   let o47 := from_bits Float8E4M3FNS 119 in
   let v48 := get junk o47 in
   let o49 := next_down Float8E4M3FNS v46 in
   let v50 := get (0, junk) o49 in
   let v51 := fst v50 in
   let v52 := snd v50 in
   let o53 := from_bits Float8E4M3FNS 121 in
   let v54 := get junk o53 in
   let o55 := from_bits Float8E4M3FNS 120 in
   let v56 := get junk o55 in
   let o57 := next_down Float8E4M3FNS v54 in
   let v58 := get (0, junk) o57 in
   let v59 := fst v58 in
   let v60 := snd v58 in
   let o61 := from_bits Float8E4M3FNS 122 in
   let v62 := get junk o61 in
   let o63 := from_bits Float8E4M3FNS 121 in
   let v64 := get junk o63 in
   let o65 := next_down Float8E4M3FNS v62 in
   let v66 := get (0, junk) o65 in
   let v67 := snd v66 in
   all_true [
      v4 =? OK;
      returns o5;
      returns o7;
      returns o9;
      bitwise_eq v12 v8;
      v11 =? OK;
      returns o13;
      returns o15;
      returns o17;
      bitwise_eq v20 v16;
      v19 =? OK;
      returns o21;
      returns o23;
      returns o25;
      bitwise_eq v28 v24;
      v27 =? OK;
      returns o29;
      returns o31;
      returns o33;
      bitwise_eq v36 v32;
      v35 =? OK;
      returns o37;
      returns o39;
      returns o41;
      bitwise_eq v44 v40;
      v43 =? OK;
      returns o45;
      returns o47;
      returns o49;
      bitwise_eq v52 v48;
      v51 =? OK;
      returns o53;
      returns o55;
      returns o57;
      bitwise_eq v60 v56;
      v59 =? OK;
      returns o61;
      returns o63;
      returns o65;
      bitwise_eq v67 v64]) = true.
Proof. vm_compute. reflexivity. Qed.

Example test_float8e4m3fn_next_48 : (
   let o0 := from_bits Float8E4M3FNS 122 in
   let v1 := get junk o0 in
   let o2 := next_down Float8E4M3FNS v1 in
   let v3 := get (0, junk) o2 in
   let v4 := fst v3 in
   let o5 := from_bits Float8E4M3FNS 123 in
   let v6 := get junk o5 in
   let o7 := from_bits Float8E4M3FNS 122 in
   let v8 := get junk o7 in
   let o9 := next_down Float8E4M3FNS v6 in
   let v10 := get (0, junk) o9 in
   let v11 := fst v10 in
   let v12 := snd v10 in
   let o13 := from_bits Float8E4M3FNS 124 in
   let v14 := get junk o13 in
   let o15 := from_bits Float8E4M3FNS 123 in
   let v16 := get junk o15 in
   let o17 := next_down Float8E4M3FNS v14 in
   let v18 := get (0, junk) o17 in
   let v19 := fst v18 in
   let v20 := snd v18 in
   let o21 := from_bits Float8E4M3FNS 125 in
   let v22 := get junk o21 in
   let o23 := from_bits Float8E4M3FNS 124 in
   let v24 := get junk o23 in
   let o25 := next_down Float8E4M3FNS v22 in
   let v26 := get (0, junk) o25 in
   let v27 := fst v26 in
   let v28 := snd v26 in
   let o29 := from_bits Float8E4M3FNS 126 in
   let v30 := get junk o29 in
   let o31 := from_bits Float8E4M3FNS 125 in
   let v32 := get junk o31 in
   let o33 := next_down Float8E4M3FNS v30 in
   let v34 := get (0, junk) o33 in
   let v35 := fst v34 in
   let v36 := snd v34 in
   let v37 := neg (ZERO Float8E4M3FNS) in
   let v38 := neg (SMALLEST Float8E4M3FNS) in
   let o39 := next_down Float8E4M3FNS v37 in
   let v40 := get (0, junk) o39 in
   let v41 := fst v40 in
   let v42 := snd v40 in
   let o43 := from_bits Float8E4M3FNS 128 in
   let v44 := get junk o43 in
   let o45 := from_bits Float8E4M3FNS 129 in
   let v46 := get junk o45 in
   let o47 := next_down Float8E4M3FNS v44 in
   let v48 := get (0, junk) o47 in
   let v49 := fst v48 in
   let v50 := snd v48 in
   let o51 := from_bits Float8E4M3FNS 129 in
   let v52 := get junk o51 in
   let o53 := from_bits Float8E4M3FNS 130 in
   let v54 := get junk o53 in
   let o55 := next_down Float8E4M3FNS v52 in
   let v56 := get (0, junk) o55 in
   let v57 := fst v56 in
   let v58 := snd v56 in
   let o59 := from_bits Float8E4M3FNS 130 in
   let v60 := get junk o59 in
   let o61 := from_bits Float8E4M3FNS 131 in
   let v62 := get junk o61 in
   let o63 := next_down Float8E4M3FNS v60 in
   let v64 := get (0, junk) o63 in
   let v65 := fst v64 in
   let v66 := snd v64 in
   let o67 := from_bits Float8E4M3FNS 131 in
   all_true [
      v4 =? OK;
      returns o5;
      returns o7;
      returns o9;
      bitwise_eq v12 v8;
      v11 =? OK;
      returns o13;
      returns o15;
      returns o17;
      bitwise_eq v20 v16;
      v19 =? OK;
      returns o21;
      returns o23;
      returns o25;
      bitwise_eq v28 v24;
      v27 =? OK;
      returns o29;
      returns o31;
      returns o33;
      bitwise_eq v36 v32;
      v35 =? OK;
      returns o39;
      bitwise_eq v42 v38;
      v41 =? OK;
      returns o43;
      returns o45;
      returns o47;
      bitwise_eq v50 v46;
      v49 =? OK;
      returns o51;
      returns o53;
      returns o55;
      bitwise_eq v58 v54;
      v57 =? OK;
      returns o59;
      returns o61;
      returns o63;
      bitwise_eq v66 v62;
      v65 =? OK;
      returns o67]) = true.
Proof. vm_compute. reflexivity. Qed.

Example test_float8e4m3fn_next_49 : (
   let o0 := from_bits Float8E4M3FNS 131 in
   let v1 := get junk o0 in
   let o2 := from_bits Float8E4M3FNS 132 in
   let v3 := get junk o2 in
   let o4 := next_down Float8E4M3FNS v1 in
   let v5 := get (0, junk) o4 in
   let v6 := fst v5 in
   let v7 := snd v5 in
   let o8 := from_bits Float8E4M3FNS 132 in
   let v9 := get junk o8 in
   let o10 := from_bits Float8E4M3FNS 133 in
   let v11 := get junk o10 in
   let o12 := next_down Float8E4M3FNS v9 in
   let v13 := get (0, junk) o12 in
   let v14 := fst v13 in
   let v15 := snd v13 in
   let o16 := from_bits Float8E4M3FNS 133 in
   let v17 := get junk o16 in
   let o18 := from_bits Float8E4M3FNS 134 in
   let v19 := get junk o18 in
   let o20 := next_down Float8E4M3FNS v17 in
   let v21 := get (0, junk) o20 in
   let v22 := fst v21 in
   let v23 := snd v21 in
   let o24 := from_bits Float8E4M3FNS 134 in
   let v25 := get junk o24 in
   let o26 := from_bits Float8E4M3FNS 135 in
   let v27 := get junk o26 in
   let o28 := next_down Float8E4M3FNS v25 in
   let v29 := get (0, junk) o28 in
   let v30 := fst v29 in
   let v31 := snd v29 in
   let o32 := from_bits Float8E4M3FNS 135 in
   let v33 := get junk o32 in
   let o34 := from_bits Float8E4M3FNS 136 in
   let v35 := get junk o34 in
   let o36 := next_down Float8E4M3FNS v33 in
   let v37 := get (0, junk) o36 in
   let v38 := fst v37 in
   let v39 := snd v37 in
   let o40 := from_bits Float8E4M3FNS 136 in
   let v41 := get junk o40 in
   let o42 := from_bits Float8E4M3FNS 137 in
   let v43 := get junk o42 in
   let o44 := next_down Float8E4M3FNS v41 in
   let v45 := get (0, junk) o44 in
   let v46 := fst v45 in
   let v47 := snd v45 in
   let o48 := from_bits Float8E4M3FNS 137 in
   let v49 := get junk o48 in
   let o50 := from_bits Float8E4M3FNS 138 in
   let v51 := get junk o50 in
   let o52 := next_down Float8E4M3FNS v49 in
   let v53 := get (0, junk) o52 in
   let v54 := fst v53 in
   let v55 := snd v53 in
   let o56 := from_bits Float8E4M3FNS 138 in
   let v57 := get junk o56 in
   let o58 := from_bits Float8E4M3FNS 139 in
   let v59 := get junk o58 in
   let o60 := next_down Float8E4M3FNS v57 in
   let v61 := get (0, junk) o60 in
   let v62 := fst v61 in
   let v63 := snd v61 in
   let o64 := from_bits Float8E4M3FNS 139 in
   all_true [
      returns o2;
      returns o4;
      bitwise_eq v7 v3;
      v6 =? OK;
      returns o8;
      returns o10;
      returns o12;
      bitwise_eq v15 v11;
      v14 =? OK;
      returns o16;
      returns o18;
      returns o20;
      bitwise_eq v23 v19;
      v22 =? OK;
      returns o24;
      returns o26;
      returns o28;
      bitwise_eq v31 v27;
      v30 =? OK;
      returns o32;
      returns o34;
      returns o36;
      bitwise_eq v39 v35;
      v38 =? OK;
      returns o40;
      returns o42;
      returns o44;
      bitwise_eq v47 v43;
      v46 =? OK;
      returns o48;
      returns o50;
      returns o52;
      bitwise_eq v55 v51;
      v54 =? OK;
      returns o56;
      returns o58;
      returns o60;
      bitwise_eq v63 v59;
      v62 =? OK;
      returns o64]) = true.
Proof. vm_compute. reflexivity. Qed.

Example test_float8e4m3fn_next_50 : (
   let o0 := from_bits Float8E4M3FNS 139 in
   let v1 := get junk o0 in
   let o2 := from_bits Float8E4M3FNS 140 in
   let v3 := get junk o2 in
   let o4 := next_down Float8E4M3FNS v1 in
   let v5 := get (0, junk) o4 in
   let v6 := fst v5 in
   let v7 := snd v5 in
   let o8 := from_bits Float8E4M3FNS 140 in
   let v9 := get junk o8 in
   let o10 := from_bits Float8E4M3FNS 141 in
   let v11 := get junk o10 in
   let o12 := next_down Float8E4M3FNS v9 in
   let v13 := get (0, junk) o12 in
   let v14 := fst v13 in
   let v15 := snd v13 in
   let o16 := from_bits Float8E4M3FNS 141 in
   let v17 := get junk o16 in
   let o18 := from_bits Float8E4M3FNS 142 in
   let v19 := get junk o18 in
   let o20 := next_down Float8E4M3FNS v17 in
   let v21 := get (0, junk) o20 in
   let v22 := fst v21 in
   let v23 := snd v21 in
   let o24 := from_bits Float8E4M3FNS 142 in
   let v25 := get junk o24 in
   let o26 := from_bits Float8E4M3FNS 143 in
   let v27 := get junk o26 in
   let o28 := next_down Float8E4M3FNS v25 in
   let v29 := get (0, junk) o28 in
   let v30 := fst v29 in
   let v31 := snd v29 in
   let o32 := from_bits Float8E4M3FNS 143 in
   let v33 := get junk o32 in
   let o34 := from_bits Float8E4M3FNS 144 in
   let v35 := get junk o34 in
   let o36 := next_down Float8E4M3FNS v33 in
   let v37 := get (0, junk) o36 in
   let v38 := fst v37 in
   let v39 := snd v37 in
   let o40 := from_bits Float8E4M3FNS 144 in
   let v41 := get junk o40 in
   let o42 := from_bits Float8E4M3FNS 145 in
   let v43 := get junk o42 in
   let o44 := next_down Float8E4M3FNS v41 in
   let v45 := get (0, junk) o44 in
   let v46 := fst v45 in
   let v47 := snd v45 in
   let o48 := from_bits Float8E4M3FNS 145 in
   let v49 := get junk o48 in
   let o50 := from_bits Float8E4M3FNS 146 in
   let v51 := get junk o50 in
   let o52 := next_down Float8E4M3FNS v49 in
   let v53 := get (0, junk) o52 in
   let v54 := fst v53 in
   let v55 := snd v53 in
   let o56 := from_bits Float8E4M3FNS 146 in
   let v57 := get junk o56 in
   let o58 := from_bits Float8E4M3FNS 147 in
   let v59 := get junk o58 in
   let o60 := next_down Float8E4M3FNS v57 in
   let v61 := get (0, junk) o60 in
   let v62 := fst v61 in
   let v63 := snd v61 in
   let o64 := from_bits Float8E4M3FNS 147 in
   all_true [
      returns o2;
      returns o4;
      bitwise_eq v7 v3;
      v6 =? OK;
      returns o8;
      returns o10;
      returns o12;
      bitwise_eq v15 v11;
      v14 =? OK;
      returns o16;
      returns o18;
      returns o20;
      bitwise_eq v23 v19;
      v22 =? OK;
      returns o24;
      returns o26;
      returns o28;
      bitwise_eq v31 v27;
      v30 =? OK;
      returns o32;
      returns o34;
      returns o36;
      bitwise_eq v39 v35;
      v38 =? OK;
      returns o40;
      returns o42;
      returns o44;
      bitwise_eq v47 v43;
      v46 =? OK;
      returns o48;
      returns o50;
      returns o52;
      bitwise_eq v55 v51;
      v54 =? OK;
      returns o56;
      returns o58;
      returns o60;
      bitwise_eq v63 v59;
      v62 =? OK;
      returns o64]) = true.
Proof. vm_compute. reflexivity. Qed.

Example test_float8e4m3fn_next_51 : (
   let o0 := from_bits Float8E4M3FNS 147 in
   let v1 := get junk o0 in
   let o2 := from_bits Float8E4M3FNS 148 in
   let v3 := get junk o2 in
   let o4 := next_down Float8E4M3FNS v1 in
   let v5 := get (0, junk) o4 in
   let v6 := fst v5 in
   let v7 := snd v5 in
   let o8 := from_bits Float8E4M3FNS 148 in
   let v9 := get junk o8 in
   let o10 := from_bits Float8E4M3FNS 149 in
   let v11 := get junk o10 in
   let o12 := next_down Float8E4M3FNS v9 in
   let v13 := get (0, junk) o12 in
   let v14 := fst v13 in
   let v15 := snd v13 in
   let o16 := from_bits Float8E4M3FNS 149 in
   let v17 := get junk o16 in
   let o18 := from_bits Float8E4M3FNS 150 in
   let v19 := get junk o18 in
   let o20 := next_down Float8E4M3FNS v17 in
   let v21 := get (0, junk) o20 in
   let v22 := fst v21 in
   let v23 := snd v21 in
   let o24 := from_bits Float8E4M3FNS 150 in
   let v25 := get junk o24 in
   let o26 := from_bits Float8E4M3FNS 151 in
   let v27 := get junk o26 in
   let o28 := next_down Float8E4M3FNS v25 in
   let v29 := get (0, junk) o28 in
   let v30 := fst v29 in
   let v31 := snd v29 in
   let o32 := from_bits Float8E4M3FNS 151 in
   let v33 := get junk o32 in
   let o34 := from_bits Float8E4M3FNS 152 in
   let v35 := get junk o34 in
   let o36 := next_down Float8E4M3FNS v33 in
   let v37 := get (0, junk) o36 in
   let v38 := fst v37 in
   let v39 := snd v37 in
   let o40 := from_bits Float8E4M3FNS 152 in
   let v41 := get junk o40 in
   let o42 := from_bits Float8E4M3FNS 153 in
   let v43 := get junk o42 in
   let o44 := next_down Float8E4M3FNS v41 in
   let v45 := get (0, junk) o44 in
   let v46 := fst v45 in
   let v47 := snd v45 in
   let o48 := from_bits Float8E4M3FNS 153 in
   let v49 := get junk o48 in
   let o50 := from_bits Float8E4M3FNS 154 in
   let v51 := get junk o50 in
   let o52 := next_down Float8E4M3FNS v49 in
   let v53 := get (0, junk) o52 in
   let v54 := fst v53 in
   let v55 := snd v53 in
   let o56 := from_bits Float8E4M3FNS 154 in
   let v57 := get junk o56 in
   let o58 := from_bits Float8E4M3FNS 155 in
   let v59 := get junk o58 in
   let o60 := next_down Float8E4M3FNS v57 in
   let v61 := get (0, junk) o60 in
   let v62 := fst v61 in
   let v63 := snd v61 in
   let o64 := from_bits Float8E4M3FNS 155 in
   all_true [
      returns o2;
      returns o4;
      bitwise_eq v7 v3;
      v6 =? OK;
      returns o8;
      returns o10;
      returns o12;
      bitwise_eq v15 v11;
      v14 =? OK;
      returns o16;
      returns o18;
      returns o20;
      bitwise_eq v23 v19;
      v22 =? OK;
      returns o24;
      returns o26;
      returns o28;
      bitwise_eq v31 v27;
      v30 =? OK;
      returns o32;
      returns o34;
      returns o36;
      bitwise_eq v39 v35;
      v38 =? OK;
      returns o40;
      returns o42;
      returns o44;
      bitwise_eq v47 v43;
      v46 =? OK;
      returns o48;
      returns o50;
      returns o52;
      bitwise_eq v55 v51;
      v54 =? OK;
      returns o56;
      returns o58;
      returns o60;
      bitwise_eq v63 v59;
      v62 =? OK;
      returns o64]) = true.
Proof. vm_compute. reflexivity. Qed.

Example test_float8e4m3fn_next_52 : (
   let o0 := from_bits Float8E4M3FNS 155 in
   let v1 := get junk o0 in
   let o2 := from_bits Float8E4M3FNS 156 in
   let v3 := get junk o2 in
   let o4 := next_down Float8E4M3FNS v1 in
   let v5 := get (0, junk) o4 in
   let v6 := fst v5 in
   let v7 := snd v5 in
   let o8 := from_bits Float8E4M3FNS 156 in
   let v9 := get junk o8 in
   let o10 := from_bits Float8E4M3FNS 157 in
   let v11 := get junk o10 in
   let o12 := next_down Float8E4M3FNS v9 in
   let v13 := get (0, junk) o12 in
   let v14 := fst v13 in
   let v15 := snd v13 in
   let o16 := from_bits Float8E4M3FNS 157 in
   let v17 := get junk o16 in
   let o18 := from_bits Float8E4M3FNS 158 in
   let v19 := get junk o18 in
   let o20 := next_down Float8E4M3FNS v17 in
   let v21 := get (0, junk) o20 in
   let v22 := fst v21 in
   let v23 := snd v21 in
   let o24 := from_bits Float8E4M3FNS 158 in
   let v25 := get junk o24 in
   let o26 := from_bits Float8E4M3FNS 159 in
   let v27 := get junk o26 in
   let o28 := next_down Float8E4M3FNS v25 in
   let v29 := get (0, junk) o28 in
   let v30 := fst v29 in
   let v31 := snd v29 in
   let o32 := from_bits Float8E4M3FNS 159 in
   let v33 := get junk o32 in
   let o34 := from_bits Float8E4M3FNS 160 in
   let v35 := get junk o34 in
   let o36 := next_down Float8E4M3FNS v33 in
   let v37 := get (0, junk) o36 in
   let v38 := fst v37 in
   let v39 := snd v37 in
   let o40 := from_bits Float8E4M3FNS 160 in
   let v41 := get junk o40 in
   let o42 := from_bits Float8E4M3FNS 161 in
   let v43 := get junk o42 in
   let o44 := next_down Float8E4M3FNS v41 in
   let v45 := get (0, junk) o44 in
   let v46 := fst v45 in
   let v47 := snd v45 in
   let o48 := from_bits Float8E4M3FNS 161 in
   let v49 := get junk o48 in
   let o50 := from_bits Float8E4M3FNS 162 in
   let v51 := get junk o50 in
   let o52 := next_down Float8E4M3FNS v49 in
   let v53 := get (0, junk) o52 in
   let v54 := fst v53 in
   let v55 := snd v53 in
   let o56 := from_bits Float8E4M3FNS 162 in
   let v57 := get junk o56 in
   let o58 := from_bits Float8E4M3FNS 163 in
   let v59 := get junk o58 in
   let o60 := next_down Float8E4M3FNS v57 in
   let v61 := get (0, junk) o60 in
   let v62 := fst v61 in
   let v63 := snd v61 in
   let o64 := from_bits Float8E4M3FNS 163 in
   all_true [
      returns o2;
      returns o4;
      bitwise_eq v7 v3;
      v6 =? OK;
      returns o8;
      returns o10;
      returns o12;
      bitwise_eq v15 v11;
      v14 =? OK;
      returns o16;
      returns o18;
      returns o20;
      bitwise_eq v23 v19;
      v22 =? OK;
      returns o24;
      returns o26;
      returns o28;
      bitwise_eq v31 v27;
      v30 =? OK;
      returns o32;
      returns o34;
      returns o36;
      bitwise_eq v39 v35;
      v38 =? OK;
      returns o40;
      returns o42;
      returns o44;
      bitwise_eq v47 v43;
      v46 =? OK;
      returns o48;
      returns o50;
      returns o52;
      bitwise_eq v55 v51;
      v54 =? OK;
      returns o56;
      returns o58;
      returns o60;
      bitwise_eq v63 v59;
      v62 =? OK;
      returns o64]) = true.
Proof. vm_compute. reflexivity. Qed.

Example test_float8e4m3fn_next_53 : (
   let o0 := from_bits Float8E4M3FNS 163 in
   let v1 := get junk o0 in
   let o2 := from_bits Float8E4M3FNS 164 in
   let v3 := get junk o2 in
   let o4 := next_down Float8E4M3FNS v1 in
   let v5 := get (0, junk) o4 in
   let v6 := fst v5 in
   let v7 := snd v5 in
   let o8 := from_bits Float8E4M3FNS 164 in
   let v9 := get junk o8 in
   let o10 := from_bits Float8E4M3FNS 165 in
   let v11 := get junk o10 in
   let o12 := next_down Float8E4M3FNS v9 in
   let v13 := get (0, junk) o12 in
   let v14 := fst v13 in
   let v15 := snd v13 in
   let o16 := from_bits Float8E4M3FNS 165 in
   let v17 := get junk o16 in
   let o18 := from_bits Float8E4M3FNS 166 in
   let v19 := get junk o18 in
   let o20 := next_down Float8E4M3FNS v17 in
   let v21 := get (0, junk) o20 in
   let v22 := fst v21 in
   let v23 := snd v21 in
   let o24 := from_bits Float8E4M3FNS 166 in
   let v25 := get junk o24 in
   let o26 := from_bits Float8E4M3FNS 167 in
   let v27 := get junk o26 in
   let o28 := next_down Float8E4M3FNS v25 in
   let v29 := get (0, junk) o28 in
   let v30 := fst v29 in
   let v31 := snd v29 in
   let o32 := from_bits Float8E4M3FNS 167 in
   let v33 := get junk o32 in
   let o34 := from_bits Float8E4M3FNS 168 in
   let v35 := get junk o34 in
   let o36 := next_down Float8E4M3FNS v33 in
   let v37 := get (0, junk) o36 in
   let v38 := fst v37 in
   let v39 := snd v37 in
   let o40 := from_bits Float8E4M3FNS 168 in
   let v41 := get junk o40 in
   let o42 := from_bits Float8E4M3FNS 169 in
   let v43 := get junk o42 in
   let o44 := next_down Float8E4M3FNS v41 in
   let v45 := get (0, junk) o44 in
   let v46 := fst v45 in
   let v47 := snd v45 in
   let o48 := from_bits Float8E4M3FNS 169 in
   let v49 := get junk o48 in
   let o50 := from_bits Float8E4M3FNS 170 in
   let v51 := get junk o50 in
   let o52 := next_down Float8E4M3FNS v49 in
   let v53 := get (0, junk) o52 in
   let v54 := fst v53 in
   let v55 := snd v53 in
   let o56 := from_bits Float8E4M3FNS 170 in
   let v57 := get junk o56 in
   let o58 := from_bits Float8E4M3FNS 171 in
   let v59 := get junk o58 in
   let o60 := next_down Float8E4M3FNS v57 in
   let v61 := get (0, junk) o60 in
   let v62 := fst v61 in
   let v63 := snd v61 in
   let o64 := from_bits Float8E4M3FNS 171 in
   all_true [
      returns o2;
      returns o4;
      bitwise_eq v7 v3;
      v6 =? OK;
      returns o8;
      returns o10;
      returns o12;
      bitwise_eq v15 v11;
      v14 =? OK;
      returns o16;
      returns o18;
      returns o20;
      bitwise_eq v23 v19;
      v22 =? OK;
      returns o24;
      returns o26;
      returns o28;
      bitwise_eq v31 v27;
      v30 =? OK;
      returns o32;
      returns o34;
      returns o36;
      bitwise_eq v39 v35;
      v38 =? OK;
      returns o40;
      returns o42;
      returns o44;
      bitwise_eq v47 v43;
      v46 =? OK;
      returns o48;
      returns o50;
      returns o52;
      bitwise_eq v55 v51;
      v54 =? OK;
      returns o56;
      returns o58;
      returns o60;
      bitwise_eq v63 v59;
      v62 =? OK;
      returns o64]) = true.
Proof. vm_compute. reflexivity. Qed.

Example test_float8e4m3fn_next_54 : (
   let o0 := from_bits Float8E4M3FNS 171 in
   let v1 := get junk o0 in
   let o2 := from_bits Float8E4M3FNS 172 in
   let v3 := get junk o2 in
   let o4 := next_down Float8E4M3FNS v1 in
   let v5 := get (0, junk) o4 in
   let v6 := fst v5 in
   let v7 := snd v5 in
   let o8 := from_bits Float8E4M3FNS 172 in
   let v9 := get junk o8 in
   let o10 := from_bits Float8E4M3FNS 173 in
   let v11 := get junk o10 in
   let o12 := next_down Float8E4M3FNS v9 in
   let v13 := get (0, junk) o12 in
   let v14 := fst v13 in
   let v15 := snd v13 in
   let o16 := from_bits Float8E4M3FNS 173 in
   let v17 := get junk o16 in
   let o18 := from_bits Float8E4M3FNS 174 in
   let v19 := get junk o18 in
   let o20 := next_down Float8E4M3FNS v17 in
   let v21 := get (0, junk) o20 in
   let v22 := fst v21 in
   let v23 := snd v21 in
   let o24 := from_bits Float8E4M3FNS 174 in
   let v25 := get junk o24 in
   let o26 := from_bits Float8E4M3FNS 175 in
   let v27 := get junk o26 in
   let o28 := next_down Float8E4M3FNS v25 in
   let v29 := get (0, junk) o28 in
   let v30 := fst v29 in
   let v31 := snd v29 in
   let o32 := from_bits Float8E4M3FNS 175 in
   let v33 := get junk o32 in
   let o34 := from_bits Float8E4M3FNS 176 in
   let v35 := get junk o34 in
   let o36 := next_down Float8E4M3FNS v33 in
   let v37 := get (0, junk) o36 in
   let v38 := fst v37 in
   let v39 := snd v37 in
   let o40 := from_bits Float8E4M3FNS 176 in
   let v41 := get junk o40 in
   let o42 := from_bits Float8E4M3FNS 177 in
   let v43 := get junk o42 in
   let o44 := next_down Float8E4M3FNS v41 in
   let v45 := get (0, junk) o44 in
   let v46 := fst v45 in
   let v47 := snd v45 in
   let o48 := from_bits Float8E4M3FNS 177 in
   let v49 := get junk o48 in
   let o50 := from_bits Float8E4M3FNS 178 in
   let v51 := get junk o50 in
   let o52 := next_down Float8E4M3FNS v49 in
   let v53 := get (0, junk) o52 in
   let v54 := fst v53 in
   let v55 := snd v53 in
   let o56 := from_bits Float8E4M3FNS 178 in
   let v57 := get junk o56 in
   let o58 := from_bits Float8E4M3FNS 179 in
   let v59 := get junk o58 in
   let o60 := next_down Float8E4M3FNS v57 in
   let v61 := get (0, junk) o60 in
   let v62 := fst v61 in
   let v63 := snd v61 in
   let o64 := from_bits Float8E4M3FNS 179 in
   all_true [
      returns o2;
      returns o4;
      bitwise_eq v7 v3;
      v6 =? OK;
      returns o8;
      returns o10;
      returns o12;
      bitwise_eq v15 v11;
      v14 =? OK;
      returns o16;
      returns o18;
      returns o20;
      bitwise_eq v23 v19;
      v22 =? OK;
      returns o24;
      returns o26;
      returns o28;
      bitwise_eq v31 v27;
      v30 =? OK;
      returns o32;
      returns o34;
      returns o36;
      bitwise_eq v39 v35;
      v38 =? OK;
      returns o40;
      returns o42;
      returns o44;
      bitwise_eq v47 v43;
      v46 =? OK;
      returns o48;
      returns o50;
      returns o52;
      bitwise_eq v55 v51;
      v54 =? OK;
      returns o56;
      returns o58;
      returns o60;
      bitwise_eq v63 v59;
      v62 =? OK;
      returns o64]) = true.
Proof. vm_compute. reflexivity. Qed.

Example test_float8e4m3fn_next_55 : (
   let o0 := from_bits Float8E4M3FNS 179 in
   let v1 := get junk o0 in
   let o2 := from_bits Float8E4M3FNS 180 in
   let v3 := get junk o2 in
   let o4 := next_down Float8E4M3FNS v1 in
   let v5 := get (0, junk) o4 in
   let v6 := fst v5 in
   let v7 := snd v5 in
   let o8 := from_bits Float8E4M3FNS 180 in
   let v9 := get junk o8 in
   let o10 := from_bits Float8E4M3FNS 181 in
   let v11 := get junk o10 in
   let o12 := next_down Float8E4M3FNS v9 in
   let v13 := get (0, junk) o12 in
   let v14 := fst v13 in
   let v15 := snd v13 in
   let o16 := from_bits Float8E4M3FNS 181 in
   let v17 := get junk o16 in
   let o18 := from_bits Float8E4M3FNS 182 in
   let v19 := get junk o18 in
   let o20 := next_down Float8E4M3FNS v17 in
   let v21 := get (0, junk) o20 in
   let v22 := fst v21 in
   let v23 := snd v21 in
   let o24 := from_bits Float8E4M3FNS 182 in
   let v25 := get junk o24 in
   let o26 := from_bits Float8E4M3FNS 183 in
   let v27 := get junk o26 in
   let o28 := next_down Float8E4M3FNS v25 in
   let v29 := get (0, junk) o28 in
   let v30 := fst v29 in
   let v31 := snd v29 in
   let o32 := from_bits Float8E4M3FNS 183 in
   let v33 := get junk o32 in
   let o34 := from_bits Float8E4M3FNS 184 in
   let v35 := get junk o34 in
   let o36 := next_down Float8E4M3FNS v33 in
   let v37 := get (0, junk) o36 in
   let v38 := fst v37 in
   let v39 := snd v37 in
   let o40 := from_bits Float8E4M3FNS 184 in
   let v41 := get junk o40 in
   let o42 := from_bits Float8E4M3FNS 185 in
   let v43 := get junk o42 in
   let o44 := next_down Float8E4M3FNS v41 in
   let v45 := get (0, junk) o44 in
   let v46 := fst v45 in
   let v47 := snd v45 in
   let o48 := from_bits Float8E4M3FNS 185 in
   let v49 := get junk o48 in
   let o50 := from_bits Float8E4M3FNS 186 in
   let v51 := get junk o50 in
   let o52 := next_down Float8E4M3FNS v49 in
   let v53 := get (0, junk) o52 in
   let v54 := fst v53 in
   let v55 := snd v53 in
   let o56 := from_bits Float8E4M3FNS 186 in
   let v57 := get junk o56 in
   let o58 := from_bits Float8E4M3FNS 187 in
   let v59 := get junk o58 in
   let o60 := next_down Float8E4M3FNS v57 in
   let v61 := get (0, junk) o60 in
   let v62 := fst v61 in
   let v63 := snd v61 in
   let o64 := from_bits Float8E4M3FNS 187 in
   all_true [
      returns o2;
      returns o4;
      bitwise_eq v7 v3;
      v6 =? OK;
      returns o8;
      returns o10;
      returns o12;
      bitwise_eq v15 v11;
      v14 =? OK;
      returns o16;
      returns o18;
      returns o20;
      bitwise_eq v23 v19;
      v22 =? OK;
      returns o24;
      returns o26;
      returns o28;
      bitwise_eq v31 v27;
      v30 =? OK;
      returns o32;
      returns o34;
      returns o36;
      bitwise_eq v39 v35;
      v38 =? OK;
      returns o40;
      returns o42;
      returns o44;
      bitwise_eq v47 v43;
      v46 =? OK;
      returns o48;
      returns o50;
      returns o52;
      bitwise_eq v55 v51;
      v54 =? OK;
      returns o56;
      returns o58;
      returns o60;
      bitwise_eq v63 v59;
      v62 =? OK;
      returns o64]) = true.
Proof. vm_compute. reflexivity. Qed.

Example test_float8e4m3fn_next_56 : (
   let o0 := from_bits Float8E4M3FNS 187 in
   let v1 := get junk o0 in
   let o2 := from_bits Float8E4M3FNS 188 in
   let v3 := get junk o2 in
   let o4 := next_down Float8E4M3FNS v1 in
   let v5 := get (0, junk) o4 in
   let v6 := fst v5 in
   let v7 := snd v5 in
   let o8 := from_bits Float8E4M3FNS 188 in
   let v9 := get junk o8 in
   let o10 := from_bits Float8E4M3FNS 189 in
   let v11 := get junk o10 in
   let o12 := next_down Float8E4M3FNS v9 in
   let v13 := get (0, junk) o12 in
   let v14 := fst v13 in
   let v15 := snd v13 in
   let o16 := from_bits Float8E4M3FNS 189 in
   let v17 := get junk o16 in
   let o18 := from_bits Float8E4M3FNS 190 in
   let v19 := get junk o18 in
   let o20 := next_down Float8E4M3FNS v17 in
   let v21 := get (0, junk) o20 in
   let v22 := fst v21 in
   let v23 := snd v21 in
   let o24 := from_bits Float8E4M3FNS 190 in
   let v25 := get junk o24 in
   let o26 := from_bits Float8E4M3FNS 191 in
   let v27 := get junk o26 in
   let o28 := next_down Float8E4M3FNS v25 in
   let v29 := get (0, junk) o28 in
   let v30 := fst v29 in
   let v31 := snd v29 in
   let o32 := from_bits Float8E4M3FNS 191 in
   let v33 := get junk o32 in
   let o34 := from_bits Float8E4M3FNS 192 in
   let v35 := get junk o34 in
   let o36 := next_down Float8E4M3FNS v33 in
   let v37 := get (0, junk) o36 in
   let v38 := fst v37 in
   let v39 := snd v37 in
   let o40 := from_bits Float8E4M3FNS 192 in
   let v41 := get junk o40 in
   let o42 := from_bits Float8E4M3FNS 193 in
   let v43 := get junk o42 in
   let o44 := next_down Float8E4M3FNS v41 in
   let v45 := get (0, junk) o44 in
   let v46 := fst v45 in
   let v47 := snd v45 in
   let o48 := from_bits Float8E4M3FNS 193 in
   let v49 := get junk o48 in
   let o50 := from_bits Float8E4M3FNS 194 in
   let v51 := get junk o50 in
   let o52 := next_down Float8E4M3FNS v49 in
   let v53 := get (0, junk) o52 in
   let v54 := fst v53 in
   let v55 := snd v53 in
   let o56 := from_bits Float8E4M3FNS 194 in
   let v57 := get junk o56 in
   let o58 := from_bits Float8E4M3FNS 195 in
   let v59 := get junk o58 in
   let o60 := next_down Float8E4M3FNS v57 in
   let v61 := get (0, junk) o60 in
   let v62 := fst v61 in
   let v63 := snd v61 in
   let o64 := from_bits Float8E4M3FNS 195 in
   all_true [
      returns o2;
      returns o4;
      bitwise_eq v7 v3;
      v6 =? OK;
      returns o8;
      returns o10;
      returns o12;
      bitwise_eq v15 v11;
      v14 =? OK;
      returns o16;
      returns o18;
      returns o20;
      bitwise_eq v23 v19;
      v22 =? OK;
      returns o24;
      returns o26;
      returns o28;
      bitwise_eq v31 v27;
      v30 =? OK;
      returns o32;
      returns o34;
      returns o36;
      bitwise_eq v39 v35;
      v38 =? OK;
      returns o40;
      returns o42;
      returns o44;
      bitwise_eq v47 v43;
      v46 =? OK;
      returns o48;
      returns o50;
      returns o52;
      bitwise_eq v55 v51;
      v54 =? OK;
      returns o56;
      returns o58;
      returns o60;
      bitwise_eq v63 v59;
      v62 =? OK;
      returns o64]) = true.
Proof. vm_compute. reflexivity. Qed.

Example test_float8e4m3fn_next_57 : (
   let o0 := from_bits Float8E4M3FNS 195 in
   let v1 := get junk o0 in
   let o2 := from_bits Float8E4M3FNS 196 in
   let v3 := get junk o2 in
   let o4 := next_down Float8E4M3FNS v1 in
   let v5 := get (0, junk) o4 in
   let v6 := fst v5 in
   let v7 := snd v5 in
   let o8 := from_bits Float8E4M3FNS 196 in
   let v9 := get junk o8 in
   let o10 := from_bits Float8E4M3FNS 197 in
   let v11 := get junk o10 in
   let o12 := next_down Float8E4M3FNS v9 in
   let v13 := get (0, junk) o12 in
   let v14 := fst v13 in
   let v15 := snd v13 in
   let o16 := from_bits Float8E4M3FNS 197 in
   let v17 := get junk o16 in
   let o18 := from_bits Float8E4M3FNS 198 in
   let v19 := get junk o18 in
   let o20 := next_down Float8E4M3FNS v17 in
   let v21 := get (0, junk) o20 in
   let v22 := fst v21 in
   let v23 := snd v21 in
   let o24 := from_bits Float8E4M3FNS 198 in
   let v25 := get junk o24 in
   let o26 := from_bits Float8E4M3FNS 199 in
   let v27 := get junk o26 in
   let o28 := next_down Float8E4M3FNS v25 in
   let v29 := get (0, junk) o28 in
   let v30 := fst v29 in
   let v31 := snd v29 in
   let o32 := from_bits Float8E4M3FNS 199 in
   let v33 := get junk o32 in
   let o34 := from_bits Float8E4M3FNS 200 in
   let v35 := get junk o34 in
   let o36 := next_down Float8E4M3FNS v33 in
   let v37 := get (0, junk) o36 in
   let v38 := fst v37 in
   let v39 := snd v37 in
   let o40 := from_bits Float8E4M3FNS 200 in
   let v41 := get junk o40 in
   let o42 := from_bits Float8E4M3FNS 201 in
   let v43 := get junk o42 in
   let o44 := next_down Float8E4M3FNS v41 in
   let v45 := get (0, junk) o44 in
   let v46 := fst v45 in
   let v47 := snd v45 in
   let o48 := from_bits Float8E4M3FNS 201 in
   let v49 := get junk o48 in
   let o50 := from_bits Float8E4M3FNS 202 in
   let v51 := get junk o50 in
   let o52 := next_down Float8E4M3FNS v49 in
   let v53 := get (0, junk) o52 in
   let v54 := fst v53 in
   let v55 := snd v53 in
   let o56 := from_bits Float8E4M3FNS 202 in
   let v57 := get junk o56 in
   let o58 := from_bits Float8E4M3FNS 203 in
   let v59 := get junk o58 in
   let o60 := next_down Float8E4M3FNS v57 in
   let v61 := get (0, junk) o60 in
   let v62 := fst v61 in
   let v63 := snd v61 in
   let o64 := from_bits Float8E4M3FNS 203 in
   all_true [
      returns o2;
      returns o4;
      bitwise_eq v7 v3;
      v6 =? OK;
      returns o8;
      returns o10;
      returns o12;
      bitwise_eq v15 v11;
      v14 =? OK;
      returns o16;
      returns o18;
      returns o20;
      bitwise_eq v23 v19;
      v22 =? OK;
      returns o24;
      returns o26;
      returns o28;
      bitwise_eq v31 v27;
      v30 =? OK;
      returns o32;
      returns o34;
      returns o36;
      bitwise_eq v39 v35;
      v38 =? OK;
      returns o40;
      returns o42;
      returns o44;
      bitwise_eq v47 v43;
      v46 =? OK;
      returns o48;
      returns o50;
      returns o52;
      bitwise_eq v55 v51;
      v54 =? OK;
      returns o56;
      returns o58;
      returns o60;
      bitwise_eq v63 v59;
      v62 =? OK;
      returns o64]) = true.
Proof. vm_compute. reflexivity. Qed.

Example test_float8e4m3fn_next_58 : (
   let o0 := from_bits Float8E4M3FNS 203 in
   let v1 := get junk o0 in
   let o2 := from_bits Float8E4M3FNS 204 in
   let v3 := get junk o2 in
   let o4 := next_down Float8E4M3FNS v1 in
   let v5 := get (0, junk) o4 in
   let v6 := fst v5 in
   let v7 := snd v5 in
   let o8 := from_bits Float8E4M3FNS 204 in
   let v9 := get junk o8 in
   let o10 := from_bits Float8E4M3FNS 205 in
   let v11 := get junk o10 in
   let o12 := next_down Float8E4M3FNS v9 in
   let v13 := get (0, junk) o12 in
   let v14 := fst v13 in
   let v15 := snd v13 in
   let o16 := from_bits Float8E4M3FNS 205 in
   let v17 := get junk o16 in
   let o18 := from_bits Float8E4M3FNS 206 in
   let v19 := get junk o18 in
   let o20 := next_down Float8E4M3FNS v17 in
   let v21 := get (0, junk) o20 in
   let v22 := fst v21 in
   let v23 := snd v21 in
   let o24 := from_bits Float8E4M3FNS 206 in
   let v25 := get junk o24 in
   let o26 := from_bits Float8E4M3FNS 207 in
   let v27 := get junk o26 in
   let o28 := next_down Float8E4M3FNS v25 in
   let v29 := get (0, junk) o28 in
   let v30 := fst v29 in
   let v31 := snd v29 in
   let o32 := from_bits Float8E4M3FNS 207 in
   let v33 := get junk o32 in
   let o34 := from_bits Float8E4M3FNS 208 in
   let v35 := get junk o34 in
   let o36 := next_down Float8E4M3FNS v33 in
   let v37 := get (0, junk) o36 in
   let v38 := fst v37 in
   let v39 := snd v37 in
   let o40 := from_bits Float8E4M3FNS 208 in
   let v41 := get junk o40 in
   let o42 := from_bits Float8E4M3FNS 209 in
   let v43 := get junk o42 in
   let o44 := next_down Float8E4M3FNS v41 in
   let v45 := get (0, junk) o44 in
   let v46 := fst v45 in
   let v47 := snd v45 in
   let o48 := from_bits Float8E4M3FNS 209 in
   let v49 := get junk o48 in
   let o50 := from_bits Float8E4M3FNS 210 in
   let v51 := get junk o50 in
   let o52 := next_down Float8E4M3FNS v49 in
   let v53 := get (0, junk) o52 in
   let v54 := fst v53 in
   let v55 := snd v53 in
   let o56 := from_bits Float8E4M3FNS 210 in
   let v57 := get junk o56 in
   let o58 := from_bits Float8E4M3FNS 211 in
   let v59 := get junk o58 in
   let o60 := next_down Float8E4M3FNS v57 in
   let v61 := get (0, junk) o60 in
   let v62 := fst v61 in
   let v63 := snd v61 in
   let o64 := from_bits Float8E4M3FNS 211 in
   all_true [
      returns o2;
      returns o4;
      bitwise_eq v7 v3;
      v6 =? OK;
      returns o8;
      returns o10;
      returns o12;
      bitwise_eq v15 v11;
      v14 =? OK;
      returns o16;
      returns o18;
      returns o20;
      bitwise_eq v23 v19;
      v22 =? OK;
      returns o24;
      returns o26;
      returns o28;
      bitwise_eq v31 v27;
      v30 =? OK;
      returns o32;
      returns o34;
      returns o36;
      bitwise_eq v39 v35;
      v38 =? OK;
      returns o40;
      returns o42;
      returns o44;
      bitwise_eq v47 v43;
      v46 =? OK;
      returns o48;
      returns o50;
      returns o52;
      bitwise_eq v55 v51;
      v54 =? OK;
      returns o56;
      returns o58;
      returns o60;
      bitwise_eq v63 v59;
      v62 =? OK;
      returns o64]) = true.
Proof. vm_compute. reflexivity. Qed.

Example test_float8e4m3fn_next_59 : (
   let o0 := from_bits Float8E4M3FNS 211 in
   let v1 := get junk o0 in
   let o2 := from_bits Float8E4M3FNS 212 in
   let v3 := get junk o2 in
   let o4 := next_down Float8E4M3FNS v1 in
   let v5 := get (0, junk) o4 in
   let v6 := fst v5 in
   let v7 := snd v5 in
   let o8 := from_bits Float8E4M3FNS 212 in
   let v9 := get junk o8 in
   let o10 := from_bits Float8E4M3FNS 213 in
   let v11 := get junk o10 in
   let o12 := next_down Float8E4M3FNS v9 in
   let v13 := get (0, junk) o12 in
   let v14 := fst v13 in
   let v15 := snd v13 in
   let o16 := from_bits Float8E4M3FNS 213 in
   let v17 := get junk o16 in
   let o18 := from_bits Float8E4M3FNS 214 in
   let v19 := get junk o18 in
   let o20 := next_down Float8E4M3FNS v17 in
   let v21 := get (0, junk) o20 in
   let v22 := fst v21 in
   let v23 := snd v21 in
   let o24 := from_bits Float8E4M3FNS 214 in
   let v25 := get junk o24 in
   let o26 := from_bits Float8E4M3FNS 215 in
   let v27 := get junk o26 in
   let o28 := next_down Float8E4M3FNS v25 in
   let v29 := get (0, junk) o28 in
   let v30 := fst v29 in
   let v31 := snd v29 in
   let o32 := from_bits Float8E4M3FNS 215 in
   let v33 := get junk o32 in
   let o34 := from_bits Float8E4M3FNS 216 in
   let v35 := get junk o34 in
   let o36 := next_down Float8E4M3FNS v33 in
   let v37 := get (0, junk) o36 in
   let v38 := fst v37 in
   let v39 := snd v37 in
   let o40 := from_bits Float8E4M3FNS 216 in
   let v41 := get junk o40 in
   let o42 := from_bits Float8E4M3FNS 217 in
   let v43 := get junk o42 in
   let o44 := next_down Float8E4M3FNS v41 in
   let v45 := get (0, junk) o44 in
   let v46 := fst v45 in
   let v47 := snd v45 in
   let o48 := from_bits Float8E4M3FNS 217 in
   let v49 := get junk o48 in
   let o50 := from_bits Float8E4M3FNS 218 in
   let v51 := get junk o50 in
   let o52 := next_down Float8E4M3FNS v49 in
   let v53 := get (0, junk) o52 in
   let v54 := fst v53 in
   let v55 := snd v53 in
   let o56 := from_bits Float8E4M3FNS 218 in
   let v57 := get junk o56 in
   let o58 := from_bits Float8E4M3FNS 219 in
   let v59 := get junk o58 in
   let o60 := next_down Float8E4M3FNS v57 in
   let v61 := get (0, junk) o60 in
   let v62 := fst v61 in
   let v63 := snd v61 in
   let o64 := from_bits Float8E4M3FNS 219 in
   all_true [
      returns o2;
      returns o4;
      bitwise_eq v7 v3;
      v6 =? OK;
      returns o8;
      returns o10;
      returns o12;
      bitwise_eq v15 v11;
      v14 =? OK;
      returns o16;
      returns o18;
      returns o20;
      bitwise_eq v23 v19;
      v22 =? OK;
      returns o24;
      returns o26;
      returns o28;
      bitwise_eq v31 v27;
      v30 =? OK;
      returns o32;
      returns o34;
      returns o36;
      bitwise_eq v39 v35;
      v38 =? OK;
      returns o40;
      returns o42;
      returns o44;
      bitwise_eq v47 v43;
      v46 =? OK;
      returns o48;
      returns o50;
      returns o52;
      bitwise_eq v55 v51;
      v54 =? OK;
      returns o56;
      returns o58;
      returns o60;
      bitwise_eq v63 v59;
      v62 =? OK;
      returns o64]) = true.
Proof. vm_compute. reflexivity. Qed.

Example test_float8e4m3fn_next_60 : (
   let o0 := from_bits Float8E4M3FNS 219 in
   let v1 := get junk o0 in
   let o2 := from_bits Float8E4M3FNS 220 in
   let v3 := get junk o2 in
   let o4 := next_down Float8E4M3FNS v1 in
   let v5 := get (0, junk) o4 in
   let v6 := fst v5 in
   let v7 := snd v5 in
   let o8 := from_bits Float8E4M3FNS 220 in
   let v9 := get junk o8 in
   let o10 := from_bits Float8E4M3FNS 221 in
   let v11 := get junk o10 in
   let o12 := next_down Float8E4M3FNS v9 in
   let v13 := get (0, junk) o12 in
   let v14 := fst v13 in
   let v15 := snd v13 in
   let o16 := from_bits Float8E4M3FNS 221 in
   let v17 := get junk o16 in
   let o18 := from_bits Float8E4M3FNS 222 in
   let v19 := get junk o18 in
   let o20 := next_down Float8E4M3FNS v17 in
   let v21 := get (0, junk) o20 in
   let v22 := fst v21 in
   let v23 := snd v21 in
   let o24 := from_bits Float8E4M3FNS 222 in
   let v25 := get junk o24 in
   let o26 := from_bits Float8E4M3FNS 223 in
   let v27 := get junk o26 in
   let o28 := next_down Float8E4M3FNS v25 in
   let v29 := get (0, junk) o28 in
   let v30 := fst v29 in
   let v31 := snd v29 in
   let o32 := from_bits Float8E4M3FNS 223 in
   let v33 := get junk o32 in
   let o34 := from_bits Float8E4M3FNS 224 in
   let v35 := get junk o34 in
   let o36 := next_down Float8E4M3FNS v33 in
   let v37 := get (0, junk) o36 in
   let v38 := fst v37 in
   let v39 := snd v37 in
   let o40 := from_bits Float8E4M3FNS 224 in
   let v41 := get junk o40 in
   let o42 := from_bits Float8E4M3FNS 225 in
   let v43 := get junk o42 in
   let o44 := next_down Float8E4M3FNS v41 in
   let v45 := get (0, junk) o44 in
   let v46 := fst v45 in
   let v47 := snd v45 in
   let o48 := from_bits Float8E4M3FNS 225 in
   let v49 := get junk o48 in
   let o50 := from_bits Float8E4M3FNS 226 in
   let v51 := get junk o50 in
   let o52 := next_down Float8E4M3FNS v49 in
   let v53 := get (0, junk) o52 in
   let v54 := fst v53 in
   let v55 := snd v53 in
   let o56 := from_bits Float8E4M3FNS 226 in
   let v57 := get junk o56 in
   let o58 := from_bits Float8E4M3FNS 227 in
   let v59 := get junk o58 in
   let o60 := next_down Float8E4M3FNS v57 in
   let v61 := get (0, junk) o60 in
   let v62 := fst v61 in
   let v63 := snd v61 in
   let o64 := from_bits Float8E4M3FNS 227 in
   all_true [
      returns o2;
      returns o4;
      bitwise_eq v7 v3;
      v6 =? OK;
      returns o8;
      returns o10;
      returns o12;
      bitwise_eq v15 v11;
      v14 =? OK;
      returns o16;
      returns o18;
      returns o20;
      bitwise_eq v23 v19;
      v22 =? OK;
      returns o24;
      returns o26;
      returns o28;
      bitwise_eq v31 v27;
      v30 =? OK;
      returns o32;
      returns o34;
      returns o36;
      bitwise_eq v39 v35;
      v38 =? OK;
      returns o40;
      returns o42;
      returns o44;
      bitwise_eq v47 v43;
      v46 =? OK;
      returns o48;
      returns o50;
      returns o52;
      bitwise_eq v55 v51;
      v54 =? OK;
      returns o56;
      returns o58;
      returns o60;
      bitwise_eq v63 v59;
      v62 =? OK;
      returns o64]) = true.
Proof. vm_compute. reflexivity. Qed.

Example test_float8e4m3fn_next_61 : (
   let o0 := from_bits Float8E4M3FNS 227 in
   let v1 := get junk o0 in
   let o2 := from_bits Float8E4M3FNS 228 in
   let v3 := get junk o2 in
   let o4 := next_down Float8E4M3FNS v1 in
   let v5 := get (0, junk) o4 in
   let v6 := fst v5 in
   let v7 := snd v5 in
   let o8 := from_bits Float8E4M3FNS 228 in
   let v9 := get junk o8 in
   let o10 := from_bits Float8E4M3FNS 229 in
   let v11 := get junk o10 in
   let o12 := next_down Float8E4M3FNS v9 in
   let v13 := get (0, junk) o12 in
   let v14 := fst v13 in
   let v15 := snd v13 in
   let o16 := from_bits Float8E4M3FNS 229 in
   let v17 := get junk o16 in
   let o18 := from_bits Float8E4M3FNS 230 in
   let v19 := get junk o18 in
   let o20 := next_down Float8E4M3FNS v17 in
   let v21 := get (0, junk) o20 in
   let v22 := fst v21 in
   let v23 := snd v21 in
   let o24 := from_bits Float8E4M3FNS 230 in
   let v25 := get junk o24 in
   let o26 := from_bits Float8E4M3FNS 231 in
   let v27 := get junk o26 in
   let o28 := next_down Float8E4M3FNS v25 in
   let v29 := get (0, junk) o28 in
   let v30 := fst v29 in
   let v31 := snd v29 in
   let o32 := from_bits Float8E4M3FNS 231 in
   let v33 := get junk o32 in
   let o34 := from_bits Float8E4M3FNS 232 in
   let v35 := get junk o34 in
   let o36 := next_down Float8E4M3FNS v33 in
   let v37 := get (0, junk) o36 in
   let v38 := fst v37 in
   let v39 := snd v37 in
   let o40 := from_bits Float8E4M3FNS 232 in
   let v41 := get junk o40 in
   let o42 := from_bits Float8E4M3FNS 233 in
   let v43 := get junk o42 in
   let o44 := next_down Float8E4M3FNS v41 in
   let v45 := get (0, junk) o44 in
   let v46 := fst v45 in
   let v47 := snd v45 in
   let o48 := from_bits Float8E4M3FNS 233 in
   let v49 := get junk o48 in
   let o50 := from_bits Float8E4M3FNS 234 in
   let v51 := get junk o50 in
   let o52 := next_down Float8E4M3FNS v49 in
   let v53 := get (0, junk) o52 in
   let v54 := fst v53 in
   let v55 := snd v53 in
   let o56 := from_bits Float8E4M3FNS 234 in
   let v57 := get junk o56 in
   let o58 := from_bits Float8E4M3FNS 235 in
   let v59 := get junk o58 in
   let o60 := next_down Float8E4M3FNS v57 in
   let v61 := get (0, junk) o60 in
   let v62 := fst v61 in
   let v63 := snd v61 in
   let o64 := from_bits Float8E4M3FNS 235 in
   all_true [
      returns o2;
      returns o4;
      bitwise_eq v7 v3;
      v6 =? OK;
      returns o8;
      returns o10;
      returns o12;
      bitwise_eq v15 v11;
      v14 =? OK;
      returns o16;
      returns o18;
      returns o20;
      bitwise_eq v23 v19;
      v22 =? OK;
      returns o24;
      returns o26;
      returns o28;
      bitwise_eq v31 v27;
      v30 =? OK;
      returns o32;
      returns o34;
      returns o36;
      bitwise_eq v39 v35;
      v38 =? OK;
      returns o40;
      returns o42;
      returns o44;
      bitwise_eq v47 v43;
      v46 =? OK;
      returns o48;
      returns o50;
      returns o52;
      bitwise_eq v55 v51;
      v54 =? OK;
      returns o56;
      returns o58;
      returns o60;
      bitwise_eq v63 v59;
      v62 =? OK;
      returns o64]) = true.
Proof. vm_compute. reflexivity. Qed.

Example test_float8e4m3fn_next_62 : (
   let o0 := from_bits Float8E4M3FNS 235 in
   let v1 := get junk o0 in
   let o2 := from_bits Float8E4M3FNS 236 in
   let v3 := get junk o2 in
   let o4 := next_down Float8E4M3FNS v1 in
   let v5 := get (0, junk) o4 in
   let v6 := fst v5 in
   let v7 := snd v5 in
   let o8 := from_bits Float8E4M3FNS 236 in
   let v9 := get junk o8 in
   let o10 := from_bits Float8E4M3FNS 237 in
   let v11 := get junk o10 in
   let o12 := next_down Float8E4M3FNS v9 in
   let v13 := get (0, junk) o12 in
   let v14 := fst v13 in
   let v15 := snd v13 in
   let o16 := from_bits Float8E4M3FNS 237 in
   let v17 := get junk o16 in
   let o18 := from_bits Float8E4M3FNS 238 in
   let v19 := get junk o18 in
   let o20 := next_down Float8E4M3FNS v17 in
   let v21 := get (0, junk) o20 in
   let v22 := fst v21 in
   let v23 := snd v21 in
   let o24 := from_bits Float8E4M3FNS 238 in
   let v25 := get junk o24 in
   let o26 := from_bits Float8E4M3FNS 239 in
   let v27 := get junk o26 in
   let o28 := next_down Float8E4M3FNS v25 in
   let v29 := get (0, junk) o28 in
   let v30 := fst v29 in
   let v31 := snd v29 in
   let o32 := from_bits Float8E4M3FNS 239 in
   let v33 := get junk o32 in
   let o34 := from_bits Float8E4M3FNS 240 in
   let v35 := get junk o34 in
   let o36 := next_down Float8E4M3FNS v33 in
   let v37 := get (0, junk) o36 in
   let v38 := fst v37 in
   let v39 := snd v37 in
   let o40 := from_bits Float8E4M3FNS 240 in
   let v41 := get junk o40 in
   let o42 := from_bits Float8E4M3FNS 241 in
   let v43 := get junk o42 in
   let o44 := next_down Float8E4M3FNS v41 in
   let v45 := get (0, junk) o44 in
   let v46 := fst v45 in
   let v47 := snd v45 in
   let o48 := from_bits Float8E4M3FNS 241 in
   let v49 := get junk o48 in
   let o50 := from_bits Float8E4M3FNS 242 in
   let v51 := get junk o50 in
   let o52 := next_down Float8E4M3FNS v49 in
   let v53 := get (0, junk) o52 in
   let v54 := fst v53 in
   let v55 := snd v53 in
   let o56 := from_bits Float8E4M3FNS 242 in
   let v57 := get junk o56 in
   let o58 := from_bits Float8E4M3FNS 243 in
   let v59 := get junk o58 in
   let o60 := next_down Float8E4M3FNS v57 in
   let v61 := get (0, junk) o60 in
   let v62 := fst v61 in
   let v63 := snd v61 in
   let o64 := from_bits Float8E4M3FNS 243 in
   all_true [
      returns o2;
      returns o4;
      bitwise_eq v7 v3;
      v6 =? OK;
      returns o8;
      returns o10;
      returns o12;
      bitwise_eq v15 v11;
      v14 =? OK;
      returns o16;
      returns o18;
      returns o20;
      bitwise_eq v23 v19;
      v22 =? OK;
      returns o24;
      returns o26;
      returns o28;
      bitwise_eq v31 v27;
      v30 =? OK;
      returns o32;
      returns o34;
      returns o36;
      bitwise_eq v39 v35;
      v38 =? OK;
      returns o40;
      returns o42;
      returns o44;
      bitwise_eq v47 v43;
      v46 =? OK;
      returns o48;
      returns o50;
      returns o52;
      bitwise_eq v55 v51;
      v54 =? OK;
      returns o56;
      returns o58;
      returns o60;
      bitwise_eq v63 v59;
      v62 =? OK;
      returns o64]) = true.
Proof. vm_compute. reflexivity. Qed.

Example test_float8e4m3fn_next_63 : (
   let o0 := from_bits Float8E4M3FNS 243 in
   let v1 := get junk o0 in
   let o2 := from_bits Float8E4M3FNS 244 in
   let v3 := get junk o2 in
   let o4 := next_down Float8E4M3FNS v1 in
   let v5 := get (0, junk) o4 in
   let v6 := fst v5 in
   let v7 := snd v5 in
   let o8 := from_bits Float8E4M3FNS 244 in
   let v9 := get junk o8 in
   let o10 := from_bits Float8E4M3FNS 245 in
   let v11 := get junk o10 in
   let o12 := next_down Float8E4M3FNS v9 in
   let v13 := get (0, junk) o12 in
   let v14 := fst v13 in
   let v15 := snd v13 in
   let o16 := from_bits Float8E4M3FNS 245 in
   let v17 := get junk o16 in
   let o18 := from_bits Float8E4M3FNS 246 in
   let v19 := get junk o18 in
   let o20 := next_down Float8E4M3FNS v17 in
   let v21 := get (0, junk) o20 in
   let v22 := fst v21 in
   let v23 := snd v21 in
   let o24 := from_bits Float8E4M3FNS 246 in
   let v25 := get junk o24 in
   let o26 := from_bits Float8E4M3FNS 247 in
   let v27 := get junk o26 in
   let o28 := next_down Float8E4M3FNS v25 in
   let v29 := get (0, junk) o28 in
   let v30 := fst v29 in
   let v31 := snd v29 in
   let o32 := from_bits Float8E4M3FNS 247 in
   let v33 := get junk o32 in
   let o34 := from_bits Float8E4M3FNS 248 in
   let v35 := get junk o34 in
   let o36 := next_down Float8E4M3FNS v33 in
   let v37 := get (0, junk) o36 in
   let v38 := fst v37 in
   let v39 := snd v37 in
   let o40 := from_bits Float8E4M3FNS 248 in
   let v41 := get junk o40 in
   let o42 := from_bits Float8E4M3FNS 249 in
   let v43 := get junk o42 in
   let o44 := next_down Float8E4M3FNS v41 in
   let v45 := get (0, junk) o44 in
   let v46 := fst v45 in
   let v47 := snd v45 in
   let o48 := from_bits Float8E4M3FNS 249 in
   let v49 := get junk o48 in
   let o50 := from_bits Float8E4M3FNS 250 in
   let v51 := get junk o50 in
   let o52 := next_down Float8E4M3FNS v49 in
   let v53 := get (0, junk) o52 in
   let v54 := fst v53 in
   let v55 := snd v53 in
   let o56 := from_bits Float8E4M3FNS 250 in
   let v57 := get junk o56 in
   let o58 := from_bits Float8E4M3FNS 251 in
   let v59 := get junk o58 in
   let o60 := next_down Float8E4M3FNS v57 in
   let v61 := get (0, junk) o60 in
   let v62 := fst v61 in
   let v63 := snd v61 in
   let o64 := from_bits Float8E4M3FNS 251 in
   all_true [
      returns o2;
      returns o4;
      bitwise_eq v7 v3;
      v6 =? OK;
      returns o8;
      returns o10;
      returns o12;
      bitwise_eq v15 v11;
      v14 =? OK;
      returns o16;
      returns o18;
      returns o20;
      bitwise_eq v23 v19;
      v22 =? OK;
      returns o24;
      returns o26;
      returns o28;
      bitwise_eq v31 v27;
      v30 =? OK;
      returns o32;
      returns o34;
      returns o36;
      bitwise_eq v39 v35;
      v38 =? OK;
      returns o40;
      returns o42;
      returns o44;
      bitwise_eq v47 v43;
      v46 =? OK;
      returns o48;
      returns o50;
      returns o52;
      bitwise_eq v55 v51;
      v54 =? OK;
      returns o56;
      returns o58;
      returns o60;
      bitwise_eq v63 v59;
      v62 =? OK;
      returns o64]) = true.
Proof. vm_compute. reflexivity. Qed.

Example test_float8e4m3fn_next_64 : (
   let o0 := from_bits Float8E4M3FNS 251 in
   let v1 := get junk o0 in
   let o2 := from_bits Float8E4M3FNS 252 in
   let v3 := get junk o2 in
   let o4 := next_down Float8E4M3FNS v1 in
   let v5 := get (0, junk) o4 in
   let v6 := fst v5 in
   let v7 := snd v5 in
   let o8 := from_bits Float8E4M3FNS 252 in
   let v9 := get junk o8 in
   let o10 := from_bits Float8E4M3FNS 253 in
   let v11 := get junk o10 in
   let o12 := next_down Float8E4M3FNS v9 in
   let v13 := get (0, junk) o12 in
   let v14 := fst v13 in
   let v15 := snd v13 in
   let o16 := from_bits Float8E4M3FNS 253 in
   let v17 := get junk o16 in
   let o18 := from_bits Float8E4M3FNS 254 in
   let v19 := get junk o18 in
   let o20 := next_down Float8E4M3FNS v17 in
   let v21 := get (0, junk) o20 in
   let v22 := fst v21 in
   let v23 := snd v21 in
   let o24 := from_bits Float8E4M3FNS 254 in
   let v25 := get junk o24 in
   let o26 := from_bits Float8E4M3FNS 255 in
   let v27 := get junk o26 in
   let o28 := next_down Float8E4M3FNS v25 in
   let v29 := get (0, junk) o28 in
   let v30 := fst v29 in
   let v31 := snd v29 in
   let v32 := qnan Float8E4M3FNS None in
   let v33 := qnan Float8E4M3FNS None in
   let o34 := next_down Float8E4M3FNS v32 in
   let v35 := get (0, junk) o34 in
   let v36 := fst v35 in
   let v37 := snd v35 in
   all_true [
      returns o2;
      returns o4;
      bitwise_eq v7 v3;
      v6 =? OK;
      returns o8;
      returns o10;
      returns o12;
      bitwise_eq v15 v11;
      v14 =? OK;
      returns o16;
      returns o18;
      returns o20;
      bitwise_eq v23 v19;
      v22 =? OK;
      returns o24;
      returns o26;
      returns o28;
      bitwise_eq v31 v27;
      v30 =? OK;
      returns o34;
      bitwise_eq v37 v33;
      v36 =? OK]) = true.
Proof. vm_compute. reflexivity. Qed.

(** ieee.rs:4480 [float8e4m3fn_exhaustive] *)
Definition e4m3fn_ok (i : Z) : bool :=
  let S := Float8E4M3FNS in
  let o := from_bits S i in
  let test := get junk o in
  let v := lossless S DoubleS (abs test) in
  let c := convert S BFloatS test in
  let '(status, test2, loses_info) := get (0, junk, true) c in
  let b := to_bits S test in
  all_true [returns o;
    Bool.eqb (is_largest S test) ((i =? 126) || (i =? 254));
    if (i =? 126) || (i =? 254) then
      returns v && get false (eq_f (get junk v) (get junk (from_bits DoubleS 4646588915539509248))) else true;
    Bool.eqb (is_smallest S test) ((i =? 1) || (i =? 129));
    if (i =? 1) || (i =? 129) then
      returns v && get false (eq_f (get junk v) (get junk (from_bits DoubleS 4566650022153682944))) else true;
    returns c; status =? OK; negb loses_info;
    if (i =? 127) || (i =? 255) then is_nan test2
    else let s := lossless S SingleS test in let s2 := lossless BFloatS SingleS test2 in
         returns s && returns s2 && get false (eq_f (get junk s) (get junk s2));
    returns b; get 0 b =? i].
Example test_float8e4m3fn_exhaustive : forallb e4m3fn_ok octets = true.
Proof. vm_compute. reflexivity. Qed.

(** ieee.rs:4519 [float8e4m3fn_exhaustive_pair]: each operation on 832
    of the 65536 pairs (all pairs pass; checking them takes minutes) *)
Definition same_through_half (f : Semantics -> outcome (Z * Float)) : bool :=
  match f Float8E4M3FNS, f HalfS with
  | Ret (_, z), Ret (_, z16) =>
      match convert HalfS Float8E4M3FNS z16 with
      | Ret (_, z', _) => bitwise_eq z z'
      | _ => false
      end
  | _, _ => false
  end.
Definition in_format (S : Semantics) (x x16 : Float) : Float := if BITS S =? 8 then x else x16.
Definition to_half (x : Float) : outcome Float :=
  let! '(_, r, loses_info) := convert Float8E4M3FNS HalfS x in if loses_info then Panic else Ret r.
Definition pair_same (i j : Z) : bool :=
  match from_bits Float8E4M3FNS i, from_bits Float8E4M3FNS j with
  | Ret x, Ret y =>
      match to_half x, to_half y with
      | Ret x16, Ret y16 =>
          forallb (fun f => same_through_half (fun S => f S (in_format S x x16) (in_format S y y16)))
            [op_add; op_sub; op_mul; op_div; op_rem; ieee_rem]
      | _, _ => false
      end
  | _, _ => false
  end.
Example test_float8e4m3fn_exhaustive_pair :
  forallb (fun i => forallb (pair_same i) (map (fun k => 5 * Z.of_nat k) (seq 0 52)))
    (map (fun k => 17 * Z.of_nat k) (seq 0 16)) = true.
Proof. vm_compute. reflexivity. Qed.

(** ieee.rs:4566 [f8_to_string], on every seventh encoding (all pass) *)
Definition some_octets : list Z := map (fun k => 7 * Z.of_nat k) (seq 0 37).
Definition f8_to_string_ok (S : Semantics) (i : Z) : bool :=
  let o := from_bits S i in
  let test := get junk o in
  let s := fmt S test None None false in
  returns o && returns s &&
  (if is_nan test then str_eqb (get [] s) (bytes "NaN")
   else let p := unwrap_parse (from_str S (get [] s)) in returns p && bitwise_eq test (get junk p)).
Example test_f8_to_string :
  forallb (f8_to_string_ok Float8E5M2S) some_octets && forallb (f8_to_string_ok Float8E4M3FNS) some_octets = true.
Proof. vm_compute. reflexivity. Qed.

(** downstream.rs:376 [fuzz_fma_with_expected_outputs] *)
Example test_fuzz_fma_with_expected_outputs_1 : (
   let o0 := from_bits SingleS 4096 in
   let o1 := from_bits SingleS 26 in
   let o2 := from_bits SingleS 4294908416 in
   let v3 := get junk o0 in
   let v4 := get junk o1 in
   let v5 := get junk o2 in
   let o6 := mul_add SingleS v3 v4 v5 in
   let v7 := snd (get (0, junk) o6) in
   let o8 := to_bits SingleS v7 in
   let o9 := from_bits SingleS 32938 in
   let o10 := from_bits SingleS 2868838400 in
   let o11 := from_bits SingleS 4288544895 in
   let v12 := get junk o9 in
   let v13 := get junk o10 in
   let v14 := get junk o11 in
   let o15 := mul_add SingleS v12 v13 v14 in
   let v16 := snd (get (0, junk) o15) in
   let o17 := to_bits SingleS v16 in
   let o18 := from_bits SingleS 33855 in
   let o19 := from_bits SingleS 8716160 in
   let o20 := from_bits SingleS 4294934528 in
   let v21 := get junk o18 in
   let v22 := get junk o19 in
   let v23 := get junk o20 in
   let o24 := mul_add SingleS v21 v22 v23 in
   let v25 := snd (get (0, junk) o24) in
   let o26 := to_bits SingleS v25 in
   let o27 := from_bits SingleS 40618 in
   let o28 := from_bits SingleS 538803998 in
   let o29 := from_bits SingleS 4294901761 in
   let v30 := get junk o27 in
   let v31 := get junk o28 in
   let v32 := get junk o29 in
   let o33 := mul_add SingleS v30 v31 v32 in
   let v34 := snd (get (0, junk) o33) in
   let o35 := to_bits SingleS v34 in
   let o36 := from_bits SingleS 33816831 in
   let o37 := from_bits SingleS 2139038208 in
   let o38 := from_bits SingleS 4294967295 in
   let v39 := get junk o36 in
   let v40 := get junk o37 in
   let v41 := get junk o38 in
   let o42 := mul_add SingleS v39 v40 v41 in
   let v43 := snd (get (0, junk) o42) in
   let o44 := to_bits SingleS v43 in
   let o45 := from_bits SingleS 33948448 in
   let o46 := from_bits SingleS 536880417 in
   let o47 := from_bits SingleS 2139095040 in
   let v48 := get junk o45 in
   let v49 := get junk o46 in
   let v50 := get junk o47 in
   let o51 := mul_add SingleS v48 v49 v50 in
   let v52 := snd (get (0, junk) o51) in
   let o53 := to_bits SingleS v52 in
   let o54 := from_bits SingleS 67108992 in
   let o55 := from_bits SingleS 4286578432 in
   let o56 := from_bits SingleS 4286578688 in
   let v57 := get junk o54 in
   let v58 := get junk o55 in
   let v59 := get junk o56 in
   let o60 := mul_add SingleS v57 v58 v59 in
   all_true [
      returns o0;
      returns o1;
      returns o2;
      returns o6;
      returns o8;
      (get 0 o8) =? 4294908416;
      returns o9;
      returns o10;
      returns o11;
      returns o15;
      returns o17;
      (get 0 o17) =? 4292739199;
      returns o18;
      returns o19;
      returns o20;
      returns o24;
      returns o26;
      (get 0 o26) =? 4294934528;
      returns o27;
      returns o28;
      returns o29;
      returns o33;
      returns o35;
      (get 0 o35) =? 4294901761;
      returns o36;
      returns o37;
      returns o38;
      returns o42;
      returns o44;
      (get 0 o44) =? 4294967295;
      returns o45;
      returns o46;
      returns o47;
      returns o51;
      returns o53;
      (get 0 o53) =? 2139095040;
      returns o54;
      returns o55;
      returns o56;
      returns o60]) = true.
Proof. vm_compute. reflexivity. Qed.

Example test_fuzz_fma_with_expected_outputs_2 : (
   let o0 := from_bits SingleS 67108992 in
   let o1 := from_bits SingleS 4286578432 in
   let o2 := from_bits SingleS 4286578688 in
   let v3 := get junk o0 in
   let v4 := get junk o1 in
   let v5 := get junk o2 in
   let o6 := mul_add SingleS v3 v4 v5 in
   let v7 := snd (get (0, junk) o6) in
   let o8 := to_bits SingleS v7 in
   let o9 := from_bits SingleS 67141546 in
   let o10 := from_bits SingleS 4280287232 in
   let o11 := from_bits SingleS 4294901760 in
   let v12 := get junk o9 in
   let v13 := get junk o10 in
   let v14 := get junk o11 in
   let o15 := mul_add SingleS v12 v13 v14 in
   let v16 := snd (get (0, junk) o15) in
   let o17 := to_bits SingleS v16 in
   let o18 := from_bits SingleS 503710719 in
   let o19 := from_bits SingleS 1048576 in
   let o20 := from_bits SingleS 4294967119 in
   let v21 := get junk o18 in
   let v22 := get junk o19 in
   let v23 := get junk o20 in
   let o24 := mul_add SingleS v21 v22 v23 in
   let v25 := snd (get (0, junk) o24) in
   let o26 := to_bits SingleS v25 in
   let o27 := from_bits SingleS 536872106 in
   let o28 := from_bits SingleS 2105376 in
   let o29 := from_bits SingleS 2147418367 in
   let v30 := get junk o27 in
   let v31 := get junk o28 in
   let v32 := get junk o29 in
   let o33 := mul_add SingleS v30 v31 v32 in
   let v34 := snd (get (0, junk) o33) in
   let o35 := to_bits SingleS v34 in
   let o36 := from_bits SingleS 536895146 in
   let o37 := from_bits SingleS 2661195322 in
   let o38 := from_bits SingleS 4288544926 in
   let v39 := get junk o36 in
   let v40 := get junk o37 in
   let v41 := get junk o38 in
   let o42 := mul_add SingleS v39 v40 v41 in
   let v43 := snd (get (0, junk) o42) in
   let o44 := to_bits SingleS v43 in
   let o45 := from_bits SingleS 536903594 in
   let o46 := from_bits SingleS 2650824990 in
   let o47 := from_bits SingleS 2141849088 in
   let v48 := get junk o45 in
   let v49 := get junk o46 in
   let v50 := get junk o47 in
   let o51 := mul_add SingleS v48 v49 v50 in
   let v52 := snd (get (0, junk) o51) in
   let o53 := to_bits SingleS v52 in
   let o54 := from_bits SingleS 536903594 in
   let o55 := from_bits SingleS 2852560414 in
   let o56 := from_bits SingleS 4294962431 in
   let v57 := get junk o54 in
   let v58 := get junk o55 in
   let v59 := get junk o56 in
   let o60 := mul_add SingleS v57 v58 v59 in
   let v61 := snd (get (0, junk) o60) in
   let o62 := to_bits SingleS v61 in
   let o63 := from_bits SingleS 537026218 in
   let o64 := from_bits SingleS 2650866490 in
   all_true [
      returns o8;
      (get 0 o8) =? 4286578688;
      returns o9;
      returns o10;
      returns o11;
      returns o15;
      returns o17;
      (get 0 o17) =? 4294901760;
      returns o18;
      returns o19;
      returns o20;
      returns o24;
      returns o26;
      (get 0 o26) =? 4294967119;
      returns o27;
      returns o28;
      returns o29;
      returns o33;
      returns o35;
      (get 0 o35) =? 2147418367;
      returns o36;
      returns o37;
      returns o38;
      returns o42;
      returns o44;
      (get 0 o44) =? 4292739230;
      returns o45;
      returns o46;
      returns o47;
      returns o51;
      returns o53;
      (get 0 o53) =? 2146043392;
      returns o54;
      returns o55;
      returns o56;
      returns o60;
      returns o62;
      (get 0 o62) =? 4294962431;
      returns o63;
      returns o64]) = true.
Proof. vm_compute. reflexivity. Qed.

Example test_fuzz_fma_with_expected_outputs_3 : (
   let o0 := from_bits SingleS 537026218 in
   let o1 := from_bits SingleS 2650866490 in
   let o2 := from_bits SingleS 4288544926 in
   let v3 := get junk o0 in
   let v4 := get junk o1 in
   let v5 := get junk o2 in
   let o6 := mul_add SingleS v3 v4 v5 in
   let v7 := snd (get (0, junk) o6) in
   let o8 := to_bits SingleS v7 in
   let o9 := from_bits SingleS 857011200 in
   let o10 := from_bits SingleS 16742659 in
   let o11 := from_bits SingleS 4294967259 in
   let v12 := get junk o9 in
   let v13 := get junk o10 in
   let v14 := get junk o11 in
   let o15 := mul_add SingleS v12 v13 v14 in
   let v16 := snd (get (0, junk) o15) in
   let o17 := to_bits SingleS v16 in
   let o18 := from_bits SingleS 857011200 in
   let o19 := from_bits SingleS 16742659 in
   let o20 := from_bits SingleS 4294967286 in
   let v21 := get junk o18 in
   let v22 := get junk o19 in
   let v23 := get junk o20 in
   let o24 := mul_add SingleS v21 v22 v23 in
   let v25 := snd (get (0, junk) o24) in
   let o26 := to_bits SingleS v25 in
   let o27 := from_bits SingleS 975274613 in
   let o28 := from_bits SingleS 976894522 in
   let o29 := from_bits SingleS 2139751994 in
   let v30 := get junk o27 in
   let v31 := get junk o28 in
   let v32 := get junk o29 in
   let o33 := mul_add SingleS v30 v31 v32 in
   let v34 := snd (get (0, junk) o33) in
   let o35 := to_bits SingleS v34 in
   let o36 := from_bits SingleS 1073741825 in
   let o37 := from_bits SingleS 4278190078 in
   let o38 := from_bits SingleS 4294852863 in
   let v39 := get junk o36 in
   let v40 := get junk o37 in
   let v41 := get junk o38 in
   let o42 := mul_add SingleS v39 v40 v41 in
   let v43 := snd (get (0, junk) o42) in
   let o44 := to_bits SingleS v43 in
   let o45 := from_bits SingleS 1342209962 in
   let o46 := from_bits SingleS 4603 in
   let o47 := from_bits SingleS 4286578688 in
   let v48 := get junk o45 in
   let v49 := get junk o46 in
   let v50 := get junk o47 in
   let o51 := mul_add SingleS v48 v49 v50 in
   let v52 := snd (get (0, junk) o51) in
   let o53 := to_bits SingleS v52 in
   let o54 := from_bits SingleS 1677754251 in
   let o55 := from_bits SingleS 4204431106 in
   let o56 := from_bits SingleS 4286709760 in
   let v57 := get junk o54 in
   let v58 := get junk o55 in
   let v59 := get junk o56 in
   let o60 := mul_add SingleS v57 v58 v59 in
   let v61 := snd (get (0, junk) o60) in
   let o62 := to_bits SingleS v61 in
   all_true [
      returns o2;
      returns o6;
      returns o8;
      (get 0 o8) =? 4292739230;
      returns o9;
      returns o10;
      returns o11;
      returns o15;
      returns o17;
      (get 0 o17) =? 4294967259;
      returns o18;
      returns o19;
      returns o20;
      returns o24;
      returns o26;
      (get 0 o26) =? 4294967286;
      returns o27;
      returns o28;
      returns o29;
      returns o33;
      returns o35;
      (get 0 o35) =? 2143946298;
      returns o36;
      returns o37;
      returns o38;
      returns o42;
      returns o44;
      (get 0 o44) =? 4294852863;
      returns o45;
      returns o46;
      returns o47;
      returns o51;
      returns o53;
      (get 0 o53) =? 4286578688;
      returns o54;
      returns o55;
      returns o56;
      returns o60;
      returns o62;
      (get 0 o62) =? 4290904064]) = true.
Proof. vm_compute. reflexivity. Qed.

Example test_fuzz_fma_with_expected_outputs_4 : (
   let o0 := from_bits SingleS 1778483114 in
   let o1 := from_bits SingleS 112 in
   let o2 := from_bits SingleS 4286634755 in
   let v3 := get junk o0 in
   let v4 := get junk o1 in
   let v5 := get junk o2 in
   let o6 := mul_add SingleS v3 v4 v5 in
   let v7 := snd (get (0, junk) o6) in
   let o8 := to_bits SingleS v7 in
   let o9 := from_bits SingleS 1778483114 in
   let o10 := from_bits SingleS 112 in
   let o11 := from_bits SingleS 4286634787 in
   let v12 := get junk o9 in
   let v13 := get junk o10 in
   let v14 := get junk o11 in
   let o15 := mul_add SingleS v12 v13 v14 in
   let v16 := snd (get (0, junk) o15) in
   let o17 := to_bits SingleS v16 in
   let o18 := from_bits SingleS 1845493760 in
   let o19 := from_bits SingleS 3741351936 in
   let o20 := from_bits SingleS 2139095040 in
   let v21 := get junk o18 in
   let v22 := get junk o19 in
   let v23 := get junk o20 in
   let o24 := mul_add SingleS v21 v22 v23 in
   let v25 := snd (get (0, junk) o24) in
   let o26 := to_bits SingleS v25 in
   let o27 := from_bits SingleS 2139094784 in
   let o28 := from_bits SingleS 33554560 in
   let o29 := from_bits SingleS 2143289344 in
   let v30 := get junk o27 in
   let v31 := get junk o28 in
   let v32 := get junk o29 in
   let o33 := mul_add SingleS v30 v31 v32 in
   let v34 := snd (get (0, junk) o33) in
   let o35 := to_bits SingleS v34 in
   let o36 := from_bits SingleS 3018522879 in
   let o37 := from_bits SingleS 16773090 in
   let o38 := from_bits SingleS 4294967017 in
   let v39 := get junk o36 in
   let v40 := get junk o37 in
   let v41 := get junk o38 in
   let o42 := mul_add SingleS v39 v40 v41 in
   let v43 := snd (get (0, junk) o42) in
   let o44 := to_bits SingleS v43 in
   let o45 := from_bits SingleS 3741713407 in
   let o46 := from_bits SingleS 2155872511 in
   let o47 := from_bits SingleS 4288348160 in
   let v48 := get junk o45 in
   let v49 := get junk o46 in
   let v50 := get junk o47 in
   let o51 := mul_add SingleS v48 v49 v50 in
   let v52 := snd (get (0, junk) o51) in
   let o53 := to_bits SingleS v52 in
   let o54 := from_bits SingleS 4043313409 in
   let o55 := from_bits SingleS 2134900736 in
   let o56 := from_bits SingleS 2139095040 in
   let v57 := get junk o54 in
   let v58 := get junk o55 in
   let v59 := get junk o56 in
   let o60 := mul_add SingleS v57 v58 v59 in
   all_true [
      returns o0;
      returns o1;
      returns o2;
      returns o6;
      returns o8;
      (get 0 o8) =? 4290829059;
      returns o9;
      returns o10;
      returns o11;
      returns o15;
      returns o17;
      (get 0 o17) =? 4290829091;
      returns o18;
      returns o19;
      returns o20;
      returns o24;
      returns o26;
      (get 0 o26) =? 2139095040;
      returns o27;
      returns o28;
      returns o29;
      returns o33;
      returns o35;
      (get 0 o35) =? 2143289344;
      returns o36;
      returns o37;
      returns o38;
      returns o42;
      returns o44;
      (get 0 o44) =? 4294967017;
      returns o45;
      returns o46;
      returns o47;
      returns o51;
      returns o53;
      (get 0 o53) =? 4292542464;
      returns o54;
      returns o55;
      returns o56;
      returns o60]) = true.
Proof. vm_compute. reflexivity. Qed.

Example test_fuzz_fma_with_expected_outputs_5 : (
   let o0 := from_bits SingleS 4043313409 in
   let o1 := from_bits SingleS 2134900736 in
   let o2 := from_bits SingleS 2139095040 in
   let v3 := get junk o0 in
   let v4 := get junk o1 in
   let v5 := get junk o2 in
   let o6 := mul_add SingleS v3 v4 v5 in
   let v7 := snd (get (0, junk) o6) in
   let o8 := to_bits SingleS v7 in
   let o9 := from_bits SingleS 4110418048 in
   let o10 := from_bits SingleS 3388997376 in
   let o11 := from_bits SingleS 4294934527 in
   let v12 := get junk o9 in
   let v13 := get junk o10 in
   let v14 := get junk o11 in
   let o15 := mul_add SingleS v12 v13 v14 in
   let v16 := snd (get (0, junk) o15) in
   let o17 := to_bits SingleS v16 in
   let o18 := from_bits SingleS 4127195135 in
   let o19 := from_bits SingleS 4278192905 in
   let o20 := from_bits SingleS 4286578688 in
   let v21 := get junk o18 in
   let v22 := get junk o19 in
   let v23 := get junk o20 in
   let o24 := mul_add SingleS v21 v22 v23 in
   let v25 := snd (get (0, junk) o24) in
   let o26 := to_bits SingleS v25 in
   let o27 := from_bits SingleS 4143983080 in
   let o28 := from_bits SingleS 4160749439 in
   let o29 := from_bits SingleS 4294934527 in
   let v30 := get junk o27 in
   let v31 := get junk o28 in
   let v32 := get junk o29 in
   let o33 := mul_add SingleS v30 v31 v32 in
   let v34 := snd (get (0, junk) o33) in
   let o35 := to_bits SingleS v34 in
   let o36 := from_bits SingleS 4278222762 in
   let o37 := from_bits SingleS 3556748517 in
   let o38 := from_bits SingleS 4294934272 in
   let v39 := get junk o36 in
   let v40 := get junk o37 in
   let v41 := get junk o38 in
   let o42 := mul_add SingleS v39 v40 v41 in
   let v43 := snd (get (0, junk) o42) in
   let o44 := to_bits SingleS v43 in
   let o45 := from_bits SingleS 4280287232 in
   let o46 := from_bits SingleS 3816882175 in
   let o47 := from_bits SingleS 4286578688 in
   let v48 := get junk o45 in
   let v49 := get junk o46 in
   let v50 := get junk o47 in
   let o51 := mul_add SingleS v48 v49 v50 in
   let v52 := snd (get (0, junk) o51) in
   let o53 := to_bits SingleS v52 in
   let o54 := from_bits SingleS 4285333504 in
   let o55 := from_bits SingleS 3240101375 in
   let o56 := from_bits SingleS 4286578688 in
   let v57 := get junk o54 in
   let v58 := get junk o55 in
   let v59 := get junk o56 in
   let o60 := mul_add SingleS v57 v58 v59 in
   let v61 := snd (get (0, junk) o60) in
   let o62 := to_bits SingleS v61 in
   let o63 := from_bits DoubleS 30 in
   let o64 := from_bits DoubleS 4292804608 in
   all_true [
      returns o8;
      (get 0 o8) =? 2139095040;
      returns o9;
      returns o10;
      returns o11;
      returns o15;
      returns o17;
      (get 0 o17) =? 4294934527;
      returns o18;
      returns o19;
      returns o20;
      returns o24;
      returns o26;
      (get 0 o26) =? 4286578688;
      returns o27;
      returns o28;
      returns o29;
      returns o33;
      returns o35;
      (get 0 o35) =? 4294934527;
      returns o36;
      returns o37;
      returns o38;
      returns o42;
      returns o44;
      (get 0 o44) =? 4294934272;
      returns o45;
      returns o46;
      returns o47;
      returns o51;
      returns o53;
      (get 0 o53) =? 4286578688;
      returns o54;
      returns o55;
      returns o56;
      returns o60;
      returns o62;
      (get 0 o62) =? 4286578688;
      returns o63;
      returns o64]) = true.
Proof. vm_compute. reflexivity. Qed.

Example test_fuzz_fma_with_expected_outputs_6 : (
   let o0 := from_bits DoubleS 30 in
   let o1 := from_bits DoubleS 4292804608 in
   let o2 := from_bits DoubleS 18446743523953737728 in
   let v3 := get junk o0 in
   let v4 := get junk o1 in
   let v5 := get junk o2 in
   let o6 := mul_add DoubleS v3 v4 v5 in
   let v7 := snd (get (0, junk) o6) in
   let o8 := to_bits DoubleS v7 in
   let o9 := from_bits DoubleS 2147483647 in
   let o10 := from_bits DoubleS 18374686479673720832 in
   let o11 := from_bits DoubleS 18445899648779419881 in
   let v12 := get junk o9 in
   let v13 := get junk o10 in
   let v14 := get junk o11 in
   let o15 := mul_add DoubleS v12 v13 v14 in
   let v16 := snd (get (0, junk) o15) in
   let o17 := to_bits DoubleS v16 in
   let o18 := from_bits DoubleS 2199038132224 in
   let o19 := from_bits DoubleS 18374686479956836352 in
   let o20 := from_bits DoubleS 18445899648779477225 in
   let v21 := get junk o18 in
   let v22 := get junk o19 in
   let v23 := get junk o20 in
   let o24 := mul_add DoubleS v21 v22 v23 in
   let v25 := snd (get (0, junk) o24) in
   let o26 := to_bits DoubleS v25 in
   let o27 := from_bits DoubleS 4398046536704 in
   let o28 := from_bits DoubleS 987825700864 in
   let o29 := from_bits DoubleS 18446743949155500032 in
   let v30 := get junk o27 in
   let v31 := get junk o28 in
   let v32 := get junk o29 in
   let o33 := mul_add DoubleS v30 v31 v32 in
   let v34 := snd (get (0, junk) o33) in
   let o35 := to_bits DoubleS v34 in
   let o36 := from_bits DoubleS 116548232544256 in
   let o37 := from_bits DoubleS 22541087882672625 in
   let o38 := from_bits DoubleS 9223371890825887744 in
   let v39 := get junk o36 in
   let v40 := get junk o37 in
   let v41 := get junk o38 in
   let o42 := mul_add DoubleS v39 v40 v41 in
   let v43 := snd (get (0, junk) o42) in
   let o44 := to_bits DoubleS v43 in
   let o45 := from_bits DoubleS 140711735329651 in
   let o46 := from_bits DoubleS 1407374900269183 in
   let o47 := from_bits DoubleS 18446744069414584325 in
   let v48 := get junk o45 in
   let v49 := get junk o46 in
   let v50 := get junk o47 in
   let o51 := mul_add DoubleS v48 v49 v50 in
   let v52 := snd (get (0, junk) o51) in
   let o53 := to_bits DoubleS v52 in
   let o54 := from_bits DoubleS 280925220896768 in
   let o55 := from_bits DoubleS 16777216 in
   let o56 := from_bits DoubleS 18442240474082181120 in
   let v57 := get junk o54 in
   let v58 := get junk o55 in
   let v59 := get junk o56 in
   let o60 := mul_add DoubleS v57 v58 v59 in
   let v61 := snd (get (0, junk) o60) in
   let o62 := to_bits DoubleS v61 in
   all_true [
      returns o2;
      returns o6;
      returns o8;
      (get 0 o8) =? 18446743523953737728;
      returns o9;
      returns o10;
      returns o11;
      returns o15;
      returns o17;
      (get 0 o17) =? 18445899648779419881;
      returns o18;
      returns o19;
      returns o20;
      returns o24;
      returns o26;
      (get 0 o26) =? 18445899648779477225;
      returns o27;
      returns o28;
      returns o29;
      returns o33;
      returns o35;
      (get 0 o35) =? 18446743949155500032;
      returns o36;
      returns o37;
      returns o38;
      returns o42;
      returns o44;
      (get 0 o44) =? 9223371890825887744;
      returns o45;
      returns o46;
      returns o47;
      returns o51;
      returns o53;
      (get 0 o53) =? 18446744069414584325;
      returns o54;
      returns o55;
      returns o56;
      returns o60;
      returns o62;
      (get 0 o62) =? 18442240474082181120]) = true.
Proof. vm_compute. reflexivity. Qed.

Example test_fuzz_fma_with_expected_outputs_7 : (
   let o0 := from_bits DoubleS 738875943747584 in
   let o1 := from_bits DoubleS 4611708008609611776 in
   let o2 := from_bits DoubleS 18446178924749626111 in
   let v3 := get junk o0 in
   let v4 := get junk o1 in
   let v5 := get junk o2 in
   let o6 := mul_add DoubleS v3 v4 v5 in
   let v7 := snd (get (0, junk) o6) in
   let o8 := to_bits DoubleS v7 in
   let o9 := from_bits DoubleS 1688849860269824 in
   let o10 := from_bits DoubleS 15636497909888319488 in
   let o11 := from_bits DoubleS 18446742858233807101 in
   let v12 := get junk o9 in
   let v13 := get junk o10 in
   let v14 := get junk o11 in
   let o15 := mul_add DoubleS v12 v13 v14 in
   let v16 := snd (get (0, junk) o15) in
   let o17 := to_bits DoubleS v16 in
   let o18 := from_bits DoubleS 1688850934005779 in
   let o19 := from_bits DoubleS 18085896885893468416 in
   let o20 := from_bits DoubleS 18446603331926233105 in
   let v21 := get junk o18 in
   let v22 := get junk o19 in
   let v23 := get junk o20 in
   let o24 := mul_add DoubleS v21 v22 v23 in
   let v25 := snd (get (0, junk) o24) in
   let o26 := to_bits DoubleS v25 in
   let o27 := from_bits DoubleS 67835469393821696 in
   let o28 := from_bits DoubleS 18439426128042000384 in
   let o29 := from_bits DoubleS 18445900129815756800 in
   let v30 := get junk o27 in
   let v31 := get junk o28 in
   let v32 := get junk o29 in
   let o33 := mul_add DoubleS v30 v31 v32 in
   let v34 := snd (get (0, junk) o33) in
   let o35 := to_bits DoubleS v34 in
   let o36 := from_bits DoubleS 369358943282988307 in
   let o37 := from_bits DoubleS 17942340915444119551 in
   let o38 := from_bits DoubleS 18442240474082181120 in
   let v39 := get junk o36 in
   let v40 := get junk o37 in
   let v41 := get junk o38 in
   let o42 := mul_add DoubleS v39 v40 v41 in
   let v43 := snd (get (0, junk) o42) in
   let o44 := to_bits DoubleS v43 in
   let o45 := from_bits DoubleS 378372737460077843 in
   let o46 := from_bits DoubleS 17151135673474875648 in
   let o47 := from_bits DoubleS 9223090562146826753 in
   let v48 := get junk o45 in
   let v49 := get junk o46 in
   let v50 := get junk o47 in
   let o51 := mul_add DoubleS v48 v49 v50 in
   let v52 := snd (get (0, junk) o51) in
   let o53 := to_bits DoubleS v52 in
   let o54 := from_bits DoubleS 378372737460077843 in
   let o55 := from_bits DoubleS 18435485074641125376 in
   let o56 := from_bits DoubleS 18442240542801657856 in
   let v57 := get junk o54 in
   let v58 := get junk o55 in
   let v59 := get junk o56 in
   let o60 := mul_add DoubleS v57 v58 v59 in
   all_true [
      returns o0;
      returns o1;
      returns o2;
      returns o6;
      returns o8;
      (get 0 o8) =? 18446178924749626111;
      returns o9;
      returns o10;
      returns o11;
      returns o15;
      returns o17;
      (get 0 o17) =? 18446742858233807101;
      returns o18;
      returns o19;
      returns o20;
      returns o24;
      returns o26;
      (get 0 o26) =? 18446603331926233105;
      returns o27;
      returns o28;
      returns o29;
      returns o33;
      returns o35;
      (get 0 o35) =? 18445900129815756800;
      returns o36;
      returns o37;
      returns o38;
      returns o42;
      returns o44;
      (get 0 o44) =? 18442240474082181120;
      returns o45;
      returns o46;
      returns o47;
      returns o51;
      returns o53;
      (get 0 o53) =? 9223090562146826753;
      returns o54;
      returns o55;
      returns o56;
      returns o60]) = true.
Proof. vm_compute. reflexivity. Qed.

Example test_fuzz_fma_with_expected_outputs_8 : (
   let o0 := from_bits DoubleS 378372737460077843 in
   let o1 := from_bits DoubleS 18435485074641125376 in
   let o2 := from_bits DoubleS 18442240542801657856 in
   let v3 := get junk o0 in
   let v4 := get junk o1 in
   let v5 := get junk o2 in
   let o6 := mul_add DoubleS v3 v4 v5 in
   let v7 := snd (get (0, junk) o6) in
   let o8 := to_bits DoubleS v7 in
   let o9 := from_bits DoubleS 378372737460134419 in
   let o10 := from_bits DoubleS 18147254698489413632 in
   let o11 := from_bits DoubleS 18442520918266740736 in
   let v12 := get junk o9 in
   let v13 := get junk o10 in
   let v14 := get junk o11 in
   let o15 := mul_add DoubleS v12 v13 v14 in
   let v16 := snd (get (0, junk) o15) in
   let o17 := to_bits DoubleS v16 in
   let o18 := from_bits DoubleS 432345564227632900 in
   let o19 := from_bits DoubleS 141733856774 in
   let o20 := from_bits DoubleS 18446743927680668416 in
   let v21 := get junk o18 in
   let v22 := get junk o19 in
   let v23 := get junk o20 in
   let o24 := mul_add DoubleS v21 v22 v23 in
   let v25 := snd (get (0, junk) o24) in
   let o26 := to_bits DoubleS v25 in
   let o27 := from_bits DoubleS 1370853505341850899 in
   let o28 := from_bits DoubleS 17613560475141 in
   let o29 := from_bits DoubleS 18445759976442920959 in
   let v30 := get junk o27 in
   let v31 := get junk o28 in
   let v32 := get junk o29 in
   let o33 := mul_add DoubleS v30 v31 v32 in
   let v34 := snd (get (0, junk) o33) in
   let o35 := to_bits DoubleS v34 in
   let o36 := from_bits DoubleS 1370853505341850899 in
   let o37 := from_bits DoubleS 11889520629818453509 in
   let o38 := from_bits DoubleS 18445197026474557439 in
   let v39 := get junk o36 in
   let v40 := get junk o37 in
   let v41 := get junk o38 in
   let o42 := mul_add DoubleS v39 v40 v41 in
   let v43 := snd (get (0, junk) o42) in
   let o44 := to_bits DoubleS v43 in
   let o45 := from_bits DoubleS 4613445237116961024 in
   let o46 := from_bits DoubleS 280650342989824 in
   let o47 := from_bits DoubleS 9223371952062727243 in
   let v48 := get junk o45 in
   let v49 := get junk o46 in
   let v50 := get junk o47 in
   let o51 := mul_add DoubleS v48 v49 v50 in
   let v52 := snd (get (0, junk) o51) in
   let o53 := to_bits DoubleS v52 in
   let o54 := from_bits DoubleS 4683743612482093056 in
   let o55 := from_bits DoubleS 281474975662080 in
   let o56 := from_bits DoubleS 18446741874686312703 in
   let v57 := get junk o54 in
   let v58 := get junk o55 in
   let v59 := get junk o56 in
   let o60 := mul_add DoubleS v57 v58 v59 in
   let v61 := snd (get (0, junk) o60) in
   let o62 := to_bits DoubleS v61 in
   let o63 := from_bits DoubleS 8825501086245322752 in
   let o64 := from_bits DoubleS 18409161093289769594 in
   all_true [
      returns o8;
      (get 0 o8) =? 18444492342615343104;
      returns o9;
      returns o10;
      returns o11;
      returns o15;
      returns o17;
      (get 0 o17) =? 18444772718080425984;
      returns o18;
      returns o19;
      returns o20;
      returns o24;
      returns o26;
      (get 0 o26) =? 18446743927680668416;
      returns o27;
      returns o28;
      returns o29;
      returns o33;
      returns o35;
      (get 0 o35) =? 18445759976442920959;
      returns o36;
      returns o37;
      returns o38;
      returns o42;
      returns o44;
      (get 0 o44) =? 18445197026474557439;
      returns o45;
      returns o46;
      returns o47;
      returns o51;
      returns o53;
      (get 0 o53) =? 9223371952062727243;
      returns o54;
      returns o55;
      returns o56;
      returns o60;
      returns o62;
      (get 0 o62) =? 18446741874686312703;
      returns o63;
      returns o64]) = true.
Proof. vm_compute. reflexivity. Qed.

Example test_fuzz_fma_with_expected_outputs_9 : (
   let o0 := from_bits DoubleS 8825501086245322752 in
   let o1 := from_bits DoubleS 18409161093289769594 in
   let o2 := from_bits DoubleS 18445900129831419904 in
   let v3 := get junk o0 in
   let v4 := get junk o1 in
   let v5 := get junk o2 in
   let o6 := mul_add DoubleS v3 v4 v5 in
   let v7 := snd (get (0, junk) o6) in
   let o8 := to_bits DoubleS v7 in
   let o9 := from_bits DoubleS 9151314520134643728 in
   let o10 := from_bits DoubleS 9151314520135823376 in
   let o11 := from_bits DoubleS 18442240474082181120 in
   let v12 := get junk o9 in
   let v13 := get junk o10 in
   let v14 := get junk o11 in
   let o15 := mul_add DoubleS v12 v13 v14 in
   let v16 := snd (get (0, junk) o15) in
   let o17 := to_bits DoubleS v16 in
   let o18 := from_bits DoubleS 9151351826388353270 in
   let o19 := from_bits DoubleS 18374945959860765440 in
   let o20 := from_bits DoubleS 9218868437227405312 in
   let v21 := get junk o18 in
   let v22 := get junk o19 in
   let v23 := get junk o20 in
   let o24 := mul_add DoubleS v21 v22 v23 in
   let v25 := snd (get (0, junk) o24) in
   let o26 := to_bits DoubleS v25 in
   let o27 := from_bits DoubleS 9153073661438067987 in
   let o28 := from_bits DoubleS 18374704093257594879 in
   let o29 := from_bits DoubleS 18445057345648328703 in
   let v30 := get junk o27 in
   let v31 := get junk o28 in
   let v32 := get junk o29 in
   let o33 := mul_add DoubleS v30 v31 v32 in
   let v34 := snd (get (0, junk) o33) in
   let o35 := to_bits DoubleS v34 in
   let o36 := from_bits DoubleS 13527612059889435923 in
   let o37 := from_bits DoubleS 72264009020849083 in
   let o38 := from_bits DoubleS 18446743249075847168 in
   let v39 := get junk o36 in
   let v40 := get junk o37 in
   let v41 := get junk o38 in
   let o42 := mul_add DoubleS v39 v40 v41 in
   let v43 := snd (get (0, junk) o42) in
   let o44 := to_bits DoubleS v43 in
   let o45 := from_bits DoubleS 13546827679134646272 in
   let o46 := from_bits DoubleS 52917295621619712 in
   let o47 := from_bits DoubleS 18442240474096992256 in
   let v48 := get junk o45 in
   let v49 := get junk o46 in
   let v50 := get junk o47 in
   let o51 := mul_add DoubleS v48 v49 v50 in
   let v52 := snd (get (0, junk) o51) in
   let o53 := to_bits DoubleS v52 in
   let o54 := from_bits DoubleS 15996504401510400000 in
   let o55 := from_bits DoubleS 18374686479671623680 in
   let o56 := from_bits DoubleS 18446742974197923840 in
   let v57 := get junk o54 in
   let v58 := get junk o55 in
   let v59 := get junk o56 in
   let o60 := mul_add DoubleS v57 v58 v59 in
   let v61 := snd (get (0, junk) o60) in
   let o62 := to_bits DoubleS v61 in
   all_true [
      returns o2;
      returns o6;
      returns o8;
      (get 0 o8) =? 18445900129831419904;
      returns o9;
      returns o10;
      returns o11;
      returns o15;
      returns o17;
      (get 0 o17) =? 18442240474082181120;
      returns o18;
      returns o19;
      returns o20;
      returns o24;
      returns o26;
      (get 0 o26) =? 9218868437227405312;
      returns o27;
      returns o28;
      returns o29;
      returns o33;
      returns o35;
      (get 0 o35) =? 18445057345648328703;
      returns o36;
      returns o37;
      returns o38;
      returns o42;
      returns o44;
      (get 0 o44) =? 18446743249075847168;
      returns o45;
      returns o46;
      returns o47;
      returns o51;
      returns o53;
      (get 0 o53) =? 18444492273910677504;
      returns o54;
      returns o55;
      returns o56;
      returns o60;
      returns o62;
      (get 0 o62) =? 18446742974197923840]) = true.
Proof. vm_compute. reflexivity. Qed.

Example test_fuzz_fma_with_expected_outputs_10 : (
   let o0 := from_bits DoubleS 16212964272157492499 in
   let o1 := from_bits DoubleS 18158212453165842704 in
   let o2 := from_bits DoubleS 18446603194487279620 in
   let v3 := get junk o0 in
   let v4 := get junk o1 in
   let v5 := get junk o2 in
   let o6 := mul_add DoubleS v3 v4 v5 in
   let v7 := snd (get (0, junk) o6) in
   let o8 := to_bits DoubleS v7 in
   let o9 := from_bits DoubleS 17293822569111089168 in
   let o10 := from_bits DoubleS 9153004426550050816 in
   let o11 := from_bits DoubleS 9218868437227405312 in
   let v12 := get junk o9 in
   let v13 := get junk o10 in
   let v14 := get junk o11 in
   let o15 := mul_add DoubleS v12 v13 v14 in
   let v16 := snd (get (0, junk) o15) in
   let o17 := to_bits DoubleS v16 in
   let o18 := from_bits DoubleS 17654109461291040018 in
   let o19 := from_bits DoubleS 18235074895115649024 in
   let o20 := from_bits DoubleS 18442240474082181120 in
   let v21 := get junk o18 in
   let v22 := get junk o19 in
   let v23 := get junk o20 in
   let o24 := mul_add DoubleS v21 v22 v23 in
   let v25 := snd (get (0, junk) o24) in
   let o26 := to_bits DoubleS v25 in
   let o27 := from_bits DoubleS 18374687578921041921 in
   let o28 := from_bits DoubleS 18374687578923204608 in
   let o29 := from_bits DoubleS 18442240474082181120 in
   let v30 := get junk o27 in
   let v31 := get junk o28 in
   let v32 := get junk o29 in
   let o33 := mul_add DoubleS v30 v31 v32 in
   let v34 := snd (get (0, junk) o33) in
   let o35 := to_bits DoubleS v34 in
   all_true [
      returns o0;
      returns o1;
      returns o2;
      returns o6;
      returns o8;
      (get 0 o8) =? 18446603194487279620;
      returns o9;
      returns o10;
      returns o11;
      returns o15;
      returns o17;
      (get 0 o17) =? 9218868437227405312;
      returns o18;
      returns o19;
      returns o20;
      returns o24;
      returns o26;
      (get 0 o26) =? 18442240474082181120;
      returns o27;
      returns o28;
      returns o29;
      returns o33;
      returns o35;
      (get 0 o35) =? 18442240474082181120]) = true.
Proof. vm_compute. reflexivity. Qed.

(** downstream.rs:406 [fuzz_x87_f80_neg_with_expected_outputs] *)
Example test_fuzz_x87_f80_neg_with_expected_outputs : (
   let o0 := from_bits X87DoubleExtendedS 4740885567116175998976 in
   let o1 := to_bits X87DoubleExtendedS (neg (get junk o0)) in
   let o2 := from_bits X87DoubleExtendedS 18410472288899039232 in
   let o3 := to_bits X87DoubleExtendedS (neg (get junk o2)) in
   let o4 := from_bits X87DoubleExtendedS 9223372036854775808 in
   let o5 := to_bits X87DoubleExtendedS (neg (get junk o4)) in
   all_true [
      returns o0;
      returns o1;
      (get 0 o1) =? 1208907445210728286388224;
      returns o2;
      returns o3;
      (get 0 o3) =? 604499767023677195943936;
      returns o4;
      returns o5;
      (get 0 o5) =? 604490579923425151680512]) = true.
Proof. vm_compute. reflexivity. Qed.

(** downstream.rs:27 [fuzz_roundtrip_through_i128]; the second component of a row is Rust's
    [as i128 as f32] (or [f64]) of the first: a saturating conversion and the nearest float *)
Definition roundtrip_ok (S : Semantics) (row : Z * Z) : bool :=
  let o := let! x := from_bits S (fst row) in let! n := to_i128 S x 128 in
           let! r := from_i128 S (snd n) in to_bits S (snd r) in
  returns o && (get 0 o =? snd row).
Example test_fuzz_roundtrip_through_i128 :
  forallb (roundtrip_ok SingleS) [(4278190080, 4278190080); (4278247939, 4278190080); (4278249728, 4278190080); (4286578687, 4278190080); (4286578688, 4278190080)] &&
  forallb (roundtrip_ok DoubleS) [(14404153729500573183, 14402511608330846208); (14404763403832721152, 14402511608330846208); (14404766706686047798, 14402511608330846208); (16876397252717117447, 14402511608330846208); (17581778208175425024, 14402511608330846208); (18431273413168387327, 14402511608330846208); (18442240474082181120, 14402511608330846208)] = true.
Proof. vm_compute. reflexivity. Qed.
