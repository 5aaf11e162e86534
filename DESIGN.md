# Formal model of rustc_apfloat: design

The subject is `rustc_apfloat` (`/repo`, files `src/lib.rs`, `src/ieee.rs`,
`src/ppc.rs`).  The code is read as text; it is never built or run here.

## Layers

| file | contents |
|---|---|
| `Machine.v` | Rust run-time primitives: `outcome` (`Ret`/`Panic`/`Diverge`), checked / saturating / wrapping integers, slices, loops |
| `Sig.v` | `mod sig` and `enum Loss` of `src/ieee.rs` on lists of 128-bit limbs |
| `Ieee.v` | `Semantics`, the built-in formats, `IeeeFloat` and its operations; the default methods of `trait Float` (`src/lib.rs`) |
| `Parse.v` | `from_str_r`, hexadecimal and decimal string conversion |
| `Fmt.v` | `Display` |
| `Ppc.v` | `DoubleFloat` (`src/ppc.rs`) |
| `Ops.v` | operators, default rounding modes, `StatusAnd`, `Debug` |
| `Spec.v` | the specification: real values, correct rounding, IEEE tables; depends on Flocq's rounding operators, not on the model's helpers |
| `SpecFma.v` | what `mul_add_r` rounds where it does not round the exact result |
| `SpecSig.v`, `Limbs.v`, `SigProofs*.v` | what limb lists denote; the multi-limb layer |
| `Norm.v`, `Arith.v`, `Special.v` | `normalize`; add, sub, mul, div; special operands and NaNs |
| `Order.v`, `Orderx.v`, `Classes.v`, `Bits.v`, `Formats.v` | comparison, classification; encodings; the formats of the crate |
| `Int.v`, `Scale.v`, `Next.v`, `Convert.v`, `Integral.v`, `Rem.v`, `Fma.v`, `FmaFull.v`, `FmaExact.v` | one operation family each |
| `Algebra.v`, `Laws.v` | consequences of correct rounding: flags, symmetries, monotonicity, identities |
| `OpsSpec.v` | operators, default rounding modes, `unwrap`, `map`, `Debug` |
| `OpsPairSpec.v` | the same for pairs; comparison operators and predicates of pairs |
| `OpsPairTop.v` | sums, differences and products of any two canonical pairs, up to overflow |
| `Total.v`, `Nans.v`, `Reach.v` | no panics; NaN constructors; values reachable by sequences of operations |
| `SpecStr.v` | the grammar of the literals and the real numbers they denote |
| `StrHex.v`, `StrScan.v`, `StrSyntax.v` | hexadecimal literals; the decimal scanner; dispatch, special values, rejection |
| `StrNum.v`, `StrAtt.v`, `StrErr.v`, `StrCell.v`, `StrDec.v`, `StrLoop.v`, `StrDecimal.v`, `StrTop.v` | decimal literals: digits and powers of five; one attempt; its error bound; which number it rounds to; the acceptance test; the loop; early exits; whole texts |
| `SpecPair.v` | what pairs of floats denote: the sum of the halves, canonical pairs, exact splitting |
| `Pair.v`, `PairOps.v`, `PairBase.v`, `PairMore.v`, `PairConst.v` | splitting and joining; operations through the double width; bits, order, classification, scaling; literals, signed integers; constants, order by magnitude |
| `SpecFmt.v` | what `Display` should print: the shortened decimal, the four layouts |
| `FmtNum.v`, `FmtTop.v`, `FmtEdge.v`, `FmtExact.v`, `FmtBack.v`, `PairFmt.v` | `Display`: digits and decimal rounding; the printed text; reading it back; pairs |
| `DecBack.v` | decimal literals read and printed again with as many digits |
| `SpecInteger.v` | integer expressions and the integers they denote |
| `IntExpr.v` | clients that compute integers with floats |
| `PairInt.v` | pairs as fixed-point numbers and integers |
| `PairNext.v` | the neighbours of a pair, and walking from one pair to another |
| `TextOrder.v` | reading and printing keep the order of the numbers |
| `LibFun.v` | clients that compute fractional parts, Euclidean quotients and remainders, midpoints and clamps |
| `Sqrt.v` | a client that computes correctly rounded square roots by bisection and `mul_add` |
| `BitTricks.v` | clients that put bits into fractions, scale through the exponent field, and round by adding a magic number |
| `Expansion.v` | clients that keep a sum exactly as a list of numbers and find its sign |
| `Fsum.v` | a client that rounds such a sum once, in any mode |
| `Lerp.v` | clients that interpolate between two numbers |
| `Outcomes.v` | `Status` as a set of flags, the derived comparisons of `StatusAnd` |
| `Dekker.v` | clients that split numbers and compute the error of a product without `mul_add` |
| `Symmetry.v` | negated operands in the mirrored mode |
| `More.v` | complements: patterns and predicates of the extended format, sign operations on patterns, `>` and `>=`, negated special operands |
| `Eft.v` | rounding errors of sums, products and quotients computed exactly; enclosure by the directed modes |
| `Flocq754.v`, `FlocqBits.v`, `FlocqSamples.v` | agreement with the executable IEEE 754 arithmetic of Flocq (`BinarySingleNaN`, `Bits`), as numbers and as bit patterns; Flocq's definitions are the specification here, no axiom of Flocq is used (it has none) |
| `BitOrder.v` | encodings read as signed integers: order and neighbours |
| `Through.v` | operations done in a wider format and converted back (double rounding) |
| `TwoSum.v`, `PairAdd.v`, `PairMul.v` | error-free transformations on the reals (Knuth, Dekker; from Flocq); sums and products of pairs |
| `PairRest.v` | pairs: special operands of the conversions to integers, mul_add, scalbn, frexp, inverse; mul_add of any canonical pairs; NaN literals |
| `PairFlags.v` | what the status of a sum or product of pairs implies, and what it does not |
| `AnySum.v`, `SpecDirected.v`, `PairDirected.v` | the same in an arbitrary rounding mode, where they have errors of their own |
| `AnyProd.v`, `PairSmall.v` | products near and below the smallest normal number |
| `SpecTop.v`, `TopSum.v`, `PairTop.v`, `PairTopMul.v` | sums and products of pairs near and beyond the largest number |
| `SpecPrograms.v`, `Programs.v` | a register machine as client of the crate and on Flocq's numbers, and its simulation |
| `SpecExpr.v`, `Expr.v`, `Interval.v`, `Sum.v` | clients of the crate: expressions with accumulated flags, interval arithmetic, sums |
| `ExprError.v` | how far the value of an expression is from the number it denotes |
| `SpecPairExpr.v`, `PairQuot.v`, `PairExpr.v` | the same for expressions evaluated with pairs; quotients of pairs that need not be canonical |
| `Loops.v` | clients with loops: Euclid's algorithm with either remainder, walking by `next_up`, counting by one |
| `Compensated.v` | clients that keep the errors: compensated sums and dot products |
| `Bisect.v` | a client that bisects an interval until its ends are neighbours |
| `Sort.v` | clients that sort a list and select its extreme by the crate's comparisons |
| `Widening.v` | operations before and after a conversion to a wider format |
| `StatusDoc.v` | which statuses operations return, for operands of any shape |
| `Release.v`, `ReleaseTop.v` | the functions of the model again, as a build without overflow checks runs them: wrapping arithmetic, masked shift amounts |
| `ReleaseProofs.v`, `ReleaseEq.v`, `ReleaseMore.v` | that build returns what the checked build returns, and where it goes on instead of panicking |
| `Table.v` | the formats with their parameters as literals, and which numbers they contain |
| `SpecPairLaws.v`, `PairLaws.v`, `PairLawsTop.v` | exchanged, negated and neutral operands of pair sums and products |
| `FmaSymmetry.v` | `mul_add` of negated operands, also where it is not correctly rounded or panics |
| `FmaMono.v` | monotonicity of `mul_add`, and where it fails |
| `SpecRewrites.v`, `Rewrites.v` | operations a compiler may replace by others |
| `PairTotal.v` | sequences of operations on pairs: no panics where there are none, halves stay canonical |
| `PairTests.v` | the tables of `tests/ppc.rs`, run on the model (a test of the model) |
| `IeeeTests.v`, `IeeeTests2.v` | the assertions of `tests/ieee.rs` and `tests/downstream.rs`, run on the model (about 15 000; tests of the model, not theorems; translated from the Rust text) |
| `StrFar.v` | decimal literals in every mode when no number of the format is near the written one |
| `Samples.v`, `StrSamples.v`, `PairSamples.v`, `Refute.v`, `StrRefute.v`, `PairRefute.v`, `FmtRefute.v`, `PairMulRefute.v`, `StrLong.v` | concrete values and texts; counterexamples, each by computation |
| `Props*.v` | the property theorems only, each closed by `exact`, each with a concrete instance and `Print Assumptions` |

Every definition of the model cites file and lines.  In-place mutation becomes
"return the new value"; loops keep the order of the reads and writes of the
code.  Every way in which the code can panic (assertions, `unwrap`, slice
indices, arithmetic overflow, shift amounts) is the explicit outcome `Panic`;
loops without a syntactic bound take fuel and return `Diverge` when it is
exhausted, and the theorems exclude both outcomes.

The arithmetic is generic in the format: the model takes a `Semantics` record
(the associated constants of the trait), the theorems assume a boolean
well-formedness predicate `sem_ok` on it, and `sem_ok` is shown to hold for every
format of the crate (including the two internal 106-bit formats of `ppc.rs`).

## Specification

`Spec.v` gives a float a real value (`sign * sig * 2^(exp - (PRECISION-1))`)
and states "correctly rounded" with Flocq's
`round radix2 (FLT_exp (MIN_EXP - (PRECISION-1)) PRECISION) mode`, where `mode`
is `ZnearestE`, `ZnearestA`, `Zceil`, `Zfloor` or `Ztrunc`.  Overflow, exception flags and
the sign of zero are spelled out on top of that.  Flocq is used as a library of
definitions and lemmas; it introduces no axiom of its own.

## Proof method

1. *Limb layer.*  `lval L = sum L_i * 2^(128 i)`.  Each function of `mod sig`
   is shown to return `Ret` and to compute the expected integer (shift,
   product, quotient...), for lists of any length.  `Loss` is related to
   Flocq's `inbetween`.
2. *`normalize`.*  One central lemma: if `|x|` lies between `sig` and `sig+1`
   units as described by the loss, then `normalize` returns `x` correctly rounded
   with the right status.  Its hypotheses record what each caller guarantees.
3. *Operations.*  Each operation reduces to the limb lemmas plus (2).
4. *Iterative algorithms* (`c_fmod`, `ieee_rem`, decimal parsing, printing): loop
   invariants; exactness of the subtractions by the format's closure under
   Sterbenz-like differences; fuel bounds from a decreasing measure.

## Properties

| id | modelled | proof |
|---|---|---|
| C01 | `from_bits`, `to_bits` (default and x87) | bit-field algebra for a generic `Semantics`; x87 separately |
| C02 | same, `bitwise_eq` | on well-formed values (C29) |
| C03 | same | value of the fields against an independent field decoder |
| C04 C05 | `add_r`, `sub_r`, `sig::add_or_sub`, `normalize` | limb lemmas + central lemma |
| C06 | `mul_r`, `sig::mul`, `sig::widening_mul` | same |
| C07 | `div_r`, `sig::div` with all three short paths and the long path | same |
| C08 | `mul_add_r` | same; the place where the lost fraction is on the wrong side of the subtraction is examined separately |
| C09 | status of all of the above | part of the central lemma |
| C10 C11 | special operand arms | case analysis against an independent table |
| C12 | sign of zero results | part of C04/C05/C08 |
| C13 | `partial_cmp`, `cmp_abs_normal` | against the order of extended reals |
| C14 | `next_up`, `next_down` | against "least representable value above" |
| C15 | `from_u128_r`, `from_i128_r` | central lemma |
| C16 | `to_u128_r`, `to_i128_r` | against integer rounding of the real value |
| C17 | `round_to_integral` | the two additions, Sterbenz |
| C18 C19 | `c_fmod`, `ieee_rem` | loop invariant, exact subtraction |
| C20 C21 C39 | `convert_r` | central lemma with the pre-shift |
| C22 C23 | `scalbn_r`, `ilogb`, `frexp_r` | central lemma |
| C24 | `get_exact_inverse` | from C07 |
| C25 C26 C27 | sign operations, min/max, predicates | case analysis |
| C28 | every `Panic` of the model | each theorem has the form "returns `Ret` with ..." |
| C29 | the invariant `wf` over operation sequences | induction over a list of API operations |
| C30 | add/mul/div | from correct rounding |
| C31 C33 | `from_str_r`, `from_hexadecimal_string` | induction over the string |
| C32 | `from_decimal_string` | error analysis of the truncated computation |
| C34 C35 C50 C64 | `Display` | digit generation loop, decimal rounding, the four layouts; then C32 |
| C36 | `mod sig` | step 1 above |
| C37 C38 | `DoubleFloat` | from C01 and case analysis |
| C40 | `from_*`, `to_*` | from C15, C16 |
| C41 C42 C43 C44 | consequences of correct rounding | `Laws.v` |
| C45 | `qnan`, `snan` | bit fields |
| C46 C49 | `DoubleFloat` operations that convert to 106 bits | from C07, C08, C14-C20, C31, C32 and the exactness of the split |
| C51 C52 | `DoubleFloat` sums and products | TwoSum, FastTwoSum, error analysis; from C01, C02, C05 |
| C61 | pairs reachable by sequences of operations | from C28, C29; `to_fallback`/`from_fallback` panic exactly on signaling NaNs and overflow |
| C63 | pair sums and products in every mode | the rounded sum minus the operand that is larger or not finer is representable in every mode |
| C65 | pair products down to the underflow range | as C63, each rounding also off by up to the smallest positive number; below the smallest normal number the second half is an exact zero |
| C66 | pair sums and products up to overflow | if the high halves overflow the code adds in another order; an infinite result only if the exact one is about the largest number; which sums of finite pairs are NaN is said exactly (`SpecTop.v`) |
| C67 | replacing operations | same status and same bits; infinities and NaNs by case distinction, finite operands from C04-C08 and the uniqueness of the rounded result |
| C68 | laws of pair sums and products | each step of the code on opposite (equal) operands gives opposite (equal) results; a rounded result is unique |
| C69 | programs on the crate against programs on Flocq | simulation, induction on the steps, one case per instruction from C59 |
| C70 | accumulated flags of expressions | induction on the expression from C09 and C10 |
| C71 | interval arithmetic | products of extended numbers attain their bounds at the ends; induction on the expression from C58, C10, C26 |
| C72 | sums of many numbers | a sum of two numbers has a relative error even below the normal range; induction on the list |
| C73 | errors of expressions, dot products, polynomials | one rounding has a relative error and, for products and quotients, an absolute one below the normal range; induction on the expression, then on the lists for the closed forms |
| C74 | errors of expressions, sums and dot products of pairs | every operation keeps narrow pairs (C63, C65) and has an error relative to its operands; induction on the expression and on the lists |
| C75 | loops end with the right result | remainders are exact, so the loop is Euclid's on integers and halves; the order of encodings for `next_up`; counting by induction on the distance to 2^p |
| C62 | status of pair sums and products | each step of the code is exact if it raises no flag |
| C53 | operators, default modes | instances in the mode `NearestTiesToEven` |
| C59 C60 | arithmetic, order, rounding, conversion against Flocq's functions | both sides satisfy a specification with one solution; special cases by computation |
| C54 | `Debug` | splitting the text from the right |
| C47 C48 | `DoubleFloat` order, predicates, scaling | canonical pairs: the high half is the rounded sum, rounding is monotone |

## Findings: places where the code does not do what the property says

Each is a theorem with a witness, checked by computation (`Refute.v`, restated as
`..._refuted` in the `Props*.v` files).

1. *Overflow in Float8E4M3FN* (C04-C07, C20, C22, C30): negative results that
   overflow in `TowardPositive`/`TowardNegative` go to the wrong side (`-32 * 15`
   rounded toward positive gives NaN instead of -448).  `crate_to_infinity` in
   `Spec.v` is the exact rule the code follows.
2. *`mul_add_r`* (C08): a subnormal addend and a product of opposite sign below
   the normal range: the guard bits are lost, the result is mis-rounded; in
   one-bit-apart cases the assertion in `normalize` fails (a panic).  What
   number is rounded instead is `fma_seen` in `SpecFma.v` (`C08_mul_add_cut`; all
   other operands are rounded correctly, `C08_mul_add_uncut`); it panics exactly
   if the product, cut off at 2^(MIN_EXP - 2 PRECISION), is the addend
   (`C08_mul_add_panics`).  `C08_mul_add_any` bounds how far off it can be.
3. *`to_i128_r` with width 1* (C16): panics for non-negative values.
   `is_exact` is true for -0.
4. *x87 NaNs with a clear integer bit* (C11): stay signaling through arithmetic.
   x87 pseudo-denormals and unnormals do not survive `from_bits`/`to_bits` (C01).
5. *NaNs of Float8E4M3FN* (C39): Half -> E4M3FN of the NaN obtained from E4M3FN
   reports `loses_info` although nothing is lost.
6. *Decimal literals* (C32): long literals are mis-rounded in the directed modes
   (73 digits that denote a single exactly, rounded toward zero, give its
   predecessor); INEXACT is raised for exact numbers and not raised for some
   numbers within 2^-127 of a representable one.  In formats with a wider
   exponent range than any of the crate's the underflow shortcut fires too early
   (28738/8651 is more than log2 10).
7. *Syntax* (C33): an exponent without digits (`1e`, `1e+`) is accepted, a NaN
   payload may start with a plus sign; both are part of the grammar in `SpecStr.v`.

8. *Pairs* (`src/ppc.rs`; C38, C46, C47, C49): signaling NaNs make every operation
   that goes through the 106-bit format panic, Display included; so do results
   between the largest pair and the 106-bit overflow threshold (`next_up` of
   `largest()`, `"1.7976931348623159e308"`, `x / 1` for some canonical `x`).
   `largest()` is not the largest pair.  Special products have the sign of the
   special factor, 0 * infinity raises no flag, -0 + +0 is -0.  The INEXACT flag
   of sums and products is wrong in both directions (C62).  `cmp_abs_normal` panics for zero low
   halves and ignores their sign.  Some sums of finite pairs in the last binade
   are NaN (C51: -3*2^970 + `f64::MAX`).  Sums and products in a directed mode lie on
   either side of the exact result (C63).  The test values of `tests/ppc.rs` marked FIXME
   are not canonical pairs.

9. *Display* (C35): precision 0 discards every digit of some numbers and trips the
   assertion `no characters in buffer!` (`{:.0}` of 8.0), and prints 1.0 as
   `1.0E+1`.  Precisions above 2^64/196 overflow.  When the digits left after
   discarding are exactly as many as requested, the discarded ones are ignored:
   14 * 2^-24 (Half) prints as 8.3446E-7 although 8.3447E-7 is nearer.

10. *Pair sums* (C51): the sum of two different pairs can be lost entirely:
   (1 + 2^-52 - 2^-53 + 2^-106) - (1 + 2^-53) is 2^-106, `add_r` returns 0.
   Addition does not commute.  *Pair products* (C61): multiplying two canonical
   pairs near 2^-537 panics (the rounding error of the product of the high halves
   is computed by `mul_add`, finding 2).

11. *Very long literals* (C31-C33): the number of digits enters the exponent through
   32-bit arithmetic.  A hexadecimal literal of 2^29 digits for 1/8 is read as
   2^-27, one of 2^31 digits panics, and 1 followed by 2^32 decimal zeros is
   read as 1.0, all without a flag.

12. *Builds without overflow checks* (C82) compute the same results, with two
   exceptions where the checked build panics: `to_i128_r(1)` of a number from 1
   up returns -1 where 0 is the largest one-bit integer, and `Display` with a
   precision above (2^64-59)/196 prints too few digits.

13. *Decimal round trips* (C83).  A literal of P digits, with P small enough for
   the format to tell all such numbers apart, should survive reading to nearest
   and printing with P digits.  `Display` drops digits before it rounds, so a
   number that was rounded toward zero and begins with 5 to 9 can come out one
   unit in the last place smaller: 0.7 as a double with 15 digits prints
   0.699999999999999, 0.6 as a DoubleDouble with 31 digits 0.5999...9.  All other
   literals survive.

14. *Printing and order* (C87).  With the default precision a larger number is
    printed as a larger decimal.  With fewer digits this can fail, because some
    numbers are rounded and others, beginning with 5 to 9, cut: with two digits
    8191 is printed as "8.2E+3" and 8192 as "8.1E+3".

## Not modelled

* Derived traits `Copy` and `Clone`, the derived `Debug` of `ParseError` and
  `Status`.  The `bitflags` operators of `Status` are modelled (`Outcomes.v`)
  from the documentation of that crate, whose source is not in `/repo`; the
  comparisons of `StatusAnd` are modelled for the two float types only.
* `smallvec` is a plain list; memory exhaustion is not modelled.
* `usize` additions are unbounded (lengths and bit counts), except the one in
  `Display` that a caller controls through the precision; `usize` subtractions
  are checked.
* `PhantomData`.
* Arithmetic overflow is `Panic`, as in a build with overflow checks.  The
  unchecked build is modelled separately (`Release.v`, `ReleaseTop.v`) and
  related to this one by C82.  Neither model covers builds with
  `panic = "abort"`, which differ only after a panic.

## Trusted base

* Coq's kernel (8.16.1), and `coqchk`'s re-check.
* The reading of the Rust source recorded in the citations.
* Axioms: only those of Coq's standard library that `Print Assumptions` reports
  under each property theorem (the classical real numbers used by Flocq:
  `ClassicalDedekindReals.sig_forall_dec`, `ClassicalDedekindReals.sig_not_dec`,
  `functional_extensionality_dep`, and possibly `Classical_Prop.classic`).
