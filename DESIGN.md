# static-math: formal model and proofs (Rocq / Coq 8.16.1)

Everything below is about the text of `/repo` at the pinned commit. The code is
not built or run; the model is a function-by-function reading of the Rust source.
Every model definition carries a comment with the file and the lines it reads.

## 1. How the code is modelled

* **Scalars.** The Rust code is generic in `T: Num / Signed / PartialOrd / Float`.
  The model is generic in the same way: type classes `Num`, `Signed`, `POrd`,
  `Float` (`Scalar.v`) hold exactly the operations the code calls, and each
  Rust function is written once over them. Theorems then pick an instance:
  - *any commutative ring* (`RingLaws T`, Leibniz equality): polynomial identities,
    which therefore hold for ideal reals, unbounded integers and wrapping integers
    (`InstZ.v` gives `Z`, used for examples and for refuting witnesses);
  - *ideal real arithmetic* (`InstR.v`, Coq's `R`), with `sin, cos, tan, acos, exp, ln, sqrt`
    from the standard library and `atan2` defined by cases; machine constants (`epsilon`,
    `max_value`, `min_value`, `infinity`, the literals 1e-40, 1e-6, 1e-3) are fields of a record `RConsts`
    and theorems assume `RConstsOk` (`0 < eps < 1e-6`, `max_value > 1e6`, `infinity > max_value`,
    the three literals positive and below 1e-6, 1e-5 and 1e-2), which f32 and f64
    both satisfy; examples use the f64 values (`f64_consts`, `f64_consts_ok` shows the
    assumption is satisfiable);
  - *real arithmetic with an error value* (`InstE.v`, `option R`): division by zero, square
    root of a negative number, `acos` outside [-1,1], `ln` of a non-positive number, `tan`
    at a pole give an explicit error instead of Coq's totalised default. `ProofsDefined*.v` prove that the
    real-number theorems do not rest on the totalised defaults, and exactly where they would;
  - *machine integers of every width and signedness* (`InstI.v`): a build with overflow checks
    (`option Z`, `None` = the program panicked) and one without (residues modulo `2^w`, `wint` of `InstZ.v`);
  - *IEEE-754 binary floats of every precision* (`InstF.v`, Flocq `BinarySingleNaN`, so f32 and
    f64), with one NaN, infinities, signed zeros, round-to-nearest-even; transcendental
    functions are oracles, universally quantified in the theorems.
* **Arrays.** `[T; n]` and the newtypes `Vn<T>([T; n])` are `arr T n` (nested pairs, length
  in the type); `Mnn<T>([[T; n]; n])` is `arr (arr T n) n`. Constant indices are typed
  accessors (an out-of-range constant index does not type check, as in rustc); computed
  indices use `aget`/`aset`, which return `Panic` out of range. Slices `&[T]` are lists.
* **Panics** are explicit: `outcome A := Ok a | Panic`. Rust's `Option`/`Result` stay data.
  `for` loops are folds over the index range in the `outcome` monad.
* **Mutation** through `&mut` becomes returning the new value.
* Long unrolled bodies (products, determinants, inverses) are transcribed mechanically from
  the Rust text (`tools/`), keeping operation order and association: this matters for the
  float theorems.
* **Sizes.** The five sizes are separate definitions (`Mat2.v` ... `Mat6.v`), as in the source; a
  type `dim := D2 | ... | D6` dispatches to them, so "for every size" theorems quantify over `dim`.
  `lu`, `qr` and the layout loops have the same text in the five files and are modelled once for every n.
* **Text.** `Display` implementations produce a list of characters (`Display.v`); the element
  type's own formatting is a parameter, as in the source.

### Simplifications, and what they leave out
* `0` and `Num::zero()` are the same class member; likewise `1`.
* `iter().sum()` folds from zero. For floats the standard library has changed its starting value
  between `0.0` and `-0.0`; only the sign of an all-zero sum could differ.
* Floats have one NaN: payload and sign of NaN are not modelled.
* `RConsts.max_value` and `infinity` are real numbers in the ideal reading: only comparisons with them are
  meaningful there; the float instance has the true infinities.
* Coq's real division has `/0 = 0`. The theorems over `R` about half turns of screw motions
  (`screw parameters`, `pow`, `screw_lerp`, `log6`) meet a division by zero there; C74 proves exactly
  where, on error-valued reals, and refutes the wish that there is none.
* A formatter whose underlying writer fails is not modelled (`write!` always succeeds).

### Not modelled
The `m22_new!`-style macros (syntax for an array literal), `Debug`, `Clone`, inlining attributes,
the libm implementations of transcendental functions, performance, `no_std` plumbing. Of `examples/`: the printing, and the programs `for_each_example.rs`, `nice_square_example.rs` and
`qr_example.rs`, which only print results of functions that are modelled. The newtype
wrappers are the identity: `new`, `From<[T; n]>` and `Deref` return their argument (`Ctor.v`).

## 2. Trusted base
* Coq 8.16.1's kernel.
* Axioms: `ASSUMPTIONS.md` (generated by `tools/assumptions.py`) lists what `Print Assumptions`
  reports for each theorem. Ring, layout, integer,
  slice, display and panic theorems use none. Theorems mentioning `R` (so also those about floats, whose
  values are real numbers) use the standard library's
  `ClassicalDedekindReals.sig_forall_dec`, `ClassicalDedekindReals.sig_not_dec`,
  `FunctionalExtensionality.functional_extensionality_dep` and, where Flocq or a
  real-analysis lemma uses it, `Classical_Prop.classic`. There are no axioms of our own.
  `coqchk -o` over all `Props*` modules (run on the tree that ends with C102) reports these four axioms and no
  type-in-type, no unchecked fixpoint and no assumed positivity.
* Libraries used: Coq's standard library; Flocq (float instance only); Coquelicot (the
  Cauchy product of two series, `QSeries.v`, for C79 only). Neither adds an axiom.
* The reading of the Rust source into the model, and of `num-traits`' documented semantics
  (`recip x = 1/x`, `sin_cos`, `Float::min` ignoring NaN, `Sum` folding from zero).

* How the reading was checked: `tools/replay.py` translates every `#[test]` function of the
  repository (211 of 211) into a run of the model on f32, f64 or i32 values, with the arithmetic of
  `InstF.v`/`InstI.v` and sin, cos, exp, ... computed in fixed point and rounded (`Replay.v`).
  A real libm may round such a function differently in the last bit. Whether a test runs in f32 or f64
  is decided by `replay.py` (f32 if the test mentions f32, otherwise f64), and `to_radians` is taken to be
  x * (pi / 180) from the documentation of the standard library. All 211 hold of the model, including those that compare floats exactly. The
  bodies of the `qr_test`s of the 3x3 and 4x4 matrices sit under an `if let Some` that is not taken
  (the matrices are singular); `Replay_matrix3x3.v` and `Replay_matrix4x4.v` say so. These are tests, not proofs,
  and the code itself was not run.

## 3. Files

| files | content |
|---|---|
| `Base` | arrays, outcomes, loops |
| `Scalar` | scalar classes |
| `Vec`, `Mat2`..`Mat6`, `MatLoops`, `MatOps`, `Slices`, `Quat`, `DualQuat`, `Transf`, `Display`, `Ctor`, `Programs` | **the model** (`Programs`: the computations of `examples/`) |
| `Spec`, `RingDet` | **specifications**: sums over indices, Laplace determinant, norms; independent of the model's helpers |
| `InstZ`, `InstI`, `InstR`, `InstE`, `InstF` | scalar instances |
| `Entries`, `DetEntries`, `LoopFacts`, `RFacts`, `InvFacts`, `LUFacts`, `QRFacts`, `TrigFacts`, `ExpSeries`, `QSeries`, `FloatFacts`, `RelFacts`, `LiftFacts` | lemmas |
| `Proofs*` | the proofs, under lower-case names (`c01_...`), with examples of cases that meet the hypotheses |
| `Props*` | **the theorems of the manifest and nothing else**, each closed by `exact` of the lemma of the same name, `Print Assumptions` beneath; written by `tools/mkprops.py` |
| `Cases`, `CasesB` | further concrete cases, by applying the theorems |
| `Replay`, `Replay_*` | **tests**: the repository's 211 unit tests run on the model; `Replay_examples`: three programs of `examples/` on their own data |

Tools: `tools/mkprops.py` (`Props*.v` from `Proofs*.v`), `tools/replay.py` (unit tests of the repository to `Replay_*.v`), `tools/mkmanifest.py` (MANIFEST.json from theorem names and `status.json`),
`tools/assumptions.py`, `tools/mutate.py` (applies an edit to a scratch copy of the model, rebuilds
and reports which theorems stop checking; results in `seeded/LOG.jsonl`).

## 4. Plan per property

(C-numbers refer to `properties.jsonl`.)

| id | what is modelled | how it is proved |
|----|------------------|------------------|
| C01-C03 | the 5 unrolled `Mul` impls for each of matrix*matrix, matrix*vector, vector*matrix | against a sum-over-k specification on entries; laws from a generic theory of n x n matrices over a ring; V3*M33 is refuted (it computes M*v) |
| C04-C05 | the 5 `det` bodies | equality with a Laplace-expansion determinant; own theory of alternating multilinear forms gives multiplicativity, transpose invariance, row exchange for all n |
| C06-C07 | the 5 `inverse` bodies with `nearly_zero` gate | cofactor expansion theory; gate analysed over R and over floats; "Some iff det /= 0" refuted |
| C08-C09 | transpose/trace/norm2 | direct; norms by sums of squares |
| C10-C11 | `lu`, one loop nest generic in N | loop invariant for all N over R; exact panic condition; refutations for singular input |
| C12 | `qr` with slice helpers, generic in N | Gram-Schmidt invariant for all N over R; uniqueness through the Cholesky factor of A^T A |
| C13-C16 | layout loops, indexing, submatrix, quadrant copy | entrywise specifications, any element type, panic freedom |
| C17-C20 | vector arithmetic | ring; Cauchy-Schwarz, triangle over R; float commutation via Flocq |
| C21-C24 | slice helpers, comparison helpers | induction on lists; Flocq for float laws; refutations (norm_inf of negatives, truncating zip) |
| C25 | `is_rotation` | completeness over R, soundness refuted |
| C26-C34, C53, C55, C59, C61 | `Quaternion` | ring / nsatz / real analysis; refutations for slerp's near-parallel branch |
| C35-C41, C56 | `DualQuaternion` | ring identities, real analysis; refutations for flag misuse, Div, screw_lerp |
| C42-C43, C46-C47, C51-C52, C62-C65 | `transformations.rs` | real analysis (trigonometry, power series), ring |
| C44-C45 | matrix exponential/logarithm | power series in R; case analysis on SO(3) |
| C48 | `real_eigenvals` | real algebra |
| C49-C50, C66-C69 | float instance | Flocq: exactness of integer operations, standard rounding model, bit-exact laws |
| C54 | panics | exact panic conditions for every scalar type |
| C57-C58, C60 | scalar division, comparison, slices | ring / lists |
| C70-C72 | `Display`, shapes, constants | equality with a separately written text specification |
| C76 | integer element types | checked and wrapping instances; exact panic condition of sums of products |
| C75 | `normalized` flags of both quaternion types | case analysis, every scalar type |
| C77 | definedness of matrix, vector and slice functions | loops carried over to error-valued reals; `lu` by its pivot replacement, `qr` by the Gram-Schmidt invariant |
| C78 | constructors, row indexing (`Ctor.v`) | case analysis on the index; array facts |
| C80 | rounding errors of `det`, `cross`, quaternion products | a relation (computed, exact, bound) preserved by +, -, *; bounds evaluated through the code itself, then shown equal to the permanent |
| C81 | `norm2`, `normalize` on floats | relative error of a correctly rounded root of a sum of squares; refuted where the squares overflow or underflow |
| C82 | accuracy of `inverse` on floats | the cofactors as the code computes them, each in the C80 error relation with the exact cofactor, then the division; the residuals by Laplace |
| C83 | `examples/eigenvalues.rs` | each step is an orthogonal similarity, so keeps the characteristic polynomial; refuted because the loop stops at the first small entry |
| C84 | `examples/solve_linear_system.rs`, `examples/inverse.rs` | C06 over R; the bounds of C82 and C80 composed on floats |
| C85 | `examples/quaternions.rs`, `examples/dual_quaternion*.rs` | half-angle composition by induction on the number of turns; C30, C37, C39, C42 composed; Euler angles refuted at gimbal lock |
| C86 | `lu` of every size on floats | one step of the loops for any scalar type; invariant: backward error of the first k columns and rows plus the remaining block; rounding errors relative to the rounded value (`rnd_back`), quotients may underflow; panic condition by following `big`, which NaN never raises |
| C87 | `V3::cross`, quaternion `*`, `to_rotation`, `q * v`, `normalize` on floats, no grid assumption | errors of polynomials as triples (magnitude, roundings, underflow) following the operations; exact R^T R = |q|^4 I, det R = |q|^6 and length formulas for the exact values; norm >= epsilon (else `None`) makes underflow negligible; no overflow by a second bound |
| C88 | `nearly_equal` against one, `is_rotation`, `is_rotation_h` on floats | exact zeros of the last row tracked by an option over the C87 triples, through `m44_mul` and `m44_det`; det and det of the square against \|q\|^6 and \|q\|^12; value of `max_value`; counterexamples computed in f64 |
| C89 | `qr` on floats, sizes 2..6 | R as a rounded product (C50), residual through Q Q^T - I by exchanging sums; columns by a loop invariant and C90; counterexamples computed in f64 |
| C90 | `slices_methods::normalize`, `Vn::normalize` on floats | the fold of `norm2` as a left-to-right dot product, its error, the error of the root and of each quotient, for any length up to 100 |
| C91 | `Mul` for quaternions (and vectors), `to_rotation` on floats, any number of products | Euclidean norm of Hamilton's product is multiplicative; one rounded product is within 8.03u of it; induction over the list; the sandwich product as a map of R^3 |
| C92 | `homogeneous_from_rotation`, `homogeneous_from_quaternion`, `homogeneous_inverse`, `homogeneous_inverse_transform`, `m44 * v4`, `m44 * m44` on floats | Frobenius bounds on nearly orthogonal matrices, the dot-product error bound of C50, one rounded subtraction; the refutation runs the model on a 3-4-5 rotation and a translation of 1.5 * 2^1023 |
| C93 | `M22::real_eigenvals` on floats | forward error of the discriminant by the error calculus of C87, backward residual of the quadratic formula over the reals, monotone rounding for the order; the refutations run the model on f64 matrices |
| C94 | `DualQuaternion` on floats: `new_from_rot_trans`, `new_from_array`, `new_from_translation`, `get_translation`, `*`, `inverse`, `is_normalized` | the error of one quaternion product at any size (C87) propagated through norms of quaternions, exact doubling and halving; the refutation runs the model on two integer quaternions |
| C95 | `Quaternion::from_rotation`, `to_rotation`, `DualQuaternion::new_from_homogeneous` on floats | the tests of each branch give t >= 1 up to rounding; the pivot component is sqrt(t) / 2 and the others quotients by it; the exact unit quaternion comes from C28 with the sign of the pivot |
| C96 | rotations from angles, axes and rotation vectors on floats; products of float rotations | errors in the Frobenius norm, which orthogonal factors preserve; the formula of Rodrigues evaluated on a float matrix near a cross-product matrix; the sine and cosine are any functions with the stated error, and a correctly rounded pair is exhibited |
| C97 | products, chains, inverses and conversions of float homogeneous matrices | rotation and translation errors kept apart, both in root-of-squares norms that exact rotations preserve; the last row shown exact by computing the rounded row |
| C98 | Euler angles extracted from float rotation matrices and quaternions, rebuilt into a matrix | accuracy of the math library as a hypothesis (direction form for `atan2`, so that the branch cut does not matter); exact directions compared with computed ones, then the three elementary rotations one by one; gimbal-lock test bounded both ways; counterexample 16 u from gimbal lock |
| C99 | `matrix_log` of float matrices, and `matrix_exponential` of the result | mean value theorem for the arc cosine away from its ends; perturbation of `t / (2 sin t)`; Frobenius norms; the exponential through the core lemma of C96; counterexamples: the correctly rounded half turn about (1, 2, 9), whose trace is one unit too large, and the rotation by 2^-27 |
| C100 | `dq_pow` and `dq_screw_lerp` on floats | NaN propagation through every operation of `dq_pow`; the arc cosine estimate of C99 for the half angle, perturbation of the axis, norms; counterexample computed from `new_from_rot_trans` of (2, 1, 1, 0) |
| C101 | `q_slerp` on floats | error of the inner product, arc cosine estimate of C99, root of 1 - c^2, perturbation of the two weights, norms; the target is described by an orthonormal pair, not by the weights; counterexamples with exact rational unit quaternions |
| C102 | `q_get_angle`, `q_get_axis`, `q_axis_angle` and `q_rotation` of the result, on floats | absolute error and sign bit of the computed norm, angle of a point near the upper half circle, error of `q_normalize` from C87, sine of the recomputed half angle, division; the round trip goes through the quaternion `cos h + u sin h` behind C96; counterexample by underflow |
| C103 | `q_normalize_a`, `q_exp`, `q_ln`, `q_sqrt`, `q_scale` and `q_mul` of two roots, on floats | both branches of the comparison with `epsilon`: above it the relative error of the norm and division, below it everything is of the size of the rounding error; `sin x / x` by Lipschitz bounds; the logarithm has the form `t d` with `d` wrong only where `sin h` is small, so its exponential needs no division; counterexample by underflow |
| C104 | `matrix_exponential6`, with `twist_to_se3`, `se3_get_parts`, `matrix_exponential`, on floats | the skew matrix divided by the computed length as in C96, error of the float Jacobian in Frobenius norm term by term, product with `v`, division by the length; the exact exponential by `mexp_twist` of C46; small turns: `1 - cos` is exactly zero in floats while the exact component is about `t/2` |
| C105 | `matrix_log6`, with `matrix_log` and `get_parts_raw`, on floats | angular part by C99; `1/t - cot(t/2)/2` lies between 0 and `t/4` and is computed within `4.3 dl/t^2 + (2e + 6u)/t` for an angle off by `dl`; error of the float inverse Jacobian in Frobenius norm term by term; the exact twist by `left_jacobian_inverse` and `mexp_twist` of C46; half turn: the matrix of C99 with a translation |
| C106 | `adjoint`, with `get_parts_raw`, `skew_from_vec`, `Mul` of `M33` and `M66 * V6`, on floats | the four blocks by computation for any scalar; `[t]` has Frobenius norm `sqrt 2 |t|`; product error per entry from C50, perturbation with the orthogonal factor; twist: one row of blocks at a time |
| C107 | `rot2`, `ksi`, `screw_to_axis`, `derivative` on floats, with `M22 * V2`, `M33 * V3` and the quaternion product | entry error from C50, finiteness from the magnitude calculus of C87; multiplication by 1/2 is exact up to eta; product error of C87 in the norm of Hamilton's product |
| C79 | quaternion `exp`, `sin`, `cos` | powers in the plane of a unit vector are complex powers; Cauchy product |
| C73-C74 | definedness | error-valued reals: the computation equals the lifted real one exactly when no undefined operation is met |

A property that the faithful model violates is kept with its full statement, and a theorem
`..._refuted` exhibits a witness; the part that does hold is proved separately (`..._partial`
when it is a restriction of the statement). `MANIFEST.json` records both.
