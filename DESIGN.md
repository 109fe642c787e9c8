# Design: a machine-checked model of cglm

## 1. What is modelled and how

cglm is a header-only C library of small straight-line functions on `float`
arrays.  The model is a *deep embedding*: the C text of each function is
translated, statement by statement, to an abstract syntax tree in Coq, and one
interpreter gives every tree its meaning.

* `tools/c2coq.py` reads the headers in /repo as text (own preprocessor and
  parser; nothing from /repo is compiled or executed), selects a build
  configuration (`scalar`, `sse2`, `avx`, `fma`, `neon`, `neon32`, `wasm`), and prints one Coq definition
  per C function, with a comment citing file and lines.  The printed files are
  committed under `rocq/theories/`; the build does not run the script.
* `MiniC.v` has the syntax and the reference interpreter.  Memory is a list of
  blocks of cells; a pointer is block + offset; a cell is uninitialised, a
  float, an int or a pointer.  Local arrays are fresh blocks, removed on return.  Every
  undefined behaviour is a distinct error outcome: out-of-bounds access,
  reading an uninitialised cell, null dereference, signed overflow, integer
  division by zero, shift out of range, failed `assert`.
* Floating point is a parameter, the record `Scalar`.  Theorems are stated
  either for every `Scalar` (hence for IEEE floats with any libm), for the
  binary32 instance (`SpecFloat`), or for the instance over Coq's real numbers, where division by
  zero, square root of a negative number and acos/asin outside [-1,1] are error
  outcomes and not totalised.
* `Sym.v` is a symbolic evaluator used only as a proof tool, with one soundness
  theorem against the reference interpreter for arbitrary memory, arbitrary
  placement of the arguments, and every Scalar.

Theorem shape: for all memories, pointers and contents, if the argument objects
hold given values and are same-or-disjoint, the run of the C function returns
normally and the final memory *equals* the initial one with the destination
replaced by the specification's value.  So each gives result, framing, and
absence of undefined behaviour at once.

## 2. Per property: what is modelled and the proof plan

* **C01 Component-wise float vector functions: exact result, any aliasing, nothing else written** — every Scalar; symbolic execution, all alias partitions.
* **C02 Cross product** — translated functions run by the interpreter; symbolic execution then `ring`/`field` over R.
* **C03 Normalisation yields a unit vector or exactly zero** — translated functions run by the interpreter; symbolic execution then `ring`/`field` over R.
* **C04 The SIMD vec4 normalisation uses a different zero threshold from the scalar one** — scalar and SIMD translations, R instance; exact results, agreement off the gap, refutation on it.
* **C05 Square matrix product** — translated functions run by the interpreter; symbolic execution then `ring`/`field` over R.
* **C06 Matrix inverse** — translated functions run by the interpreter; symbolic execution then `ring`/`field` over R.
* **C07 Determinant** — translated functions run by the interpreter; symbolic execution then `ring`/`field` over R.
* **C08 Transposition, and its aliasing trap** — every Scalar for the positive part; `_refuted` witnesses at R for the aliased calls.
* **C09 Matrix times vector** — translated functions run by the interpreter; symbolic execution then `ring`/`field` over R.
* **C10 Chained matrix product** — induction on the length at interpreter level, using the mat4_mul theorem.
* **C11 Row and column exchange, rotations of a matrix product** — translated functions run by the interpreter; symbolic execution then `ring`/`field` over R.
* **C12 Non-square matrices** — translated functions run by the interpreter; symbolic execution then `ring`/`field` over R.
* **C13 Translation, scaling and rotation builders** — translated functions run by the interpreter; symbolic execution then `ring`/`field` over R.
* **C14 Rotation matrices are rotations** — translated functions run by the interpreter; symbolic execution then `ring`/`field` over R.
* **C15 Affine product shortcuts agree with the full product exactly on the documented shapes** — translated functions run by the interpreter; symbolic execution then `ring`/`field` over R.
* **C16 Rigid inverse shortcut** — translated functions run by the interpreter; symbolic execution then `ring`/`field` over R.
* **C17 Post-transform rotations lose the translation** — R instance; exact value of the result, then equivalence with zero translation.
* **C18 Rotation about a pivot and spinning** — translated functions run by the interpreter; symbolic execution then `ring`/`field` over R.
* **C19 Decomposition of an affine transform** — translated functions run by the interpreter; symbolic execution then `ring`/`field` over R.
* **C20 2D affine transforms** — translated functions run by the interpreter; symbolic execution then `ring`/`field` over R.
* **C21 Quaternion product** — translated functions run by the interpreter; symbolic execution then `ring`/`field` over R.
* **C22 Quaternion inverse and conjugate** — translated functions run by the interpreter; symbolic execution then `ring`/`field` over R.
* **C23 Quaternion to rotation matrix and back** — translated functions run by the interpreter; symbolic execution then `ring`/`field` over R.
* **C24 Rotating a vector by a quaternion** — translated functions run by the interpreter; symbolic execution then `ring`/`field` over R.
* **C25 Spherical interpolation** — R instance with trigonometric identities of the standard library.
* **C26 Shortest rotation between two vectors** — translated functions run by the interpreter; symbolic execution then `ring`/`field` over R.
* **C27 Euler angles: matrices by order** — translated functions run by the interpreter; symbolic execution then `ring`/`field` over R.
* **C28 Euler angles extraction** — R instance with atan2/asin specifications; exact round trip on the principal range (`Proofs/Exact.v`).
* **C29 Euler angles to quaternions** — translated functions run by the interpreter; symbolic execution then `ring`/`field` over R.
* **C30 Look-at view matrices** — translated functions run by the interpreter; symbolic execution then `ring`/`field` over R.
* **C31 Projection matrices map the view volume to the clip volume** — translated functions run by the interpreter; symbolic execution then `ring`/`field` over R.
* **C32 Decomposing perspective matrices** — translated functions run by the interpreter; symbolic execution then `ring`/`field` over R.
* **C33 Orthographic projection of a bounding box** — translated functions run by the interpreter; symbolic execution then `ring`/`field` over R.
* **C34 Project and unproject are inverse** — translated functions run by the interpreter; symbolic execution then `ring`/`field` over R.
* **C35 Frustum planes** — translated functions run by the interpreter; symbolic execution then `ring`/`field` over R.
* **C36 AABB algebra** — translated functions run by the interpreter; symbolic execution then `ring`/`field` over R.
* **C37 Transforming a box** — translated functions run by the interpreter; symbolic execution then `ring`/`field` over R.
* **C38 Box-frustum culling is conservative** — loop of six planes unrolled by symbolic execution; convexity argument over R.
* **C39 Box-sphere and rectangle-circle tests miss intersections** — translated functions run by the interpreter; symbolic execution then `ring`/`field` over R.
* **C40 Sphere merge and sphere tests** — translated functions run by the interpreter; symbolic execution then `ring`/`field` over R.
* **C41 Ray-sphere intersection** — translated functions run by the interpreter; symbolic execution then `ring`/`field` over R.
* **C42 Ray-triangle intersection** — translated functions run by the interpreter; symbolic execution then `ring`/`field` over R.
* **C43 Integer vectors: exact results and exactly when behaviour is undefined** — integers with overflow as an error outcome; iff statements.
* **C44 Scalar helpers** — translated functions run by the interpreter; symbolic execution then `ring`/`field` over R.
* **C45 NaN behaviour of min/max/clamp** — binary32 instance built on the standard library's SpecFloat; case analysis on NaN.
* **C46 Approximate equality** — R instance, and binary32 instance for the NaN part.
* **C47 Reflection and refraction** — translated functions run by the interpreter; symbolic execution then `ring`/`field` over R.
* **C48 Axis-angle rotation of a vector (Rodrigues)** — translated functions run by the interpreter; symbolic execution then `ring`/`field` over R.
* **C49 Projection and angle** — translated functions run by the interpreter; symbolic execution then `ring`/`field` over R.
* **C50 Swizzle** — translated functions run by the interpreter; symbolic execution then `ring`/`field` over R.
* **C51 Easing functions** — R instance, piecewise polynomials by cases; sin/pow variants with real functions.
* **C52 Curves** — translated functions run by the interpreter; symbolic execution then `ring`/`field` over R.
* **C53 De Casteljau solver** — induction on the loop counter at interpreter level.
* **C54 Perlin noise vanishes on the lattice and is periodic** — symbolic execution with the large shared subexpressions named, each recognised as a piece of `Spec/Noise.v` (hash modulo 289, gradient, fade, multilinear blend); then lattice and period arguments on that spec. Over R only: the `fmodf`, `floorf` and `roundf` used are the exact real functions.
* **C55 SIMD mat4 and vec4 code agrees with the scalar code** — same functions translated under several configurations, SIMD vectors as lists of lanes; reflective normaliser of real expressions (`Proofs/RNorm.v`, proved sound in `Proofs/RNormSound.v`), identical symbolic results where operation order is the same. The noise functions are compared without multiplying sums out.
* **C56 Struct API forwards faithfully** — mechanical translation of struct/*.h; symbolic execution of both sides, every Scalar.
* **C57 Exported call API forwards faithfully** — mechanical translation of src/*.c; symbolic execution of both sides, every Scalar.
* **C58 Memory safety of the whole inline API** — signatures collected from headers and comments by a tool; safety decided by symbolic evaluation of every function on every aliasing pattern; loops of unknown length by induction.
* **C59 Plane normalisation and distances** — translated functions run by the interpreter; symbolic execution then `ring`/`field` over R.
* **C60 Complex-number operations on vec2** — translated functions run by the interpreter; symbolic execution then `ring`/`field` over R.
* **C61 Colour and pick-matrix helpers** — translated functions run by the interpreter; symbolic execution then `ring`/`field` over R.
* **C62 Overflow, underflow and NaN in single precision** — binary32 instance; rounding lemmas of Flocq for sums of squares; concrete witnesses for the refutations.
* **C63 Exact identities in single precision** — binary32 instance; a small calculus of results that equal an input up to the sign of zero.
* **C64 Rounding error bounds in single precision** — reify the computed expression as a polynomial of rounded operations (`Proofs/FloErr.v`), one induction for the error and one for the absence of overflow; `Proofs/IeeeNorm.v` adds square root and division.
* **C65 Clip-space configurations** — tables of pairs by function name (`Spec/ClipConfig.v`, written by `tools/clipapi.py`), each pair compared after resolving calls; unproject by the inverse matrix.
* **C66 Fast-math and default-epsilon builds** — symbolic evaluation of the functions of those builds. The struct functions of those builds are handled as in C56 (`Spec/StructConfig.v`).
* **C67 Axis, angle and direction of quaternions** — polar form of atan2; every rotation matrix comes from a unit quaternion (cofactors of an orthonormal matrix, four cases), then the branches of glm_mat3_quat on the frame built by glm_quat_for.
* **C68 Placement** — symbolic evaluation under every alias pattern, compared with the pattern without aliases after renaming the variables that the pattern makes equal (Proofs/Placed.v); for the exceptions two concrete binary32 calls each, checked by a boolean function. Found: glm_quat_mul (scalar build), glm_vec4_reflect, glm_vec*_refract, glm_aabb*_crop_until, glm_mat2_mulv and glm_decompose(_rs) give another result when dest is an argument; partial overlaps are outside the layout model.
* **C69 No rounding** — `Spec/Exact.v` says when a binary32 call and the real call agree exactly; `Spec/ExactLists.v` lists the functions with their integer bounds. A checker (`Proofs/ExactSound.v`) bounds every subexpression of the symbolic result by an integer multiple of a power of two below 2^24 and is proved sound through Flocq; the bounds are sufficient, not claimed least. While proving it a flaw of the model's fused multiply-add was found and fixed: fma(x, y, 0) had returned the unrounded product.
* **C70 A camera end to end** — the calculated matrices of C30 and C31 multiplied; the frame of the viewer is orthonormal (`Proofs/Camera.v`), so the product acts by dot products with it. Culling uses glm_frustum_planes for an arbitrary matrix (also C35_total). Found: with a far/near ratio above 2^24 the far plane is normalised to zero and culls nothing (C70_far_lost).
* **C71 Vector-register helpers** — `Spec/Lanes.v` gives lane-wise and horizontal operations on lists; symbolic evaluation of every helper of simd/x86.h, simd/arm.h, simd/wasm.h. NEON 32-bit division refines a reciprocal estimate; over the reals the model takes the estimate as exact. Found: glmm256_fnmsub (simd/x86.h:354-361) has the wrong sign in both forms (C71_fnmsub256_refuted). Not modelled: the variants of glmm_vdot(s) under CGLM_SSE4_DOT and CGLM_SSE3_DOT.
* **C72 Error bounds in the SIMD builds** — `Spec/Bounds.v` states the bound for any function of that type; `Proofs/FloFma.v` extends the reified polynomials of C64 with fused multiply-add, rounded once.
* **C73 Error bounds** — `Spec/Approx.v` says when a binary32 call approximates the real call; `Spec/ApproxLists.v` (made by tools/approx.py from tools/approx.json) lists functions and bounds. A checker (`Proofs/ApproxSound.v`) runs on the symbolic result and bounds magnitude and error of every subexpression in units of 2^-30, with half an ulp for each operation; it refuses division by non-constants and comparisons that rounding could decide otherwise. The bounds are proved, not claimed to be sharp. Functions that divide by computed values (inverses, normalisation, perspective) are not listed.
* **C74 Drift** — `Spec/Drift.v` defines orthogonal 4x4 matrices. Row by row: multiplication by an orthogonal matrix keeps the 2-norm of the row error, rounding (from the checker of C73, entries up to 5/4) adds at most 2 * 2^-20 and the error of the factor 5d; induction over `fold_left` of C56.
* **C75 Drift of repeated calls** — `Spec/Drift.v` `chained` relates the first and last value of successive calls. Same argument as C74 for the 2-norm of the error of a quaternion (multiplication by a unit quaternion keeps norms) and of a vector. glm_mat4_mulv may have its destination equal to its vector; glm_quat_mul may not (C21).
* **C76 Ranges in single precision** — `Spec/Ranges.v`. Rounding is monotone and fixes the bounds, so most ranges and orders follow operation by operation; the ranges of glm_smooth, glm_ease_quad_out, glm_ease_quad_inout, glm_ease_circ_out and glm_ease_circ_inout rest on the last bit (floats from 1/2 to 1 are multiples of 2^-24, and 1 + 2^-24 rounds to 1). Easing functions that call sinf or powf, the back, elastic and bounce families are not claimed (glm_ease_bounce_out is refuted).
* **C77 Tests in single precision** — `Spec/Tests32.v`. A comparison of rounded values decides the exact condition up to the accumulated rounding error; `tolerance` is where the rounded difference passes the float nearest to 1e-5. Box against sphere is not claimed (it is wrong already over the reals, C39); overflow is excluded by the bounds on the arguments.
* **C78 Relative accuracy** — `Spec/Relative.v`. Unlike C74 the bounds are relative to the exact result. They hold since a difference of two arguments is rounded once and every later step is a product, a quotient, a square root or a sum of terms of one sign; the magnitudes bounded by `ordinary` exclude overflow and underflow. `tan_accurate` is a hypothesis about libm; a correctly rounded tanf meets it (C78_perspective_ex).
* **C79 Inverses** — `Spec/Inverse32.v`. Determinant and cofactors are bounded operation by operation (half an ulp of an integer bound on the magnitude each); d keeps the rounded determinant away from zero. The inverse is the one of C06, unique by C06_unique. The constants are sufficient, not claimed least.
* **C80 View matrices** — `Spec/View32.v`; the exact axes are `forward`, `rightward`, `upward` of `Spec/Camera.v` (C70). The bound on the rounded unit vector is the one of C64 (6 u); the norm is Lipschitz, and d keeps the rounded side vector away from zero (so the FLT_EPSILON branch is not taken). The constants are sufficient, not claimed least. `glm_look_*`, which first rounds eye + dir, is not covered.
* **C81 Rotations** — `Spec/Rot32.v`; `accurate` is the hypothesis on libm of C73. C73 has no bound for these functions as they normalise (branch, square root, quotient). The unit axis is within 6.1 u (C64), then errors are added up operation by operation with magnitudes bounded by sums and products of the bounds of the parts; the constants are sufficient, not claimed least.
* **C82 Culling end to end** — `Spec/Cull32.v` (`cull_sizes`, `depth`). C35 composes the two calls over the reals, C77 bounds the box test alone for normals at most 1; here the planes come from `glm_frustum_planes` on a float matrix. The factor 1/|n| common to a plane is computed once, so its own error scales the whole inequality and needs no bound; what is left are the roundings of the sums, products and the dot product. The margin is sufficient, not claimed least.
* **C83 Quaternions to matrices** — proofs in `Proofs/QuatMat32.v`; the specification is that of C23 (`Spec/Quaternion.v`: `qmat`, `qnormalized`). The code divides 2 by the computed length rather than by the squared length, so away from unit length it is not the matrix of q/|q|; the claim therefore grows with the distance t from unit length and is stated only up to 16 u. The constants are sufficient, not claimed least.

## 3. Trusted base

* Coq 8.16.1's kernel (including its `vm_compute` conversion).
* Axioms.  `Print Assumptions` stands under each theorem in `rocq/theories/Properties/`.
  Theorems for every arithmetic, and those on integers, are closed under the global
  context.  Theorems over the reals list a subset of the standard library's
  `ClassicalDedekindReals.sig_forall_dec`, `ClassicalDedekindReals.sig_not_dec`,
  `FunctionalExtensionality.functional_extensionality_dep` and `Classical_Prop.classic`.
  There are no others, and none of our own.  Flocq is used as a library in the binary32
  proofs and brings no axiom beyond these.
* The translation of C text to syntax trees by `tools/c2coq.py`, `tools/intrin.py` (SIMD
  intrinsics) and `tools/gensimd.py`.  Each generated definition cites file and lines and can
  be compared with them.
* The interpreter `MiniC.v` as the meaning of that syntax, and the specifications in
  `rocq/theories/Spec/`, which are small and do not mention the model's helpers.
* `Spec/Signatures.v` and `Spec/Builds.v` are lists written by tools (`tools/sigs.py`,
  `tools/pairs.py`); they are part of the statements of C55 and C58.

The symbolic evaluator, the normaliser and all tactics are not trusted: they are proved
sound, or produce terms the kernel checks.

### What the contracts say

* `computes S f args ret outs`: for every memory and all addresses laid out as `args` says,
  the call returns `ret` and the final memory is the initial one with the written objects
  replaced by `outs`.  `In cs`: an object with these contents that overlaps no written one.
  `InA cs`: the same, or exactly the address of a written object of the same size.  `Out n`:
  written, contents arbitrary before.  `InOut cs`: read and written.  `Val v`: by value.
  Written objects do not overlap one another.  Partial overlap is outside the contracts.
* `aborts S f args x`: all such calls end in error `x`.
* `memory_safe S f args`: all such calls either return, changing only written objects, or
  stop at an arithmetic error (integer overflow, division by zero, float domain in an
  arithmetic that has one).
* `agree S f g args`: both functions have the same outcome (value and final memory, or error)
  on all such calls.
* `safe f ps` / `agree_on S (f, g, ps)`: the above for all arguments that fit the declared
  parameters `ps`.
* `has_outcome`: the exact outcome of one call; used for clients in `Spec/Client.v`, which
  are one-line callers used to express calls with equal pointers.

## 4. What is modelled, and where the model simplifies

Modelled: all inline functions of `include/cglm/*.h`, `clipspace/`, `handed/`, `struct/`,
and all of `src/*.c` (2259 functions in `theories/Gen/`), in the default (scalar)
configuration; and the functions of `cglm.h` that read differently with SSE2, AVX, FMA
(with AVX), NEON on 64 and 32 bit ARM, and WebAssembly SIMD (`theories/Simd/`); and the
functions of `cglm.h` and `struct.h` that read differently with a forced left-handed space, a
forced depth range 0 to 1, both, `__FAST_MATH__`, or `CGLM_USE_DEFAULT_EPSILON`
(`theories/Config/`, written by `tools/gensimd.py`; names are prefixed by the build).  Those
builds are scalar; the `glmc_` functions are modelled in the default build only.

Simplifications:

* `int`, `int32_t`, `uint32_t` and `size_t` are one integer type with the range of `int`;
  leaving it is an error outcome.
* An object is a flat list of cells.  An index that leaves an inner array but stays inside
  the object (`m[0][5]` of a mat4) is not flagged.  Bytes are not modelled: unions and
  `memcpy`-like casts are cells.
* Float literals are exact rationals given to the arithmetic.  No function computes in double: the
  only double literals are the constants of types.h:99-117, used through a cast to float.  Literals cast to float are read
  as float.  `GLM_PI` and friends are the arithmetic's multiples of pi, exact over R.
  `FLT_EPSILON` is 1/8388608 and `GLM_FLT_EPSILON` its default 1e-5.
* A `switch` is nested conditionals; `modff` is truncation and subtraction.
* Over R division by zero, square root of a negative number, logarithm of a non-positive one
  and acos/asin outside [-1,1] are errors; there are no infinities or NaN, so tests for them
  are false.
* Theorems over R say nothing about rounding.  Those stated for every `Scalar` hold for
  IEEE arithmetic with any libm.
* The binary32 instance uses `SpecFloat` of the standard library (precision 24, emax 128).
  There is one NaN: sign and payload are not modelled.  libm functions other than fabs and
  sqrt are arbitrary.
* SIMD: a vector is a list of lanes, a lane a float, a mask or a sign pattern.  Reciprocal
  and reciprocal square root estimates are exact; loads that broadcast are values; constant
  index vectors are resolved at translation; alignment requirements are not modelled.
* Compiler-specific contraction and excess precision are not modelled.

Not modelled: `io.h` (printing), `applesimd.h`, `version.h`, the headers `struct/handed/*.h`
(included by nothing).  `glmc_aabb2d_size` is declared but defined in no file.  The SIMD
builds of the struct and exported APIs are not translated separately.
