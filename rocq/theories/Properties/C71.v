(** C71: Vector-register helpers of the SIMD headers.

    Over the reals, in the SSE2, AVX, FMA, NEON (64 and 32 bit) and WebAssembly builds, the
    glmm_ helpers on registers of four lanes compute what they are named for: lane-wise
    absolute value, minimum, maximum and quotient, the four fused forms ab+c, -ab+c, ab-c,
    -ab-c, the horizontal sum, minimum and maximum, the dot product (as a float, in every lane,
    or in the lowest lane), the four norms, and loading and storing three floats; the same for
    three of the four fused forms on eight lanes. The fourth, glmm256_fnmsub, does not compute
    -ab-c: without FMA it computes c-ab, with FMA ab-c. *)

From Coq Require Import String List ZArith Bool Reals.
From Verif Require Import MiniC Contract RScalar Cglm.
From Coq Require Import Reals.
From Verif Require Import RScalar.
From Verif.Simd Require Import sse2 avx fma neon neon32 wasm.
From Verif.Spec Require Import Lanes Linear.
From Verif.Spec Require Import Lanes Linear.
From Verif.Spec Require Import Lanes Linear.
From Verif.Proofs Require Lanes.
Import ListNotations.
Local Open Scope list_scope.
Open Scope R_scope.

Theorem C71_abs : forall a, four a ->
  Forall (fun f => takes RS f [a] (lanes (map Rabs a)))
    [sse2_glmm_abs; avx_glmm_abs; fma_glmm_abs; neon_glmm_abs; neon32_glmm_abs; wasm_glmm_abs].
Proof. exact Lanes.C71_abs_ok. Qed.
Print Assumptions C71_abs.

Theorem C71_min : forall a b, four a -> four b ->
  Forall (fun f => takes RS f [a; b] (lanes (each2 Rmin a b)))
    [sse2_glmm_min; avx_glmm_min; fma_glmm_min; neon_glmm_min; neon32_glmm_min; wasm_glmm_min].
Proof. exact Lanes.C71_min_ok. Qed.
Print Assumptions C71_min.

Theorem C71_max : forall a b, four a -> four b ->
  Forall (fun f => takes RS f [a; b] (lanes (each2 Rmax a b)))
    [sse2_glmm_max; avx_glmm_max; fma_glmm_max; neon_glmm_max; neon32_glmm_max; wasm_glmm_max].
Proof. exact Lanes.C71_max_ok. Qed.
Print Assumptions C71_max.

(** neon32: two Newton steps from an estimate that the model over the reals takes as exact *)
Theorem C71_div : forall a b, four a -> four b -> Forall (fun y => y <> 0) b ->
  Forall (fun f => takes RS f [a; b] (lanes (each2 Rdiv a b)))
    [sse2_glmm_div; avx_glmm_div; fma_glmm_div; neon_glmm_div; neon32_glmm_div; wasm_glmm_div].
Proof. exact Lanes.C71_div_ok. Qed.
Print Assumptions C71_div.

Theorem C71_fused : forall a b c, four a -> four b -> four c ->
  Forall (fun f => takes RS f [a; b; c] (lanes (each3 (fun x y z => x * y + z) a b c)))
    [sse2_glmm_fmadd; avx_glmm_fmadd; fma_glmm_fmadd; neon_glmm_fmadd; neon32_glmm_fmadd; wasm_glmm_fmadd] /\
  Forall (fun f => takes RS f [a; b; c] (lanes (each3 (fun x y z => - (x * y) + z) a b c)))
    [sse2_glmm_fnmadd; avx_glmm_fnmadd; fma_glmm_fnmadd; neon_glmm_fnmadd; neon32_glmm_fnmadd; wasm_glmm_fnmadd] /\
  Forall (fun f => takes RS f [a; b; c] (lanes (each3 (fun x y z => x * y - z) a b c)))
    [sse2_glmm_fmsub; avx_glmm_fmsub; fma_glmm_fmsub; neon_glmm_fmsub; neon32_glmm_fmsub; wasm_glmm_fmsub] /\
  Forall (fun f => takes RS f [a; b; c] (lanes (each3 (fun x y z => - (x * y) - z) a b c)))
    [sse2_glmm_fnmsub; avx_glmm_fnmsub; fma_glmm_fnmsub; neon_glmm_fnmsub; neon32_glmm_fnmsub; wasm_glmm_fnmsub].
Proof. exact Lanes.C71_fused_ok. Qed.
Print Assumptions C71_fused.

Theorem C71_fused256 : forall a b c, eight a -> eight b -> eight c ->
  Forall (fun f => takes RS f [a; b; c] (lanes (each3 (fun x y z => x * y + z) a b c))) [avx_glmm256_fmadd; fma_glmm256_fmadd] /\
  Forall (fun f => takes RS f [a; b; c] (lanes (each3 (fun x y z => - (x * y) + z) a b c))) [avx_glmm256_fnmadd; fma_glmm256_fnmadd] /\
  Forall (fun f => takes RS f [a; b; c] (lanes (each3 (fun x y z => x * y - z) a b c))) [avx_glmm256_fmsub; fma_glmm256_fmsub].
Proof. exact Lanes.C71_fused256_ok. Qed.
Print Assumptions C71_fused256.

Theorem C71_hadd : forall a, four a ->
  Forall (fun f => takes RS f [a] (VF (total a)))
    [sse2_glmm_hadd; avx_glmm_hadd; fma_glmm_hadd; neon_glmm_hadd; neon32_glmm_hadd; wasm_glmm_hadd] /\
  Forall (fun f => takes RS f [a] (lanes (repeat (total a) 4)))
    [sse2_glmm_vhadd; avx_glmm_vhadd; fma_glmm_vhadd; neon_glmm_vhadd; neon32_glmm_vhadd; wasm_glmm_vhadd] /\
  Forall (fun f => lowest RS f [a] (total a)) [sse2_glmm_vhadds; avx_glmm_vhadds; fma_glmm_vhadds; wasm_glmm_vhadds].
Proof. exact Lanes.C71_hadd_ok. Qed.
Print Assumptions C71_hadd.

Theorem C71_hmin : forall a x, four a -> least x a ->
  Forall (fun f => takes RS f [a] (VF x))
    [sse2_glmm_hmin; avx_glmm_hmin; fma_glmm_hmin; neon_glmm_hmin; neon32_glmm_hmin; wasm_glmm_hmin] /\
  Forall (fun f => lowest RS f [a] x) [sse2_glmm_vhmin; avx_glmm_vhmin; fma_glmm_vhmin; wasm_glmm_vhmin].
Proof. exact Lanes.C71_hmin_ok. Qed.
Print Assumptions C71_hmin.

Theorem C71_hmax : forall a x, four a -> greatest x a ->
  Forall (fun f => takes RS f [a] (VF x))
    [sse2_glmm_hmax; avx_glmm_hmax; fma_glmm_hmax; neon_glmm_hmax; neon32_glmm_hmax; wasm_glmm_hmax] /\
  Forall (fun f => lowest RS f [a] x) [sse2_glmm_vhmax; avx_glmm_vhmax; fma_glmm_vhmax; wasm_glmm_vhmax].
Proof. exact Lanes.C71_hmax_ok. Qed.
Print Assumptions C71_hmax.

Theorem C71_dot : forall a b, four a -> four b ->
  Forall (fun f => takes RS f [a; b] (VF (rdot a b)))
    [sse2_glmm_dot; avx_glmm_dot; fma_glmm_dot; neon_glmm_dot; neon32_glmm_dot; wasm_glmm_dot] /\
  Forall (fun f => takes RS f [a; b] (lanes (repeat (rdot a b) 4)))
    [sse2_glmm_vdot; avx_glmm_vdot; fma_glmm_vdot; neon_glmm_vdot; neon32_glmm_vdot; wasm_glmm_vdot] /\
  Forall (fun f => lowest RS f [a; b] (rdot a b)) [sse2_glmm_vdots; avx_glmm_vdots; fma_glmm_vdots; wasm_glmm_vdots].
Proof. exact Lanes.C71_dot_ok. Qed.
Print Assumptions C71_dot.

Theorem C71_norm : forall a, four a ->
  Forall (fun f => takes RS f [a] (VF (sqrt (rdot a a))))
    [sse2_glmm_norm; avx_glmm_norm; fma_glmm_norm; neon_glmm_norm; neon32_glmm_norm; wasm_glmm_norm] /\
  Forall (fun f => takes RS f [a] (VF (rdot a a)))
    [sse2_glmm_norm2; avx_glmm_norm2; fma_glmm_norm2; neon_glmm_norm2; neon32_glmm_norm2; wasm_glmm_norm2] /\
  Forall (fun f => takes RS f [a] (VF (total (map Rabs a))))
    [sse2_glmm_norm_one; avx_glmm_norm_one; fma_glmm_norm_one; neon_glmm_norm_one; neon32_glmm_norm_one; wasm_glmm_norm_one] /\
  (forall x, greatest x (map Rabs a) -> Forall (fun f => takes RS f [a] (VF x))
    [sse2_glmm_norm_inf; avx_glmm_norm_inf; fma_glmm_norm_inf; neon_glmm_norm_inf; neon32_glmm_norm_inf; wasm_glmm_norm_inf]).
Proof. exact Lanes.C71_norm_ok. Qed.
Print Assumptions C71_norm.

(** the eight-lane negated multiply-subtract: without fused operations it is c - ab, with them ab - c *)
Theorem C71_fnmsub256_actual : forall a b c, eight a -> eight b -> eight c ->
  takes RS avx_glmm256_fnmsub [a; b; c] (lanes (each3 (fun x y z => z - x * y) a b c)) /\
  takes RS fma_glmm256_fnmsub [a; b; c] (lanes (each3 (fun x y z => x * y - z) a b c)).
Proof. exact Lanes.C71_fnmsub256_actual_ok. Qed.
Print Assumptions C71_fnmsub256_actual.

Theorem C71_fnmsub256_refuted : Forall (fun f => exists a b c, eight a /\ eight b /\ eight c /\
  ~ takes RS f [a; b; c] (lanes (each3 (fun x y z => - (x * y) - z) a b c))) [avx_glmm256_fnmsub; fma_glmm256_fnmsub].
Proof. exact Lanes.C71_fnmsub256_refuted_ok. Qed.
Print Assumptions C71_fnmsub256_refuted.

Theorem C71_load3 : forall x y z,
  Forall (fun f => computes RS f [In (fl [x; y; z])] (lanes [x; y; z; 0]) []) [sse2_glmm_load3; avx_glmm_load3; fma_glmm_load3; wasm_glmm_load3].
Proof. exact Lanes.C71_load3_ok. Qed.
Print Assumptions C71_load3.

Theorem C71_store3 : forall x y z w,
  Forall (fun f => computes RS f [Out 3; Val (lanes [x; y; z; w])] VVoid [fl [x; y; z]]) [sse2_glmm_store3; avx_glmm_store3; fma_glmm_store3; wasm_glmm_store3].
Proof. exact Lanes.C71_store3_ok. Qed.
Print Assumptions C71_store3.

(** registers meeting the hypotheses *)
Example C71_div_example : four [1; 2; 3; 4] /\ four [4; 3; 2; 1] /\ Forall (fun y => y <> 0) [4; 3; 2; 1] /\ each2 Rdiv [1; 2; 3; 4] [4; 3; 2; 1] = [/ 4; 2 / 3; 3 / 2; 4].
Proof. exact Lanes.C71_div_ex. Qed.

Example C71_hmin_example : four [3; 1; 4; 2] /\ least 1 [3; 1; 4; 2].
Proof. exact Lanes.C71_hmin_ex. Qed.

Example C71_hmax_example : four [3; 1; 4; 2] /\ greatest 4 [3; 1; 4; 2].
Proof. exact Lanes.C71_hmax_ex. Qed.

Example C71_fused_example : four [1; 2; 3; 4] /\ each3 (fun x y z => - (x * y) - z) [1; 2; 3; 4] [1; 1; 2; 2] [5; 5; 5; 5] = [- 6; - 7; - 11; - 13].
Proof. exact Lanes.C71_fused_ex. Qed.

Example C71_dot_example : four [1; 2; 3; 4] /\ rdot [1; 2; 3; 4] [4; 3; 2; 1] = 20.
Proof. exact Lanes.C71_dot_ex. Qed.

Example C71_norm_example : four [1; -1; 1; -1] /\ sqrt (rdot [1; -1; 1; -1] [1; -1; 1; -1]) = 2.
Proof. exact Lanes.C71_norm_ex. Qed.
