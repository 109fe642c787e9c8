(** * Calls whose outcome does not depend on where the arguments are placed *)

From Coq Require Import List ZArith.
From Verif Require Import MiniC Contract Cglm.
From Verif.Gen Require Import struct_box struct_ray.
From Verif.Simd Require sse2 avx fma neon neon32 wasm.
From Verif.Spec Require Import Types Agree.
Import ListNotations.
Local Open Scope Z_scope.

(** For every arithmetic and all argument values there is one outcome - returned value and contents
    of the written objects, or error - that the call has in every memory, whatever the written
    objects held before and whichever of the pointers that are read equal a pointer of the same
    size that is written. *)
Definition determined (f : fundef) (ps : list param) : Prop :=
  forall (S : Scalar) args, Forall2 fits ps args -> exists o, has_outcome S f args o.

(** Two calls with the same argument values, in memories that fit them, return normally but leave
    different values in the same cell (number [o] of the written object number [k]). *)
Definition placement_matters (S : Scalar) (f : fundef) (ps : list param) : Prop :=
  exists args m m' q q' v v' n n' k p p' o,
    Forall2 fits ps args /\ layout m args q /\ layout m' args q' /\
    call S f (actuals args q) m = Ok (v, n) /\ call S f (actuals args q') m' = Ok (v', n') /\
    nth_error (wptrs args q) k = Some p /\ nth_error (wptrs args q') k = Some p' /\
    (exists a, nth_error (filter written args) k = Some a /\ 0 <= o < Z.of_nat (size a)) /\
    mread n (fst p) (snd p + o) <> mread n' (fst p') (snd p' + o).

(** The functions of [signatures] that are not determined: those that read an argument again after
    writing through a pointer that may be equal to it, and (glm_euler_by_order, glm_mat4_ins3,
    glm_pickmatrix, glm(s)_ray_sphere) those that leave part of a written object alone on some
    path. *)
Definition not_determined : list (fundef * list param) :=
  [(glm_aabb2d_crop_until, [Reads Flt 4; Reads Flt 4; Reads Flt 4; Writes 4]);
   (glm_decompose_rs, [Reads Flt 16; Writes 16; Writes 3]);
   (glm_decompose, [Reads Flt 16; Writes 4; Writes 16; Writes 3]);
   (glm_aabb_crop_until, [Reads Flt 6; Reads Flt 6; Reads Flt 6; Writes 6]);
   (glm_euler_by_order, [Reads Flt 3; Integer; Writes 16]);
   (glm_mat2_mulv, [Reads Flt 4; Reads Flt 2; Writes 2]);
   (glm_mat2_transpose_to, [Reads Flt 4; Writes 4]);
   (glm_mat2x3_transpose, [Reads Flt 6; Writes 6]);
   (glm_mat2x4_transpose, [Reads Flt 8; Writes 8]);
   (glm_mat3_transpose_to, [Reads Flt 9; Writes 9]);
   (glm_mat3x2_transpose, [Reads Flt 6; Writes 6]);
   (glm_mat3x4_transpose, [Reads Flt 12; Writes 12]);
   (glm_mat4_ins3, [Reads Flt 9; Writes 16]);
   (glm_mat4_transpose_to, [Reads Flt 16; Writes 16]);
   (glm_mat4x2_transpose, [Reads Flt 8; Writes 8]);
   (glm_mat4x3_transpose, [Reads Flt 12; Writes 12]);
   (glm_pickmatrix, [Reads Flt 2; Reads Flt 2; Reads Flt 4; Writes 16]);
   (glm_quat_mul, [Reads Flt 4; Reads Flt 4; Writes 4]);
   (glm_ray_sphere, [Reads Flt 3; Reads Flt 3; Reads Flt 4; Writes 1; Writes 1]);
   (glms_aabb_crop_until, [Reads Flt 6; Reads Flt 6; Reads Flt 6; Writes 6]);
   (glms_ray_sphere, [Struct Flt 3; Struct Flt 3; Struct Flt 4; Writes 1; Writes 1]);
   (glm_vec2_refract, [Reads Flt 2; Reads Flt 2; Float; Writes 2]);
   (glm_vec3_refract, [Reads Flt 3; Reads Flt 3; Float; Writes 3]);
   (glm_vec4_reflect, [Reads Flt 4; Reads Flt 4; Writes 4]);
   (glm_vec4_refract, [Reads Flt 4; Reads Flt 4; Float; Writes 4])].
(** the same for [simd_signatures] *)
Definition simd_not_determined : list (fundef * list param) :=
  [(sse2.sse2_glm_vec4_reflect, [Reads Flt 4; Reads Flt 4; Writes 4]);
   (sse2.sse2_glm_vec4_refract, [Reads Flt 4; Reads Flt 4; Float; Writes 4]);
   (sse2.sse2_glm_decompose_rs, [Reads Flt 16; Writes 16; Writes 3]);
   (sse2.sse2_glm_decompose, [Reads Flt 16; Writes 4; Writes 16; Writes 3]);
   (sse2.sse2_glm_pickmatrix, [Reads Flt 2; Reads Flt 2; Reads Flt 4; Writes 16]);
   (avx.avx_glm_vec4_reflect, [Reads Flt 4; Reads Flt 4; Writes 4]);
   (avx.avx_glm_vec4_refract, [Reads Flt 4; Reads Flt 4; Float; Writes 4]);
   (avx.avx_glm_decompose_rs, [Reads Flt 16; Writes 16; Writes 3]);
   (avx.avx_glm_decompose, [Reads Flt 16; Writes 4; Writes 16; Writes 3]);
   (avx.avx_glm_pickmatrix, [Reads Flt 2; Reads Flt 2; Reads Flt 4; Writes 16]);
   (fma.fma_glm_vec4_reflect, [Reads Flt 4; Reads Flt 4; Writes 4]);
   (fma.fma_glm_vec4_refract, [Reads Flt 4; Reads Flt 4; Float; Writes 4]);
   (fma.fma_glm_decompose_rs, [Reads Flt 16; Writes 16; Writes 3]);
   (fma.fma_glm_decompose, [Reads Flt 16; Writes 4; Writes 16; Writes 3]);
   (fma.fma_glm_pickmatrix, [Reads Flt 2; Reads Flt 2; Reads Flt 4; Writes 16]);
   (neon.neon_glm_vec4_reflect, [Reads Flt 4; Reads Flt 4; Writes 4]);
   (neon.neon_glm_vec4_refract, [Reads Flt 4; Reads Flt 4; Float; Writes 4]);
   (neon.neon_glm_decompose_rs, [Reads Flt 16; Writes 16; Writes 3]);
   (neon.neon_glm_decompose, [Reads Flt 16; Writes 4; Writes 16; Writes 3]);
   (neon.neon_glm_pickmatrix, [Reads Flt 2; Reads Flt 2; Reads Flt 4; Writes 16]);
   (neon32.neon32_glm_vec4_reflect, [Reads Flt 4; Reads Flt 4; Writes 4]);
   (neon32.neon32_glm_vec4_refract, [Reads Flt 4; Reads Flt 4; Float; Writes 4]);
   (neon32.neon32_glm_decompose_rs, [Reads Flt 16; Writes 16; Writes 3]);
   (neon32.neon32_glm_decompose, [Reads Flt 16; Writes 4; Writes 16; Writes 3]);
   (neon32.neon32_glm_pickmatrix, [Reads Flt 2; Reads Flt 2; Reads Flt 4; Writes 16]);
   (wasm.wasm_glm_vec4_reflect, [Reads Flt 4; Reads Flt 4; Writes 4]);
   (wasm.wasm_glm_vec4_refract, [Reads Flt 4; Reads Flt 4; Float; Writes 4]);
   (wasm.wasm_glm_decompose_rs, [Reads Flt 16; Writes 16; Writes 3]);
   (wasm.wasm_glm_decompose, [Reads Flt 16; Writes 4; Writes 16; Writes 3]);
   (wasm.wasm_glm_pickmatrix, [Reads Flt 2; Reads Flt 2; Reads Flt 4; Writes 16])].
