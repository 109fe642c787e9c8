{
"C01": [
"proved",
"every float arithmetic, every aliasing of operands with the destination"
],
"C02": [
"proved",
"over the reals; any aliasing"
],
"C03": [
"proved",
"over the reals; in place too; division by zero and negative roots are errors of the model, so their absence is part of the theorems"
],
"C04": [
"proved",
"Over the reals; SSE2, AVX, FMA, WebAssembly, NEON and scalar builds; agreement off the gap, difference on it."
],
"C05": [
"proved",
"over the reals; any aliasing of factors and destination; blocks (pick/ins) for every arithmetic"
],
"C06": [
"proved",
"over the reals; also in place; singular input ends in the division by zero"
],
"C07": [
"proved",
"over the reals"
],
"C08": [
"proved",
"Scalar build (in place failure shown) and all SIMD builds, every float arithmetic."
],
"C09": [
"proved",
"over the reals; the in-place failure of glm_mat2_mulv is characterised exactly"
],
"C10": [
"proved",
""
],
"C11": [
"proved",
""
],
"C12": [
"proved",
"over the reals"
],
"C13": [
"proved",
"over the real numbers"
],
"C14": [
"proved",
"over the real numbers"
],
"C15": [
"proved",
"scalar build; over the real numbers"
],
"C16": [
"proved",
"scalar build; over the real numbers"
],
"C17": [
"proved",
"over the real numbers"
],
"C18": [
"proved",
"over the real numbers"
],
"C19": [
"proved",
"over the real numbers"
],
"C20": [
"proved",
"over the real numbers; glm_mat3_textrans turns clockwise, against its documentation: C20_textrans_refuted"
],
"C21": [
"proved",
"Over the reals; scalar build with the in-place failure, SIMD builds with any aliasing."
],
"C22": [
"proved",
""
],
"C23": [
"proved",
""
],
"C24": [
"proved",
""
],
"C25": [
"proved",
""
],
"C26": [
"proved",
""
],
"C27": [
"proved",
""
],
"C28": [
"proved",
""
],
"C29": [
"proved",
""
],
"C30": [
"proved",
""
],
"C31": [
"proved",
""
],
"C32": [
"proved",
""
],
"C33": [
"proved",
""
],
"C34": [
"proved",
""
],
"C35": [
"proved",
""
],
"C36": [
"proved",
"glm_aabb_isvalid accepts boxes with crossed corners: C36_isvalid_refuted"
],
"C37": [
"proved",
""
],
"C38": [
"proved",
""
],
"C39": [
"proved",
""
],
"C40": [
"proved",
""
],
"C41": [
"proved",
""
],
"C42": [
"proved",
""
],
"C43": [
"proved",
""
],
"C44": [
"proved",
"over the real numbers"
],
"C45": [
"proved",
"Over the SpecFloat binary32 instance, for every libm."
],
"C46": [
"proved",
"The IEEE part is over the SpecFloat binary32 instance."
],
"C47": [
"proved",
"over the reals; aliasing of the destination characterised"
],
"C48": [
"proved",
"over the real numbers"
],
"C49": [
"proved",
"over the real numbers"
],
"C50": [
"proved",
""
],
"C51": [
"proved",
""
],
"C52": [
"proved",
""
],
"C53": [
"proved",
""
],
"C54": [
"proved",
"glm_perlin_vec2/3/4 compute the gradient noise of Spec/Noise.v for every real point, in the scalar and the six SIMD builds; in the scalar build they are 0 at every integer point and periodic with period 289 in every coordinate."
],
"C55": [
"proved",
"1121 pairs of functions in six SIMD builds plus the exceptions, each shown to differ where stated. Reciprocal estimate instructions are modelled as exact reciprocals."
],
"C56": [
"proved",
"611 struct functions by the transfer theorem; the default clip-space, bounding-box, frustum, ortho_aabb, move_far/resize, array-packing, identity-array and mulN functions by their own theorems. glms_frustum_corners_at is refuted."
],
"C57": [
"proved",
""
],
"C58": [
"proved",
"1479 functions by one theorem over their signatures; decasteljau and the integer norm separately; the loops over arrays of any length by C56_pack, C56_identity_array and C56_mulN. glms_frustum_corners_at is refuted."
],
"C59": [
"proved",
"over the real numbers"
],
"C60": [
"proved",
"over the real numbers"
],
"C61": [
"proved",
"over the real numbers"
],
"C62": [
"proved",
"Over the SpecFloat binary32 instance (scalar build)."
],
"C63": [
"proved",
"Over the SpecFloat binary32 instance (scalar build)."
],
"C64": [
"proved",
"Higham-style bounds for the scalar build, with explicit constants; normalisation for lengths between 2^-22 and 2^60."
],
"C65": [
"proved",
"Four clip-space builds; suffix-free functions equal the named ones; unproject undoes project. frustum.h ignores the depth range: C65_corners_refuted, C65_planes_refuted."
],
"C66": [
"proved",
"Fast-math classification is constant (C66_fast_refuted: isvalid accepts NaN); FLT_EPSILON comparisons and glm_quat_from_vecs in the default-epsilon build."
],
"C67": [
"proved",
"over the reals"
],
"C68": [
"proved",
"All 1479 listed functions but 25, and 1148 SIMD functions but 30, for every arithmetic; the exceptions refuted in binary32. Pointers that overlap partly are outside the layout model."
],
"C69": [
"proved",
"504 functions exact on all numbers and 728 on integers up to the bound listed with each, at every placement (C69_select, C69_integers) and as memory-independent values (C69_select_values, C69_integers_values); integer matrix products associate (C69_assoc). The bounds are sufficient, not shown to be the largest; beyond them sums round and products need not associate (refuted theorems)."
],
"C70": [
"proved",
"over the real numbers; both handednesses, both depth conventions for clip volume and projection, -1..1 depth for planes and glm_unproject"
],
"C71": [
"proved",
"Over the reals. All 4-lane helpers in six builds; glmm256_fnmsub refuted and its actual value proved. NEON 32-bit reciprocal estimates are taken as exact."
],
"C72": [
"proved",
"NEON builds have no SIMD mat3_mul of their own."
],
"C73": [
"proved",
"830 functions listed with bounds by tools/approx.py; bounds are upper bounds, not claimed sharp; functions dividing by computed values are not listed"
],
"C74": [
"proved",
"row-wise 2-norm argument over the C56 fold; needs entries within d of orthogonal matrices and total at most 1/4"
],
"C75": [
"proved",
"Bounds for glm_quat_mul and glm_mat4_mulv; the bound is not claimed to be sharp."
],
"C76": [
"proved",
"Three refuted statements: glm_smooth and glm_ease_quad_out are not monotone, glm_ease_bounce_out and glm_lerp leave their range."
],
"C77": [
"proved",
"comparisons with tolerance, boxes, spheres and frustum culling in single precision, with explicit margins"
],
"C78": [
"proved",
"Relative error bounds of projections, norms and distances."
],
"C79": [
"proved",
"Absolute error bounds of matrix inverses."
],
"C80": [
"proved",
"glm_lookat_rh and glm_lookat_lh: error of every entry of the view matrix against the exact axes"
],
"C81": [
"proved",
"glm_rotate_make, glm_rotate, glm_quatv, glm_vec3_rotate and glm_quat_rotatev: errors against the exact rotation"
],
"C82": [
"proved",
"Both directions; the point may be real. Example: identity matrix and a box of side 5."
],
"C83": [
"proved",
"all four conversions of a quaternion within 16 u of unit length (bound proportional to that distance plus 35 u), after glm_quat_normalize for any length in range (150 u), and glm_quat_look and glm_quat_rotate"
]
}