{"id": "C01", "title": "Component-wise float vector functions: exact result, any aliasing, nothing else written", "statement": "For every float arithmetic, each component-wise function on vec2, vec3 and vec4 (add, adds, sub, subs, mul, scale, div, divs, negate, abs, min/max, clamp, fill/broadcast, copy, floor, sqrt, the *add/*sub accumulators, step, lerp, ...) writes to the destination exactly the component-wise formula of its documentation computed from the operand values before the call, whichever of the operands and the destination are the same object, reads no uninitialised or out-of-bounds cell, and leaves every other memory cell unchanged.", "quantifier": "all memories, all addresses of the operands and destination (equal or non-overlapping), all component values, every float arithmetic (so also NaN, infinities, signed zeros)", "why_tests_cant": "A test picks a few values and usually distinct buffers; overlap patterns, surrounding memory and special float values are unbounded.", "anchors": ["include/cglm/vec2.h", "include/cglm/vec3.h", "include/cglm/vec4.h", "include/cglm/vec2-ext.h", "include/cglm/vec3-ext.h", "include/cglm/vec4-ext.h", "glm_vec3_add", "glm_vec4_muladd", "glm_vec2_scale"]}
{"id": "C02", "title": "Cross product", "statement": "Over the reals glm_vec3_cross writes the vector product of its operands even if the destination is one of them; the result is orthogonal to both operands, its squared length is |a|^2|b|^2-(a.b)^2, it is antisymmetric, and glm_vec2_cross returns the z component of the embedded product.", "quantifier": "all vectors, all addresses (equal or non-overlapping)", "why_tests_cant": "Orthogonality and the Lagrange identity are universally quantified over three-dimensional space.", "anchors": ["include/cglm/vec3.h", "glm_vec3_cross", "glm_cross", "glm_vec2_cross"]}
{"id": "C03", "title": "Normalisation yields a unit vector or exactly zero", "statement": "Over the reals glm_vecN_normalize and glm_vecN_normalize_to give, for a vector whose length is at least FLT_EPSILON, the positive multiple of it whose length is 1, and the zero vector otherwise; they never divide by zero, work in place, and normalising twice is the same as once; glm_vecN_scale_as gives the multiple of length |s| in the same way.", "quantifier": "all vectors of dimension 2, 3, 4, all addresses", "why_tests_cant": "Real-valued identity on a continuum, with a branch at a threshold.", "anchors": ["include/cglm/vec2.h", "include/cglm/vec3.h", "include/cglm/vec4.h", "glm_vec3_normalize", "glm_vec3_normalize_to", "glm_vec4_normalize_to", "glm_vec2_normalize_to", "glm_vec3_scale_as"]}
{"id": "C04", "title": "The SIMD vec4 normalisation uses a different zero threshold from the scalar one", "statement": "The SSE and WebAssembly builds of glm_vec4_normalize_to return zero when the squared length is below FLT_EPSILON while the scalar and NEON builds return zero when the length is below FLT_EPSILON: they agree for all vectors with squared length >= FLT_EPSILON or length < FLT_EPSILON, and there are vectors in between on which they return different results (zero versus a unit vector).", "quantifier": "all vec4 values and addresses, builds scalar/SSE/WASM", "why_tests_cant": "A test compares one build on chosen inputs, not two builds on all inputs.", "anchors": ["include/cglm/vec4.h", "glm_vec4_normalize_to"]}
{"id": "C05", "title": "Square matrix product", "statement": "Over the reals glm_mat2_mul, glm_mat3_mul and glm_mat4_mul write the matrix product M1*M2 (column-major) into the destination even if it is one of the factors or both factors are the same matrix, and write nothing else; hence the product is associative with the identity matrices produced by glm_matN_identity as neutral elements.", "quantifier": "all matrices, all addresses (equal or non-overlapping), sizes 2, 3, 4", "why_tests_cant": "Unbounded inputs times five aliasing patterns.", "anchors": ["include/cglm/mat2.h", "include/cglm/mat3.h", "include/cglm/mat4.h", "glm_mat4_mul", "glm_mat3_mul", "glm_mat2_mul", "glm_mat4_identity"]}
{"id": "C06", "title": "Matrix inverse", "statement": "Over the reals, when the determinant is non-zero, glm_mat2_inv, glm_mat3_inv and glm_mat4_inv write a two-sided inverse of the input, also in place, divide by nothing but the determinant, and write nothing else; when the determinant is zero the only division performed is a division by zero.", "quantifier": "all invertible matrices of size 2, 3, 4, all addresses", "why_tests_cant": "Algebraic identity in 16 variables.", "anchors": ["include/cglm/mat2.h", "include/cglm/mat3.h", "include/cglm/mat4.h", "glm_mat4_inv", "glm_mat3_inv", "glm_mat2_inv"]}
{"id": "C07", "title": "Determinant", "statement": "Over the reals glm_mat2_det, glm_mat3_det and glm_mat4_det return the Leibniz determinant; it is multiplicative over glm_matN_mul and invariant under glm_matN_transpose.", "quantifier": "all matrices of size 2, 3, 4", "why_tests_cant": "Polynomial identities in up to 32 variables.", "anchors": ["include/cglm/mat2.h", "include/cglm/mat3.h", "include/cglm/mat4.h", "glm_mat4_det", "glm_mat3_det", "glm_mat2_det"]}
{"id": "C08", "title": "Transposition, and its aliasing trap", "statement": "glm_matN_transpose transposes in place for every float arithmetic, and glm_matN_transpose_to writes the transpose when source and destination do not overlap; but in the scalar build glm_mat2_transpose_to, glm_mat3_transpose_to and glm_mat4_transpose_to called with source == destination do not produce the transpose (the lower half is lost), although the SIMD builds of glm_mat4_transpose_to do.", "quantifier": "all matrices, all addresses", "why_tests_cant": "A test of the separate-buffer case passes; the failure shows only for aliased non-symmetric input in one build.", "anchors": ["include/cglm/mat4.h", "include/cglm/mat3.h", "include/cglm/mat2.h", "glm_mat4_transpose_to", "glm_mat3_transpose_to", "glm_mat2_transpose_to", "glm_mat4_transpose", "glm_mat3_transpose"]}
{"id": "C09", "title": "Matrix times vector", "statement": "Over the reals glm_mat3_mulv, glm_mat4_mulv and glm_mat4_mulv3 write the product of matrix and column vector, including when the destination is the vector; glm_mat2_mulv does so when the destination is not the vector and gives a wrong second component when it is.", "quantifier": "all matrices and vectors, all addresses", "why_tests_cant": "Aliasing plus a continuum of inputs.", "anchors": ["include/cglm/mat2.h", "include/cglm/mat3.h", "include/cglm/mat4.h", "glm_mat4_mulv", "glm_mat4_mulv3", "glm_mat3_mulv", "glm_mat2_mulv"]}
{"id": "C10", "title": "Chained matrix product", "statement": "For every number of matrices len >= 2, glm_mat4_mulN writes the left-to-right product of the matrices pointed to, provided the destination is not one of the matrices from the third on; with len < 2 the assertion fails before anything is written.", "quantifier": "all lengths, all arrays of pointers, all matrices", "why_tests_cant": "The length is unbounded.", "anchors": ["include/cglm/mat4.h", "glm_mat4_mulN"]}
{"id": "C11", "title": "Row and column exchange, rotations of a matrix product", "statement": "glm_matN_swap_row and glm_matN_swap_col exchange the two named rows/columns (also when the two indices are equal) and leave all other cells unchanged for every index in range, and an out-of-range index is an out-of-bounds access; glm_matN_rmc returns r*M*c.", "quantifier": "all matrices, all indices, sizes 2, 3, 4", "why_tests_cant": "Indices and contents are quantified; out-of-range accesses are undefined behaviour that tests may not notice.", "anchors": ["include/cglm/mat4.h", "include/cglm/mat3.h", "include/cglm/mat2.h", "glm_mat4_swap_col", "glm_mat4_swap_row", "glm_mat4_rmc"]}
{"id": "C12", "title": "Non-square matrices", "statement": "Over the reals the non-square products glm_mat2x3_mul ... glm_mat4x3_mul, the vector products *_mulv and the *_transpose functions compute the mathematical product/transpose of the stated shapes, and write exactly the cells of the destination.", "quantifier": "all matrices of shapes 2x3, 2x4, 3x2, 3x4, 4x2, 4x3; non-overlapping operands (products are also safe in place where shapes allow)", "why_tests_cant": "Universally quantified over entries; shape confusion can be masked by test data.", "anchors": ["include/cglm/mat2x3.h", "include/cglm/mat2x4.h", "include/cglm/mat3x2.h", "include/cglm/mat3x4.h", "include/cglm/mat4x2.h", "include/cglm/mat4x3.h"]}
{"id": "C13", "title": "Translation, scaling and rotation builders", "statement": "Over the reals glm_translate_make, glm_scale_make, glm_rotate_make and the glm_rotate_x/y/z builders give the matrices whose action on every point is translation, component-wise scaling and right-handed rotation; glm_translate, glm_scale and glm_rotate multiply the given matrix on the right by the corresponding matrix.", "quantifier": "all vectors, angles, matrices, addresses", "why_tests_cant": "Continuum of angles and points.", "anchors": ["include/cglm/affine.h", "include/cglm/affine-pre.h", "glm_translate_make", "glm_scale_make", "glm_rotate_make", "glm_translate", "glm_rotate", "glm_scale_to"]}
{"id": "C14", "title": "Rotation matrices are rotations", "statement": "Over the reals, for every axis of length >= FLT_EPSILON, the 3x3 part of glm_rotate_make(m, angle, axis) is orthogonal with determinant 1, fixes the axis, and rotating by a then by b about the same axis equals rotating by a+b.", "quantifier": "all axes and angles", "why_tests_cant": "Trigonometric identities over the reals.", "anchors": ["include/cglm/affine.h", "glm_rotate_make", "glm_rotate"]}
{"id": "C15", "title": "Affine product shortcuts agree with the full product exactly on the documented shapes", "statement": "Over the reals glm_mul equals glm_mat4_mul whenever the bottom rows of the right factor are (0,0,0,w), and glm_mul_rot equals it whenever the right factor is a pure rotation block; without the shape hypothesis they differ.", "quantifier": "all mat4 pairs of the stated shape, all addresses", "why_tests_cant": "Needs quantification over all matrices satisfying a shape.", "anchors": ["include/cglm/affine-mat.h", "glm_mul", "glm_mul_rot"]}
{"id": "C16", "title": "Rigid inverse shortcut", "statement": "Over the reals glm_inv_tr replaces a rigid transform (orthonormal 3x3 part, bottom row 0 0 0 1) by its inverse.", "quantifier": "all rigid transforms", "why_tests_cant": "Hypothesis is a variety of matrices, not finitely many points.", "anchors": ["include/cglm/affine-mat.h", "glm_inv_tr"]}
{"id": "C17", "title": "Post-transform rotations lose the translation", "statement": "The documentation calls glm_rotated, glm_rotated_x/y/z post transforms ('applies to existing transform as last transform'). Over the reals they write R*M for matrices M without translation, but for every M with translation the result keeps column 3 of the rotation instead of rotating the translation of M: they differ from R*M exactly when the translation is non-zero.", "quantifier": "all affine matrices and angles", "why_tests_cant": "The existing behaviour looks right on translation-free test matrices.", "anchors": ["include/cglm/affine-post.h", "glm_rotated", "glm_rotated_x", "glm_rotated_y", "glm_rotated_z"]}
{"id": "C18", "title": "Rotation about a pivot and spinning", "statement": "Over the reals glm_rotate_at(m, p, angle, axis) multiplies m on the right by T(p)R T(-p), and glm_rotate_atm builds that matrix, so the pivot is a fixed point; glm_spinned keeps the position of the transform, whereas glm_spin, documented as 'not affected by position', moves it for some matrices.", "quantifier": "all matrices, pivots, axes, angles", "why_tests_cant": "Continuum of inputs; fails only when position and rotation interact.", "anchors": ["include/cglm/affine.h", "include/cglm/affine-post.h", "glm_rotate_at", "glm_rotate_atm", "glm_spin", "glm_spinned"]}
{"id": "C19", "title": "Decomposition of an affine transform", "statement": "Over the reals, for a transform T*R*S with non-zero scales glm_decompose recovers translation, rotation and scale whose product is the input, and glm_decompose_scalev returns the column lengths; with a zero scale it divides by zero. When the scale factors are all positive or all negative, the parts that come back are exactly the translation, rotation and scale that went in.", "quantifier": "all affine transforms with orthogonal columns", "why_tests_cant": "Real algebraic hypothesis; singular case is only visible as division by zero.", "anchors": ["include/cglm/affine.h", "glm_decompose", "glm_decompose_rs", "glm_decompose_scalev", "glm_uniscaled"]}
{"id": "C20", "title": "2D affine transforms", "statement": "Over the reals the 2D builders glm_translate2d_make, glm_scale2d_make, glm_rotate2d_make act on every point as translation, scaling, rotation; glm_translate2d, glm_scale2d, glm_rotate2d compose them on the right and glm_rotate2d_to etc. agree with the in-place forms; glm_translated2d, glm_scaled2d and glm_rotated2d compose on the left; glm_mat3_textrans turns by minus the given angle (clockwise, against its documentation), then scales, then translates. glm_mat4_textrans is the same map of the first two coordinates as a 4x4 matrix.", "quantifier": "all 3x3 matrices, vectors and angles, all addresses", "why_tests_cant": "Continuum of inputs.", "anchors": ["include/cglm/affine2d.h", "glm_translate2d_make", "glm_rotate2d_make", "glm_scale2d_make", "glm_rotate2d", "glm_scale2d_to", "include/cglm/affine2d-post.h", "glm_rotated2d", "glm_mat3_textrans", "glm_mat4_textrans"]}
{"id": "C21", "title": "Quaternion product", "statement": "Over the reals glm_quat_mul writes the Hamilton product when the destination is neither factor; it is associative, norm-multiplicative, has the identity quaternion as unit; in the scalar build, when the destination is one of the factors the result is in general not the product, while SSE, NEON and WASM builds are safe.", "quantifier": "all quaternions, all addresses", "why_tests_cant": "Aliasing differs by build and goes wrong silently.", "anchors": ["include/cglm/quat.h", "include/cglm/simd/sse2/quat.h", "include/cglm/simd/neon/quat.h", "include/cglm/simd/wasm/quat.h", "glm_quat_mul"]}
{"id": "C22", "title": "Quaternion inverse and conjugate", "statement": "Over the reals, for every non-zero quaternion glm_quat_inv is a two-sided inverse for glm_quat_mul and glm_quat_conjugate negates exactly the imaginary part, both also in place; for the zero quaternion the inverse divides by zero.", "quantifier": "all quaternions, all addresses", "why_tests_cant": "Algebraic identity over all quaternions.", "anchors": ["include/cglm/quat.h", "glm_quat_inv", "glm_quat_conjugate"]}
{"id": "C23", "title": "Quaternion to rotation matrix and back", "statement": "Over the reals, for every unit quaternion, glm_quat_mat4/mat3 give an orthogonal matrix of determinant 1 acting on vectors exactly as q v q*, glm_quat_mat4t/mat3t its transpose; glm_mat4_quat and glm_mat3_quat applied to the result return q or -q, without division by zero or root of a negative number; for non-unit quaternions the matrix is in general not a rotation; every rotation matrix is the matrix of a unit quaternion and glm_mat3_quat / glm_mat4_quat return one.", "quantifier": "all unit quaternions", "why_tests_cant": "Sphere of inputs, four numerical branches.", "anchors": ["include/cglm/quat.h", "include/cglm/mat4.h", "include/cglm/mat3.h", "glm_quat_mat4", "glm_quat_mat3", "glm_quat_mat4t", "glm_mat4_quat", "glm_mat3_quat"]}
{"id": "C24", "title": "Rotating a vector by a quaternion", "statement": "Over the reals glm_quat_rotatev(q, v, dest) writes the imaginary part of p v p* with p = q/|q| (in place too), preserves lengths, and for unit q agrees with glm_quat_mat3(q) times v; glm_quatv(q, angle, axis) is the unit quaternion whose rotation is glm_rotate_make(angle, axis).", "quantifier": "all non-zero quaternions, all vectors, axes, angles", "why_tests_cant": "Continuum of inputs.", "anchors": ["include/cglm/quat.h", "include/cglm/affine.h", "glm_quat_rotatev", "glm_quatv", "glm_quat", "glm_rotate_make"]}
{"id": "C25", "title": "Spherical interpolation", "statement": "Over the reals, for unit quaternions with |cos| < 1 and sin >= 0.001, glm_quat_slerp returns a unit quaternion for every t, equals +-from at t=0 and to at t=1; in the nearly antipodal branch it linearly interpolates between from and to without the sign flip, so the result can be far from unit length (midpoint near zero). glm_quat_slerp_longest does the same along the longer arc: unit length, from the opposite one of +-from (whose dot product with to is not positive) to to. glm_quat_lerpc interpolates with t clamped to [0,1]; glm_quat_init and glm_quat_copy store the given components.", "quantifier": "all unit quaternion pairs and t", "why_tests_cant": "Trigonometric identity plus behaviour in a thin region of the input space.", "anchors": ["include/cglm/quat.h", "glm_quat_slerp", "glm_quat_nlerp", "glm_quat_lerp", "glm_quat_slerp_longest", "glm_quat_lerpc"]}
{"id": "C26", "title": "Shortest rotation between two vectors", "statement": "Over the reals glm_quat_from_vecs of two unit vectors returns a unit quaternion that rotates the first onto the second when their dot product lies strictly between the thresholds; for opposite vectors the auxiliary orthogonal vector of glm_vec3_ortho is orthogonal to its input but may be the zero vector for some non-zero input.", "quantifier": "all pairs of unit vectors", "why_tests_cant": "Case split on a continuum; degenerate inputs are measure-zero.", "anchors": ["include/cglm/quat.h", "include/cglm/vec3.h", "glm_quat_from_vecs", "glm_vec3_ortho"]}
{"id": "C27", "title": "Euler angles: matrices by order", "statement": "Over the reals each glm_euler_xyz ... glm_euler_zyx equals the product of the axis rotations in the named order, glm_euler_by_order(angles, ord) equals the function of that order for each of the six order constants, and leaves the 3x3 part unwritten for any other value.", "quantifier": "all angle triples and orders", "why_tests_cant": "Trigonometric products over the reals.", "anchors": ["include/cglm/euler.h", "glm_euler_xyz", "glm_euler_by_order", "glm_euler_xzy", "glm_euler_yxz", "glm_euler_zyx"]}
{"id": "C28", "title": "Euler angles extraction", "statement": "Over the reals glm_euler_angles applied to glm_euler_xyz(a) returns angles whose glm_euler_xyz matrix is the same matrix, including at gimbal lock. When the x and z angles lie in (-pi, pi] and the y angle strictly between -pi/2 and pi/2, the angles that come back are exactly the ones that went in.", "quantifier": "all angle triples", "why_tests_cant": "Inverse trigonometric functions on a continuum with singular set.", "anchors": ["include/cglm/euler.h", "glm_euler_angles", "glm_euler_xyz"]}
{"id": "C29", "title": "Euler angles to quaternions", "statement": "Over the reals each glm_euler_XYZ_quat_rh (and lh variant) is a unit quaternion whose rotation is that of the matrix function of the same order (the lh variant with z angle negated), and glm_euler_by_order-style dispatchers agree.", "quantifier": "all angle triples and six orders", "why_tests_cant": "Trigonometric identities.", "anchors": ["include/cglm/euler.h", "include/cglm/handed/euler_to_quat_rh.h", "include/cglm/handed/euler_to_quat_lh.h", "glm_euler_xyz_quat_rh", "glm_euler_xyz_quat_lh"]}
{"id": "C30", "title": "Look-at view matrices", "statement": "Over the reals, when centre differs from eye and up is not parallel to the direction (lengths above threshold), glm_lookat_rh/lh give a rigid transform that sends the eye to the origin and the viewing direction to -Z (rh) or +Z (lh), with up in the upper half of the YZ plane. The functions whose names carry a depth range, and the default ones, have the same outcome as these for every scalar type, argument and address.", "quantifier": "all eye, centre, up triples with non-degenerate direction", "why_tests_cant": "Continuum; normalisation branches.", "anchors": ["include/cglm/clipspace/view_rh.h", "include/cglm/clipspace/view_lh.h", "glm_lookat_rh", "glm_lookat_lh", "glm_look_rh", "include/cglm/clipspace/view_lh_no.h", "include/cglm/cam.h"]}
{"id": "C31", "title": "Projection matrices map the view volume to the clip volume", "statement": "Over the reals, in each of the four clip conventions, glm_ortho_* is the affine map taking the box onto the clip volume; glm_perspective_* and the right-handed glm_frustum_* map near and far planes to the documented depth values and exactly the view frustum to the clip volume. The left-handed glm_frustum_lh_* map the mirror image of the requested frustum (left/right and bottom/top exchanged in sign), so they are right only for centred frusta.", "quantifier": "all non-degenerate parameters, all points", "why_tests_cant": "Each holds for every point and parameter choice.", "anchors": ["include/cglm/clipspace/ortho_rh_no.h", "include/cglm/clipspace/persp_rh_no.h", "include/cglm/clipspace/ortho_lh_zo.h", "include/cglm/clipspace/persp_lh_zo.h", "glm_ortho_rh_no", "glm_perspective_rh_no", "glm_frustum_rh_no"]}
{"id": "C32", "title": "Decomposing perspective matrices", "statement": "Over the reals glm_persp_decomp_* of glm_frustum_* recovers the six planes, glm_persp_fovy/aspect/sizes invert glm_perspective; the x and y decompositions of the left-handed zero-to-one convention divide by an entry that is zero in every perspective matrix.", "quantifier": "all non-degenerate frusta, four conventions", "why_tests_cant": "Round trip over six real parameters.", "anchors": ["include/cglm/clipspace/persp_rh_no.h", "include/cglm/clipspace/persp_rh_zo.h", "include/cglm/clipspace/persp_lh_zo.h", "glm_persp_decomp_rh_no", "glm_persp_decomp_x_lh_zo", "glm_persp_decomp_y_lh_zo"]}
{"id": "C33", "title": "Orthographic projection of a bounding box", "statement": "Over the reals glm_ortho_aabb_rh_* maps the box onto the clip volume; glm_ortho_aabb_lh_* use the right-handed depth range, so a box in front of a left-handed viewer is not mapped into the clip volume.", "quantifier": "all non-degenerate boxes", "why_tests_cant": "A single-convention test passes.", "anchors": ["include/cglm/clipspace/ortho_rh_no.h", "include/cglm/clipspace/ortho_lh_no.h", "include/cglm/clipspace/ortho_lh_zo.h", "glm_ortho_aabb_rh_no", "glm_ortho_aabb_lh_no"]}
{"id": "C34", "title": "Project and unproject are inverse", "statement": "Over the reals, for an invertible matrix and a viewport with non-zero size, glm_unprojecti of glm_project of a point (with non-zero clip w) is the point, in both depth conventions.", "quantifier": "all matrices, viewports and points outside the degenerate set", "why_tests_cant": "Rational identity in 23 variables.", "anchors": ["include/cglm/project.h", "include/cglm/clipspace/project_no.h", "include/cglm/clipspace/project_zo.h", "glm_project_no", "glm_unprojecti_no", "glm_unprojecti_zo"]}
{"id": "C35", "title": "Frustum planes", "statement": "Over the reals glm_frustum_planes writes six normalised planes such that a point satisfies all six half-space inequalities iff its clip coordinates satisfy -w<=x,y,z<=w, whenever each plane normal is non-degenerate. glm_frustum_box writes the tightest axis-aligned box around the images of the eight corners when their coordinates are in the range of float. With no condition on the matrix each plane has a unit normal or, when the normal is shorter than FLT_EPSILON, is all zero, and every point of the clip volume is on the positive side of all of them, so that glm_aabb_frustum keeps every box with a visible point.", "quantifier": "all matrices and points", "why_tests_cant": "Equivalence for every point.", "anchors": ["include/cglm/frustum.h", "glm_frustum_planes", "glm_plane_normalize", "glm_frustum_box"]}
{"id": "C36", "title": "AABB algebra", "statement": "Over the reals glm_aabb_merge gives the least box containing both operands, glm_aabb_crop the intersection, glm_aabb_contains and glm_aabb_point decide containment and glm_aabb_aabb decides non-empty intersection of closed boxes, all with any aliasing; glm_aabb_invalidate writes the empty box, neutral for merging, which glm_aabb_isvalid rejects, although that accepts boxes whose lower corner is above the upper one.", "quantifier": "all boxes and points", "why_tests_cant": "Set-theoretic statements about all points.", "anchors": ["include/cglm/box.h", "glm_aabb_merge", "glm_aabb_crop", "glm_aabb_contains", "glm_aabb_aabb", "glm_aabb_point", "glm_aabb_invalidate", "glm_aabb_isvalid"]}
{"id": "C37", "title": "Transforming a box", "statement": "Over the reals glm_aabb_transform writes the smallest axis-aligned box containing the image of every point of the box under the affine part of the matrix.", "quantifier": "all boxes, affine matrices, points", "why_tests_cant": "Universal over points and matrices; tightness is an existence statement.", "anchors": ["include/cglm/box.h", "glm_aabb_transform"]}
{"id": "C38", "title": "Box-frustum culling is conservative", "statement": "Over the reals, if some point of the box satisfies all six plane inequalities, glm_aabb_frustum returns true (no visible box is culled).", "quantifier": "all boxes and plane sets", "why_tests_cant": "Soundness over all geometry; loop with early exit.", "anchors": ["include/cglm/box.h", "glm_aabb_frustum"]}
{"id": "C39", "title": "Box-sphere and rectangle-circle tests miss intersections", "statement": "Over the reals, when glm_aabb_sphere (glm_aabb2d_circle) returns true the closed ball really meets the box, but there are balls meeting a box for which it returns false, because a centre below the minimum corner is compared with the maximum corner.", "quantifier": "all boxes and spheres", "why_tests_cant": "The wrong region of inputs is easily missed by tests.", "anchors": ["include/cglm/box.h", "include/cglm/aabb2d.h", "glm_aabb_sphere", "glm_aabb2d_circle"]}
{"id": "C40", "title": "Sphere merge and sphere tests", "statement": "Over the reals glm_sphere_merge writes a sphere containing both input spheres, glm_sphere_point decides membership in the closed ball and glm_sphere_sphere decides whether the closed balls meet.", "quantifier": "all spheres and points", "why_tests_cant": "Statement about all points of the balls.", "anchors": ["include/cglm/sphere.h", "glm_sphere_merge", "glm_sphere_point", "glm_sphere_sphere"]}
{"id": "C41", "title": "Ray-sphere intersection", "statement": "Over the reals, for a unit direction and outside the degenerate case where the origin is on the sphere and the ray is tangent, glm_ray_sphere returns true iff the ray meets the sphere at some non-negative parameter, and then the reported parameters are the intersection parameters in order; in the degenerate case it divides by zero.", "quantifier": "all rays and spheres", "why_tests_cant": "Real quadratic with sign branches.", "anchors": ["include/cglm/ray.h", "glm_ray_sphere"]}
{"id": "C42", "title": "Ray-triangle intersection", "statement": "Over the reals, when glm_ray_triangle returns true with distance d, the point origin+d*direction lies in the triangle and d is above the threshold; when a point of the triangle is hit with parameter above the threshold and the determinant is outside the tolerance it returns true.", "quantifier": "all rays and triangles", "why_tests_cant": "Barycentric solution for all geometry.", "anchors": ["include/cglm/ray.h", "glm_ray_triangle"]}
{"id": "C43", "title": "Integer vectors: exact results and exactly when behaviour is undefined", "statement": "For ivec2/3/4 the arithmetic functions return the exact mathematical result whenever it and every intermediate result fit in int, and in every other case (overflow, division by zero, INT_MIN/-1, abs(INT_MIN), glm_sign(INT_MIN)) the call is undefined behaviour; min, max, clamp and comparisons are defined for all inputs.", "quantifier": "all 32-bit integer vectors, all addresses", "why_tests_cant": "2^192 inputs, and undefined behaviour need not show in a run.", "anchors": ["include/cglm/ivec2.h", "include/cglm/ivec3.h", "include/cglm/ivec4.h", "include/cglm/util.h", "glm_ivec3_add", "glm_ivec2_div", "glm_ivec3_abs", "glm_sign"]}
{"id": "C44", "title": "Scalar helpers", "statement": "Over the reals glm_min, glm_max, glm_clamp are minimum, maximum, clamp (with minVal <= maxVal); glm_rad and glm_deg are inverse; glm_lerp is affine with the right endpoints; glm_smoothstep is 0 below, 1 above and monotone; glm_percent returns 1 for an empty range and the affine parameter otherwise.", "quantifier": "all real arguments", "why_tests_cant": "Quantified over the reals.", "anchors": ["include/cglm/util.h", "glm_clamp", "glm_smoothstep", "glm_rad", "glm_deg", "glm_percent", "glm_lerp"]}
{"id": "C45", "title": "NaN behaviour of min/max/clamp", "statement": "In IEEE single precision glm_min(a,b) and glm_max(a,b) return b whenever either argument is NaN, so they are not commutative; glm_clamp of NaN returns the lower bound clamped by the upper one, never NaN, for ordered bounds.", "quantifier": "all binary32 values", "why_tests_cant": "NaN payload and all values.", "anchors": ["include/cglm/util.h", "glm_min", "glm_max", "glm_clamp"]}
{"id": "C46", "title": "Approximate equality", "statement": "Over the reals glm_eq and the glm_vecN_eqv_eps functions are reflexive and symmetric but not transitive; glm_vecN_eqv decides exact equality of all components; over IEEE single precision glm_vecN_eqv of a vector with itself is false iff some component is NaN.", "quantifier": "all values, dimension 2, 3, 4", "why_tests_cant": "Relational properties quantify over triples.", "anchors": ["include/cglm/util.h", "include/cglm/vec3-ext.h", "glm_eq", "glm_vec3_eqv_eps", "glm_vec3_eqv"]}
{"id": "C47", "title": "Reflection and refraction", "statement": "Over the reals glm_vecN_reflect(v,n) for unit n is an involution preserving length and reversing the normal component; glm_vecN_refract obeys Snell's law (eta scales the tangential component, unit result) when it returns true and writes zero and returns false on total internal reflection; glm_vecN_refract is wrong when the destination is the normal and glm_vec4_reflect leaves w wrong when the destination is v; glm_vec3_faceforward returns the normal or its opposite, facing away from the incident vector.", "quantifier": "all vectors, all eta, all addresses", "why_tests_cant": "Continuum of inputs plus aliasing.", "anchors": ["include/cglm/vec2.h", "include/cglm/vec3.h", "include/cglm/vec4.h", "glm_vec3_reflect", "glm_vec3_refract", "glm_vec4_reflect", "glm_vec2_refract", "glm_vec3_faceforward"]}
{"id": "C48", "title": "Axis-angle rotation of a vector (Rodrigues)", "statement": "Over the reals glm_vec3_rotate(v, angle, axis) rotates v: it preserves length and the component along the axis, is additive in the angle, and equals glm_rotate_make(angle, axis) applied to v.", "quantifier": "all vectors, axes of length >= FLT_EPSILON, angles", "why_tests_cant": "Trigonometric identity over the reals.", "anchors": ["include/cglm/vec3.h", "include/cglm/affine.h", "glm_vec3_rotate", "glm_rotate_make"]}
{"id": "C49", "title": "Projection and angle", "statement": "Over the reals glm_vec3_proj(a,b) is the orthogonal projection (a-proj orthogonal to b) and divides by zero only for b=0; glm_vec3_angle of non-zero vectors is the angle in [0,pi] whose cosine is a.b/(|a||b|).", "quantifier": "all vectors", "why_tests_cant": "Continuum of inputs.", "anchors": ["include/cglm/vec3.h", "glm_vec3_proj", "glm_vec3_angle"]}
{"id": "C50", "title": "Swizzle", "statement": "For every mask whose fields are valid component indices glm_vecN_swizzle permutes/duplicates components as the mask says, in place too; for vec2/vec3 a mask with a field beyond the dimension reads outside the vector.", "quantifier": "all masks, vectors, addresses", "why_tests_cant": "Out-of-bounds read is undefined behaviour.", "anchors": ["include/cglm/vec2.h", "include/cglm/vec3.h", "include/cglm/vec4.h", "glm_vec3_swizzle", "glm_vec4_swizzle"]}
{"id": "C51", "title": "Easing functions", "statement": "Over the reals every glm_ease_*_in curve is the named curve and maps 0 to 0 and 1 to 1, every *_out curve is its mirror image 1-f(1-t), and every *_inout curve is the in-curve followed by its mirror image, joined continuously and point-symmetrically at (1/2,1/2); the exception is glm_ease_bounce_inout, which starts at 1/2 instead of 0 and jumps from 0 to 1/2 at t=1/2.", "quantifier": "all t", "why_tests_cant": "Functional equations on the reals.", "anchors": ["include/cglm/ease.h", "glm_ease_quad_in", "glm_ease_bounce_out", "glm_ease_back_in"]}
{"id": "C52", "title": "Curves", "statement": "Over the reals glm_bezier is the cubic Bernstein polynomial, glm_hermite interpolates endpoints with the given tangents, and glm_smc with the GLM_BEZIER_MAT / GLM_HERMITE_MAT bases equals them.", "quantifier": "all parameters and control values", "why_tests_cant": "Polynomial identities.", "anchors": ["include/cglm/bezier.h", "include/cglm/curve.h", "glm_bezier", "glm_hermite", "glm_smc"]}
{"id": "C53", "title": "De Casteljau solver", "statement": "Over the reals glm_decasteljau terminates and returns a parameter in [0,1] for all inputs: 0 or 1 when the target is not at least 1e-20 inside the end values, otherwise either a parameter whose curve value is within 1e-9 of the target, or (after all 1000 halvings) a parameter within 2^-1001 of an exact solution of B(s) = target in [0,1].", "quantifier": "all inputs", "why_tests_cant": "Loop of up to 1000 iterations with data-dependent exit.", "anchors": ["include/cglm/bezier.h", "glm_decasteljau"]}
{"id": "C54", "title": "Perlin noise vanishes on the lattice and is periodic", "statement": "Over the reals glm_perlin_vec2/3/4 computes gradient noise (the fade-weighted multilinear blend of hashed corner gradients dotted with the offset from the corner) at every point; it is 0 at every point with integer coordinates and is periodic with period 289 in every coordinate. The SIMD builds compute the same noise.", "quantifier": "all lattice points / all real points", "why_tests_cant": "Infinitely many lattice points; long data flow.", "anchors": ["include/cglm/noise.h", "glm_perlin_vec2", "glm_perlin_vec3", "glm_perlin_vec4"]}
{"id": "C55", "title": "SIMD mat4 and vec4 code agrees with the scalar code", "statement": "Over the reals the SSE2, AVX, FMA, NEON (64 and 32 bit) and WebAssembly versions of the inline functions that differ from the scalar build (vec3, vec4, mat2, mat3, mat4, quaternion, affine, camera, box, frustum, ray and noise functions) have the same outcome as the scalar version on the same inputs, including where an operation is undefined; those that do the same operations in the same order agree for every float arithmetic. Exceptions: in-place glm_mat4_transpose_to, glm_mat2_transpose_to and glm_quat_mul (C08, C21), the vec4 normalisation gap (C04), glm_inv_tr off bottom row 0 0 0 1, and AVX glm_mul when the first three columns of the right factor do not end in 0; there they differ.", "quantifier": "all inputs, all addresses (including destination = source), builds scalar/SSE2/AVX/FMA/NEON/WASM", "why_tests_cant": "Test runs exercise one build on one machine.", "anchors": ["include/cglm/simd/sse2/mat4.h", "include/cglm/simd/neon/mat4.h", "include/cglm/simd/wasm/mat4.h", "include/cglm/simd/sse2/affine.h", "include/cglm/simd/sse2/mat3.h", "include/cglm/simd/sse2/mat2.h"]}
{"id": "C56", "title": "Struct API forwards faithfully", "statement": "Every glms_ function of the struct API returns exactly the value the corresponding array function writes when applied to the same operands, for every float arithmetic, and never modifies the caller's memory except through its pointer parameters; the exceptions are glms_frustum_corners_at, which always reads past the end of a local array, and glms_mat4_mulN, which multiplies the identity by the matrices from the left to the right (the same product over the reals).", "quantifier": "all inputs", "why_tests_cant": "Hundreds of wrappers; swapped arguments can be masked by symmetric test data.", "anchors": ["include/cglm/struct/vec3.h", "include/cglm/struct/mat4.h", "include/cglm/struct/quat.h", "glms_vec3_add"]}
{"id": "C57", "title": "Exported call API forwards faithfully", "statement": "Every glmc_ function of the precompiled library has exactly the effect and result of the inline glm_ function of the same name on the same arguments.", "quantifier": "all inputs, all memories", "why_tests_cant": "Hundreds of wrappers; argument order mistakes can be invisible for symmetric tests.", "anchors": ["src/vec3.c", "src/mat4.c", "src/quat.c", "include/cglm/call/vec3.h", "glmc_vec3_add"]}
{"id": "C58", "title": "Memory safety of the whole inline API", "statement": "For every array or struct function of the library called with valid, same-or-disjoint objects of the declared types (and in-range indices), no read of uninitialised storage, no out-of-bounds access and no write outside the declared output objects happens, for every float arithmetic and every branch outcome; the one exception is glms_frustum_corners_at.", "quantifier": "all inputs and memories", "why_tests_cant": "Undefined behaviour may be silent at run time.", "anchors": ["include/cglm/cglm.h"]}
{"id": "C59", "title": "Plane normalisation and distances", "statement": "Over the reals glm_plane_normalize divides all four coefficients by the length of the normal, so it preserves the half-space, or writes zero when the length is below FLT_EPSILON.", "quantifier": "all planes", "why_tests_cant": "Continuum of inputs.", "anchors": ["include/cglm/plane.h", "glm_plane_normalize"]}
{"id": "C60", "title": "Complex-number operations on vec2", "statement": "Over the reals glm_vec2_complex_mul and glm_vec2_complex_div compute complex product and quotient with any aliasing and are inverse to each other for non-zero divisors.", "quantifier": "all vec2 values and addresses", "why_tests_cant": "Aliasing times a continuum.", "anchors": ["include/cglm/vec2.h", "include/cglm/vec2-ext.h", "glm_vec2_complex_mul", "glm_vec2_complex_div"]}
{"id": "C61", "title": "Colour and pick-matrix helpers", "statement": "Over the reals glm_luminance is the documented weighted sum, and glm_pickmatrix leaves the destination untouched when the region size is not positive and otherwise maps the picking region onto the clip square.", "quantifier": "all inputs", "why_tests_cant": "Untouched-memory claim cannot be observed by value tests.", "anchors": ["include/cglm/color.h", "include/cglm/project.h", "glm_luminance", "glm_pickmatrix"]}
{"id": "C62", "title": "Overflow, underflow and NaN in single precision", "statement": "In IEEE binary32 glm_vec2/3/4_normalize and glm_quat_normalize write zeros for every finite vector or quaternion with a component of magnitude at least 2^64; glm_mat4_inv of a well conditioned matrix whose inverse is representable may contain NaN; glm_lerp at 0 is the first value unless the difference overflows (then NaN) and at 1 need not be the second; glm_vecN_isnan/isinf/isvalid classify exactly; glm_signf is 0 for zeros and NaN; glm_step is 1 when an argument is NaN.", "quantifier": "all binary32 values", "why_tests_cant": "All 2^32 values per component.", "anchors": ["include/cglm/vec3.h", "include/cglm/quat.h", "include/cglm/mat4.h", "include/cglm/util.h", "glm_vec3_normalize", "glm_mat4_inv", "glm_lerp", "glm_vec3_isvalid", "glm_signf"]}
{"id": "C63", "title": "Exact identities in single precision", "statement": "In IEEE binary32, for all finite inputs, multiplying a matrix, vector or quaternion by the identity, scaling by one, translating by zero and adding or subtracting zero give results that compare equal (==) to the input component by component; vector sums, products, dot products and distances are symmetric in their arguments bit for bit, NaN and infinities included.", "quantifier": "all binary32 inputs", "why_tests_cant": "All 2^32 values per component, 16 components.", "anchors": ["include/cglm/mat4.h", "include/cglm/quat.h", "include/cglm/vec3.h", "include/cglm/affine.h", "glm_mat4_mul", "glm_quat_mul", "glm_translate", "glm_vec3_distance"]}
{"id": "C64", "title": "Rounding error bounds in single precision", "statement": "In IEEE binary32, for all finite inputs, every component of a dot product of size n, of matrix times vector, of matrix products (glm_mat2/3/4_mul, glm_mat2/3/4_mulv), of glm_vec3_cross and of glm_quat_mul that does not overflow differs from the exact value by at most ((1+2^-24)^n - 1) times the same expression on absolute values plus n*2^-149, and none overflows when the inputs are at most 2^60 in magnitude; glm_vec2/3/4_normalize(_to) and glm_quat_normalize(_to) of a vector of length between 2^-22 and 2^60 give each component within relative error 6*2^-24 (plus 2^-149) of the exact one, and a vector of length within 2^-20 of 1.", "quantifier": "all binary32 inputs", "why_tests_cant": "All 2^32 values per component, up to 32 components.", "anchors": ["include/cglm/vec3.h", "include/cglm/mat4.h", "include/cglm/quat.h", "glm_vec3_dot", "glm_mat4_mul", "glm_mat4_mulv", "glm_vec3_cross", "glm_quat_mul", "glm_vec3_normalize", "glm_quat_normalize"]}
{"id": "C65", "title": "Clip-space configurations", "statement": "In each of the four builds selected by CGLM_FORCE_LEFT_HANDED and CGLM_FORCE_DEPTH_ZERO_TO_ONE every projection, view, decomposition and projection-of-point function without a suffix (and its struct counterpart) has exactly the effect of the function that names the convention, and glm_unproject undoes glm_project for every invertible matrix. frustum.h does not follow the depth range: with depth 0 to 1 the six planes still contain the whole view volume but let in points outside it, and the near corners are wrong.", "quantifier": "all inputs, all four builds", "why_tests_cant": "Four builds times all inputs; tests run one build.", "anchors": ["include/cglm/cam.h", "include/cglm/project.h", "include/cglm/frustum.h", "glm_perspective", "glm_ortho", "glm_lookat", "glm_unproject", "glm_frustum_planes"]}
{"id": "C66", "title": "Fast-math and default-epsilon builds", "statement": "When __FAST_MATH__ is defined glm_vec2/3/4_isnan and _isinf are false and _isvalid is true for every vector (NaN included). When CGLM_USE_DEFAULT_EPSILON is defined glm_eq and the vector comparisons accept a difference up to FLT_EPSILON; glm_quat_from_vecs still gives a unit quaternion turning a to b for unit a, b with dot product in [-1+eps, 1-eps), the identity above, and a half turn reversing a below. In both builds the contracts of the 20 array functions carry over to the struct functions.", "quantifier": "all inputs", "why_tests_cant": "Real-valued inputs; other builds than the tested one.", "anchors": ["include/cglm/util.h", "include/cglm/vec3.h", "include/cglm/quat.h", "include/cglm/common.h", "glm_vec3_isvalid", "glm_eq", "glm_quat_from_vecs"]}
{"id": "C67", "title": "Axis, angle and direction of quaternions", "statement": "Over the reals, for every unit quaternion whose imaginary part has length at least FLT_EPSILON, glm_quat_axis and glm_quat_angle return a unit axis and an angle in [0, 2 pi] whose quaternion is the argument; conversely they return the arguments of glm_quatv. glm_quat_for (glm_quat_forp) gives, for a direction and an up vector not parallel to it, a unit quaternion that takes the negative z axis to the direction, the x axis to a vector orthogonal to up and the y axis to the side of up.", "quantifier": "all unit quaternions, axes, angles, directions", "why_tests_cant": "Continuum of inputs, four numerical branches.", "anchors": ["include/cglm/quat.h", "glm_quat_axis", "glm_quat_angle", "glm_quat_imagn", "glm_quat_for", "glm_quat_forp"]}
{"id": "C68", "title": "Outcome independent of the placement of the arguments", "statement": "For every listed array and struct function except 25 named ones, and for every function of the six SIMD builds except five per build, and for every float arithmetic: the returned value and the contents left in the written objects (or the arithmetic error) depend only on the argument values - not on what the written objects held before, and not on which of the pointers that are read are equal to a pointer of the same size that is written. Each of the exceptions leaves different binary32 values in two placements of the same arguments.", "quantifier": "all scalar arithmetics, all argument values, all memories and all placements", "why_tests_cant": "Aliasing patterns times the continuum of values, and all uninitialised contents.", "anchors": ["include/cglm/mat4.h:304", "glm_mat4_mul", "glm_quat_mul", "glm_vec4_reflect", "glm_decompose_rs", "glm_aabb_crop_until", "glm_mat4_transpose_to", "glm_vec3_refract"]}
{"id": "C69", "title": "Calls without rounding error", "statement": "In IEEE binary32, for 504 functions (array, struct and SIMD forms) that copy, compare, select, negate or round down, all number arguments, and for 728 more functions (sums, dot and cross products, matrix and quaternion products, determinants, scalings) all integer arguments up to a bound given with each function: the call succeeds, does not overflow, takes the same branches as in exact real arithmetic, and what it returns and writes are numbers equal to the exact results. So single-precision 4x4 matrix products of integer matrices with entries up to 22 associate; with entries up to 4097 they need not.", "quantifier": "all number arguments, resp. all integer arguments within the bound; all memories and placements", "why_tests_cant": "Up to 2^48 and more argument combinations per function.", "anchors": ["glm_mat4_mul", "glm_vec3_add", "glm_vec3_cross", "glm_mat3_det", "glm_vec4_dot", "glm_quat_mul", "glm_vec3_maxv", "glm_aabb_merge"]}
{"id": "C70", "title": "A camera end to end", "statement": "Over the reals, for a camera built by three calls - glm_lookat, glm_perspective, glm_mat4_mul - in both handedness and both depth conventions: the directions ahead, right and up are orthonormal with up above; clip coordinate w of a point is its distance ahead, and its clip coordinates are in the clip volume exactly when it is in the pyramid given by the opening angle, aspect ratio, near and far distance; glm_project puts it at the place in the viewport given by similar triangles with depth f (d - n) / ((f - n) d), and the centre in the middle; glm_unproject of a pixel and a depth gives the point of the ray through the pixel with that depth. The planes of glm_frustum_planes bound exactly the pyramid if 2 n >= FLT_EPSILON (f - n), and glm_aabb_frustum then and otherwise keeps every box with a visible point; for larger ratios of the distances the far plane is lost: points twice as far are on the positive side of all six planes.", "quantifier": "all well-placed eyes, centres and up vectors, all opening angles below pi, aspect ratios, distances, viewports and points", "why_tests_cant": "Continuum of cameras and points; composition of five functions.", "anchors": ["glm_lookat", "glm_perspective", "glm_mat4_mul", "glm_project", "glm_unproject", "glm_frustum_planes", "glm_aabb_frustum", "glm_plane_normalize"]}
{"id": "C71", "title": "Vector-register helpers of the SIMD headers", "statement": "Over the reals, in the SSE2, AVX, FMA, NEON (64 and 32 bit) and WebAssembly builds, the glmm_ helpers on registers of four lanes compute what they are named for: lane-wise absolute value, minimum, maximum and quotient, the four fused forms ab+c, -ab+c, ab-c, -ab-c, the horizontal sum, minimum and maximum, the dot product (as a float, in every lane, or in the lowest lane), the four norms, and loading and storing three floats; the same for three of the four fused forms on eight lanes. The fourth, glmm256_fnmsub, does not compute -ab-c: without FMA it computes c-ab, with FMA ab-c.", "quantifier": "all registers", "why_tests_cant": "Continuum of registers; six builds of which a test machine runs one or two.", "anchors": ["glmm_abs", "glmm_min", "glmm_max", "glmm_div", "glmm_fmadd", "glmm_hadd", "glmm_vhadd", "glmm_hmin", "glmm_hmax", "glmm_vdot", "glmm_norm", "glmm_load3", "glmm_store3", "glmm256_fnmsub"]}
{"id": "C72", "title": "Rounding error bounds in the SIMD builds", "statement": "In IEEE binary32, the SIMD versions (SSE2, AVX, FMA, NEON 64 and 32 bit, WebAssembly) of the 4-vector dot product, the product of a 4x4 matrix and a vector, the products of 2x2, 3x3 and 4x4 matrices and of quaternions, which add in other orders and with other roundings than the scalar code, meet the same bound: every entry that does not overflow is within ((1+2^-24)^n - 1) times the sum of the absolute values of the products plus n tiny of the exact product, n being the dimension; nothing overflows if all entries are at most 2^60. glmm_fmadd and its relatives round once with FMA and on 64-bit NEON; without, the result can be wholly wrong (0 for 2^-24).", "quantifier": "all number arguments; all memories and placements", "why_tests_cant": "2^512 and more arguments; six builds.", "anchors": ["glm_mat4_mul_sse2", "glm_mat4_mul_avx", "glm_mat4_mul_neon", "glm_mat4_mul_wasm", "glm_mat4_mulv_sse2", "glm_mat3_mul_sse2", "glm_mat2_mul_sse2", "glm_quat_mul_sse2", "glmm_dot", "glmm_fmadd"]}
{"id": "C73", "title": "Error bounds of functions against exact arithmetic", "statement": "For 721 functions without elementary functions and 109 with sine and cosine (matrix, vector, quaternion, transform, projection, curve, easing, Euler, geometry functions of the scalar, struct and SIMD interfaces), a call in IEEE binary32 returns without overflow and every float that it returns or writes is within a listed bound of what the same call gives in exact real arithmetic: for floats up to 1, for floats up to 1000, and for floats within 2^-20 of the real numbers up to 1 that the exact call gets (so errors of the arguments are propagated). Sine and cosine are assumed within 2^-24. Both groupings of a product of three matrices with entries up to 1 agree within 2050 * 2^-25.", "quantifier": "all arguments of the stated magnitude; all memories and placements; every libm (with sine and cosine accurate to 2^-24 where used)", "why_tests_cant": "Up to 2^1024 arguments, and exact results are not computable by the program under test.", "anchors": ["glm_mat4_mul", "glm_mat4_mulv", "glm_vec3_dot", "glm_vec3_cross", "glm_quat_mul", "glm_mat4_det", "glm_bezier", "glm_euler_xyz", "glm_rotate", "glm_ortho_rh_no"]}
{"id": "C74", "title": "Long products of rotations drift slowly", "statement": "In IEEE binary32, glm_mat4_mulN and glms_mat4_mulN of n matrices whose entries are within d of those of orthogonal 4x4 matrices return a matrix whose entries are within n(5d + 2^-19) of the exact product of the orthogonal matrices (itself orthogonal), as long as that is at most 1/4: the error grows linearly, not exponentially, in n. In particular the product of up to 49000 matrices that glm_euler_by_order makes of angles up to 1000 is within 169n units of 2^-25 of the exact rotation, if sine and cosine are accurate to 2^-24.", "quantifier": "all lengths, all matrices, all memories and placements", "why_tests_cant": "Unbounded number of factors from a continuum.", "anchors": ["glm_mat4_mulN", "glms_mat4_mulN", "glm_mat4_mul", "glm_euler_by_order"]}
{"id": "C75", "title": "Repeated quaternion products and vector rotations drift slowly", "statement": "In IEEE binary32, n successive calls of glm_quat_mul starting from floats within d of a unit quaternion, with factors within d of unit quaternions, give a unique result, each part within (n+1)(5d + 2^-19) of the exact product (itself of norm 1), whose norm differs from 1 by no more than that, as long as it is at most 1/4. The same bound holds for n successive calls of glm_mat4_mulv (in place or not) on a vector of length at most 1 with matrices within d of orthogonal ones.", "quantifier": "all lengths, all quaternions, vectors and matrices, all memories and placements", "why_tests_cant": "Unbounded number of calls with arguments from a continuum.", "anchors": ["glm_quat_mul", "glm_mat4_mulv"]}
{"id": "C76", "title": "Ranges and monotonicity of scalar functions in single precision", "statement": "In IEEE binary32: 13 easing functions and glm_clamp_zo take every float from 0 to 1 to a float from 0 to 1 and never decrease; glm_ease_quad_out, glm_ease_quad_inout, glm_ease_circ_out and glm_smooth stay from 0 to 1, although glm_smooth and glm_ease_quad_out decrease at some floats, and glm_ease_bounce_out exceeds 1. glm_clamp, glm_smoothstep and glm_percentc stay within their bounds for every binary32 argument, NaN and infinities included. glm_lerp is monotone in its parameter, starts at its first value and ends within 3*2^-24*(|a|+|b|) of its second, possibly beyond it. Degrees to radians and back (and the reverse) changes a number by at most 5 units of 2^-24.", "quantifier": "all floats in the stated ranges, every libm", "why_tests_cant": "A counterexample would be a single float (or a pair) out of 2^30 (or 2^60).", "anchors": ["glm_ease_cubic_inout", "glm_ease_circ_inout", "glm_ease_quad_out", "glm_ease_bounce_out", "glm_smooth", "glm_smoothstep", "glm_clamp", "glm_lerp", "glm_lerpc", "glm_percentc", "glm_rad", "glm_deg"]}
{"id": "C77", "title": "Geometric tests in single precision", "statement": "In IEEE binary32: glm_eq and the vector comparisons with tolerance hold on numbers iff every exact difference is at most 21990233*2^-41. glm_aabb_point, glm_aabb_contains and glm_aabb_aabb decide their exact conditions. For coordinates and radii up to 2^k, glm_sphere_point and glm_sphere_sphere return true when the squared distance is below the squared radius (sum) by 61 (72) units of 2^(2k-25) and false when it is above by more than that. For boxes with coordinates up to 2^k and plane normals with components up to 1, glm_aabb_frustum keeps every box that has, for each plane, a point at depth at least 9*2^(k-25), and every box it keeps has, for each plane, a point at depth at least -9*2^(k-25).", "quantifier": "all numbers within the stated bounds, every libm, all memories and placements", "why_tests_cant": "The margins are claimed for all floats; a violating argument tuple may be a single one.", "anchors": ["glm_eq", "glm_vec3_eqv_eps", "glm_vec4_eq_eps", "glm_aabb_point", "glm_aabb_contains", "glm_aabb_aabb", "glm_aabb_frustum", "glm_sphere_point", "glm_sphere_sphere"]}
{"id": "C78", "title": "Relative accuracy in single precision", "statement": "Call a float ordinary if it is zero or of magnitude from 2^-30 to 2^30. In IEEE binary32, glm_ortho_* and glm_frustum_* with ordinary sides, left different from right, bottom from top and near from far, write a matrix each of whose elements is within 6*2^-24, relatively, of the element the same function computes over the reals; zero elements are exact. The same holds of glm_perspective_* for fields of view from 2^-30 to 3 radians, ordinary nonzero aspect and ordinary near different from far, with any tanf that is within 2^-23 relatively from 2^-31 to 3/2. For ordinary vectors of 2, 3 or 4 components norm2, norm, distance2 and distance return a float within 8*2^-24, relatively, of the exact value. No cancellation spoils these results, however close the sides or points are.", "quantifier": "all ordinary floats, every libm (with an accurate tanf for glm_perspective_*), all memories and placements", "why_tests_cant": "A relative bound has to hold for the closest pairs of sides and points as well; tests sample few of these.", "anchors": ["glm_ortho_rh_no", "glm_frustum_rh_no", "glm_frustum_lh_zo", "glm_vec3_norm", "glm_vec3_distance", "glm_vec4_norm2", "glm_perspective_rh_no"]}
{"id": "C79", "title": "Matrix inverses in single precision", "statement": "In IEEE binary32, for a matrix of floats of magnitude at most 1 whose exact determinant is at least d in magnitude, 2^-12 <= d <= 1, glm_mat2_inv, glm_mat3_inv and glm_mat4_inv write (in place or not) numbers each of which is within 9, 75 and 1440 units of 2^-25/d^2 of the corresponding entry of the exact inverse.", "quantifier": "all such matrices and d, every libm, all memories and placements", "why_tests_cant": "The error of an inverse depends on every entry and grows as the determinant shrinks; sampling finds typical errors, not a bound.", "anchors": ["glm_mat2_inv", "glm_mat3_inv", "glm_mat4_inv"]}
{"id": "C80", "title": "View matrices in single precision", "statement": "In IEEE binary32, let the eye have components of magnitude at most B (1 <= B <= 2^40), the distance from eye to center be between 2^-20 and 2^58, the components of up be at most 1 in magnitude, and the exact cross product of the view direction and up have length at least d, 2^-12 <= d <= 1. Then glm_lookat_rh and glm_lookat_lh write numbers such that the rows of the rotation are within 77 u/d, 199 u/d and 9 u (u = 2^-24) of the exact right, up and depth axes, the translation is within (3 times that + 10 u) B of minus the exact products of the axes with the eye, and the last row is exactly 0 0 0 1.", "quantifier": "all such eye, center, up, d and B, both handednesses, every libm, all memories and placements", "why_tests_cant": "Two normalisations and two cross products compound; the error grows without bound as up becomes parallel to the view direction, so no sample shows the worst case.", "anchors": ["glm_lookat_rh", "glm_lookat_lh", "glm_vec3_crossn", "glm_vec3_normalize"]}
{"id": "C81", "title": "Rotations in single precision", "statement": "In IEEE binary32 with sinf and cosf within 2^-24 and an axis of length between 2^-20 and 2^58: every entry written by glm_rotate_make is within 43 u (u = 2^-24) of the matrix of the rotation by the angle about the exact unit axis; glm_rotate, on a matrix with entries at most 1 in magnitude, is within 160 u of the exact product; glm_quatv is within 9 u of the exact quaternion (angle zero or at least 2^-100 in magnitude); glm_vec3_rotate, on components at most 1, is within 145 u of the exact rotated vector. For a quaternion of length between 2^-22 and 2^60, glm_quat_rotatev on components at most 1 is within 257 u of the exact rotation by the exactly normalised quaternion.", "quantifier": "all such axes, angles of any size, quaternions, vectors and matrices, every such libm, all memories and placements", "why_tests_cant": "The bounds cover every axis and angle, including huge and tiny ones, and any sufficiently accurate math library.", "anchors": ["glm_rotate_make", "glm_rotate", "glm_quatv", "glm_vec3_rotate", "glm_quat_rotatev"]}
{"id": "C82", "title": "Frustum culling in single precision, from the matrix to the verdict", "statement": "In IEEE binary32, with M a matrix whose first three columns are at most A and whose last is at most A B in magnitude, and b a box with coordinates at most B (2^-20 <= A <= 2^20, 2^-20 <= B, A B <= 2^30): if some real point of the box satisfies each clip inequality of M with margin 33 u A B (u = 2^-24), then glm_aabb_frustum on the planes written by glm_frustum_planes for M returns true. No condition is put on the normals: planes with nearly no direction are zeroed and never cull. More generally it suffices that for each plane some point of the box meets the margin; conversely, if the verdict is true then for each plane whose exact normal has length at least 2^-22 + 4 u A some point of the box violates the inequality by no more than 33 u A B.", "quantifier": "all such matrices, boxes and points, every libm, all memories and placements", "why_tests_cant": "Culling of a visible box shows only for particular roundings; the theorem excludes it for every matrix, box and point beyond the margin.", "anchors": ["glm_frustum_planes", "glm_plane_normalize", "glm_aabb_frustum"]}
{"id": "C83", "title": "Quaternions to matrices in single precision", "statement": "In IEEE binary32, for a quaternion q of numbers whose length differs from 1 by at most t u (u = 2^-24, 0 <= t <= 16; the input is thus a unit quaternion up to rounding), every entry written by glm_quat_mat3 and glm_quat_mat4, and by their transposing variants, is a number within (12.1 t + 35) u of the entry of the exact rotation matrix of q/|q|. For any q of length between 2^-22 and 2^60, applying them to the quaternion written by glm_quat_normalize(_to) gives entries within 150 u of the exact rotation matrix of q/|q|. With q as at first, glm_quat_look for an eye with coordinates up to 1 and glm_quat_rotate for a matrix with entries up to 1 write the exact view matrix, respectively the exact product with the rotation matrix, of q/|q| within (37 t + 150) u.", "quantifier": "all such quaternions, every libm, all memories and placements", "why_tests_cant": "Error bounds hold for every float quaternion near unit length; tests sample a few.", "anchors": ["glm_quat_mat3", "glm_quat_mat3t", "glm_quat_mat4", "glm_quat_mat4t", "glm_quat_normalize", "glm_quat_normalize_to", "glm_quat_look", "glm_quat_rotate"]}
