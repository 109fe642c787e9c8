-Q theories Verif
theories/B32.v
theories/Cglm.v
theories/Config/eps.v
theories/Config/fast.v
theories/Config/lh_no.v
theories/Config/lh_zo.v
theories/Config/rh_zo.v
theories/Contract.v
theories/Gen/aabb2d.v
theories/Gen/affine.v
theories/Gen/affine2d.v
theories/Gen/affine2d_post.v
theories/Gen/affine_mat.v
theories/Gen/affine_post.v
theories/Gen/affine_pre.v
theories/Gen/bezier.v
theories/Gen/box.v
theories/Gen/call_vec3.v
theories/Gen/call_vec4.v
theories/Gen/cam.v
theories/Gen/clipspace_ortho_lh_no.v
theories/Gen/clipspace_ortho_lh_zo.v
theories/Gen/clipspace_ortho_rh_no.v
theories/Gen/clipspace_ortho_rh_zo.v
theories/Gen/clipspace_persp.v
theories/Gen/clipspace_persp_lh_no.v
theories/Gen/clipspace_persp_lh_zo.v
theories/Gen/clipspace_persp_rh_no.v
theories/Gen/clipspace_persp_rh_zo.v
theories/Gen/clipspace_project_no.v
theories/Gen/clipspace_project_zo.v
theories/Gen/clipspace_view_lh.v
theories/Gen/clipspace_view_lh_no.v
theories/Gen/clipspace_view_lh_zo.v
theories/Gen/clipspace_view_rh.v
theories/Gen/clipspace_view_rh_no.v
theories/Gen/clipspace_view_rh_zo.v
theories/Gen/color.v
theories/Gen/curve.v
theories/Gen/ease.v
theories/Gen/euler.v
theories/Gen/frustum.v
theories/Gen/handed_euler_to_quat_lh.v
theories/Gen/handed_euler_to_quat_rh.v
theories/Gen/ivec2.v
theories/Gen/ivec3.v
theories/Gen/ivec4.v
theories/Gen/mat2.v
theories/Gen/mat2x3.v
theories/Gen/mat2x4.v
theories/Gen/mat3.v
theories/Gen/mat3x2.v
theories/Gen/mat3x4.v
theories/Gen/mat4.v
theories/Gen/mat4x2.v
theories/Gen/mat4x3.v
theories/Gen/noise.v
theories/Gen/plane.v
theories/Gen/project.v
theories/Gen/quat.v
theories/Gen/ray.v
theories/Gen/sphere.v
theories/Gen/src_aabb2d.v
theories/Gen/src_affine.v
theories/Gen/src_affine2d.v
theories/Gen/src_bezier.v
theories/Gen/src_box.v
theories/Gen/src_cam.v
theories/Gen/src_clipspace_ortho_lh_no.v
theories/Gen/src_clipspace_ortho_lh_zo.v
theories/Gen/src_clipspace_ortho_rh_no.v
theories/Gen/src_clipspace_ortho_rh_zo.v
theories/Gen/src_clipspace_persp_lh_no.v
theories/Gen/src_clipspace_persp_lh_zo.v
theories/Gen/src_clipspace_persp_rh_no.v
theories/Gen/src_clipspace_persp_rh_zo.v
theories/Gen/src_clipspace_project_no.v
theories/Gen/src_clipspace_project_zo.v
theories/Gen/src_clipspace_view_lh_no.v
theories/Gen/src_clipspace_view_lh_zo.v
theories/Gen/src_clipspace_view_rh_no.v
theories/Gen/src_clipspace_view_rh_zo.v
theories/Gen/src_curve.v
theories/Gen/src_ease.v
theories/Gen/src_euler.v
theories/Gen/src_frustum.v
theories/Gen/src_ivec2.v
theories/Gen/src_ivec3.v
theories/Gen/src_ivec4.v
theories/Gen/src_mat2.v
theories/Gen/src_mat2x3.v
theories/Gen/src_mat2x4.v
theories/Gen/src_mat3.v
theories/Gen/src_mat3x2.v
theories/Gen/src_mat3x4.v
theories/Gen/src_mat4.v
theories/Gen/src_mat4x2.v
theories/Gen/src_mat4x3.v
theories/Gen/src_noise.v
theories/Gen/src_plane.v
theories/Gen/src_project.v
theories/Gen/src_quat.v
theories/Gen/src_ray.v
theories/Gen/src_sphere.v
theories/Gen/src_vec2.v
theories/Gen/src_vec3.v
theories/Gen/src_vec4.v
theories/Gen/struct_affine.v
theories/Gen/struct_affine2d.v
theories/Gen/struct_affine_mat.v
theories/Gen/struct_affine_post.v
theories/Gen/struct_affine_pre.v
theories/Gen/struct_box.v
theories/Gen/struct_cam.v
theories/Gen/struct_clipspace_ortho_lh_no.v
theories/Gen/struct_clipspace_ortho_lh_zo.v
theories/Gen/struct_clipspace_ortho_rh_no.v
theories/Gen/struct_clipspace_ortho_rh_zo.v
theories/Gen/struct_clipspace_persp_lh_no.v
theories/Gen/struct_clipspace_persp_lh_zo.v
theories/Gen/struct_clipspace_persp_rh_no.v
theories/Gen/struct_clipspace_persp_rh_zo.v
theories/Gen/struct_clipspace_project_no.v
theories/Gen/struct_clipspace_project_zo.v
theories/Gen/struct_clipspace_view_lh_no.v
theories/Gen/struct_clipspace_view_lh_zo.v
theories/Gen/struct_clipspace_view_rh_no.v
theories/Gen/struct_clipspace_view_rh_zo.v
theories/Gen/struct_color.v
theories/Gen/struct_curve.v
theories/Gen/struct_euler.v
theories/Gen/struct_frustum.v
theories/Gen/struct_ivec2.v
theories/Gen/struct_ivec3.v
theories/Gen/struct_ivec4.v
theories/Gen/struct_mat2.v
theories/Gen/struct_mat2x3.v
theories/Gen/struct_mat2x4.v
theories/Gen/struct_mat3.v
theories/Gen/struct_mat3x2.v
theories/Gen/struct_mat3x4.v
theories/Gen/struct_mat4.v
theories/Gen/struct_mat4x2.v
theories/Gen/struct_mat4x3.v
theories/Gen/struct_noise.v
theories/Gen/struct_plane.v
theories/Gen/struct_project.v
theories/Gen/struct_quat.v
theories/Gen/struct_ray.v
theories/Gen/struct_sphere.v
theories/Gen/struct_vec2.v
theories/Gen/struct_vec2_ext.v
theories/Gen/struct_vec3.v
theories/Gen/struct_vec3_ext.v
theories/Gen/struct_vec4.v
theories/Gen/struct_vec4_ext.v
theories/Gen/util.v
theories/Gen/vec2.v
theories/Gen/vec2_ext.v
theories/Gen/vec3.v
theories/Gen/vec3_ext.v
theories/Gen/vec4.v
theories/Gen/vec4_ext.v
theories/MiniC.v
theories/Proofs/AffTac.v
theories/Proofs/Affine.v
theories/Proofs/AffineDec.v
theories/Proofs/AffineMul.v
theories/Proofs/AffineRot.v
theories/Proofs/Alias.v
theories/Proofs/ApproxAll.v
theories/Proofs/ApproxEx.v
theories/Proofs/ApproxSound.v
theories/Proofs/ArrayApi.v
theories/Proofs/Arrays.v
theories/Proofs/Box.v
theories/Proofs/Box2.v
theories/Proofs/Cam.v
theories/Proofs/Camera.v
theories/Proofs/Chain.v
theories/Proofs/Config.v
theories/Proofs/CornersAt.v
theories/Proofs/Cull32.v
theories/Proofs/Curve.v
theories/Proofs/Drift.v
theories/Proofs/DriftSteps.v
theories/Proofs/Ease.v
theories/Proofs/Euler.v
theories/Proofs/Exact.v
theories/Proofs/ExactAll.v
theories/Proofs/ExactSound.v
theories/Proofs/Flo.v
theories/Proofs/FloErr.v
theories/Proofs/FloFma.v
theories/Proofs/Forward.v
theories/Proofs/Frustum.v
theories/Proofs/Gaps.v
theories/Proofs/Ieee.v
theories/Proofs/IeeeErr.v
theories/Proofs/IeeeId.v
theories/Proofs/IeeeNorm.v
theories/Proofs/IeeeOver.v
theories/Proofs/IntVec.v
theories/Proofs/Inverse32.v
theories/Proofs/Lanes.v
theories/Proofs/Layout.v
theories/Proofs/Loop.v
theories/Proofs/MatInv.v
theories/Proofs/MatMisc.v
theories/Proofs/MatShapes.v
theories/Proofs/Matrix.v
theories/Proofs/Noise.v
theories/Proofs/OutOfBounds.v
theories/Proofs/Outcome.v
theories/Proofs/Placed.v
theories/Proofs/Project.v
theories/Proofs/Quat.v
theories/Proofs/QuatMat.v
theories/Proofs/QuatMat32.v
theories/Proofs/QuatSlerp.v
theories/Proofs/RExact.v
theories/Proofs/RNorm.v
theories/Proofs/RNormSound.v
theories/Proofs/RTac.v
theories/Proofs/Ranges.v
theories/Proofs/Region.v
theories/Proofs/Relative.v
theories/Proofs/Rest.v
theories/Proofs/Rot32.v
theories/Proofs/RotQuat.v
theories/Proofs/RotQuatP.v
theories/Proofs/Safe.v
theories/Proofs/SafeApi.v
theories/Proofs/SafeNorm.v
theories/Proofs/Same.v
theories/Proofs/Shape.v
theories/Proofs/SimdAlias.v
theories/Proofs/SimdBuilds.v
theories/Proofs/SimdErr.v
theories/Proofs/SimdExc.v
theories/Proofs/SimdNoise.v
theories/Proofs/SimdTac.v
theories/Proofs/Sphere.v
theories/Proofs/Struct.v
theories/Proofs/StructApi.v
theories/Proofs/StructConfig.v
theories/Proofs/Swizzle.v
theories/Proofs/Tests32.v
theories/Proofs/Util.v
theories/Proofs/VecComp.v
theories/Proofs/VecGeom.v
theories/Proofs/VecNorm.v
theories/Proofs/VecRot.v
theories/Proofs/View.v
theories/Proofs/View32.v
theories/Properties/C01.v
theories/Properties/C02_Rest.v
theories/Properties/C02_VecNorm.v
theories/Properties/C03_Rest.v
theories/Properties/C03_VecNorm.v
theories/Properties/C04.v
theories/Properties/C05_ArrayApi.v
theories/Properties/C05_MatShapes.v
theories/Properties/C05_Matrix.v
theories/Properties/C06.v
theories/Properties/C07.v
theories/Properties/C08_MatMisc.v
theories/Properties/C08_SimdAlias.v
theories/Properties/C09.v
theories/Properties/C10.v
theories/Properties/C11_MatMisc.v
theories/Properties/C11_OutOfBounds.v
theories/Properties/C12.v
theories/Properties/C13.v
theories/Properties/C14.v
theories/Properties/C15_AffineMul.v
theories/Properties/C15_SimdAlias.v
theories/Properties/C16_AffineMul.v
theories/Properties/C16_SimdAlias.v
theories/Properties/C17.v
theories/Properties/C18.v
theories/Properties/C19_AffineDec.v
theories/Properties/C19_Exact.v
theories/Properties/C20_AffineDec.v
theories/Properties/C20_Gaps.v
theories/Properties/C20_Rest.v
theories/Properties/C21_Quat.v
theories/Properties/C21_SimdAlias.v
theories/Properties/C22.v
theories/Properties/C23_QuatMat.v
theories/Properties/C23_RotQuat.v
theories/Properties/C24_Quat.v
theories/Properties/C24_QuatMat.v
theories/Properties/C25_Gaps.v
theories/Properties/C25_QuatSlerp.v
theories/Properties/C26.v
theories/Properties/C27.v
theories/Properties/C28_Euler.v
theories/Properties/C28_Exact.v
theories/Properties/C29.v
theories/Properties/C30_Gaps.v
theories/Properties/C30_View.v
theories/Properties/C31.v
theories/Properties/C32.v
theories/Properties/C33.v
theories/Properties/C34.v
theories/Properties/C35_Camera.v
theories/Properties/C35_Frustum.v
theories/Properties/C35_Gaps.v
theories/Properties/C36_Box.v
theories/Properties/C36_Rest.v
theories/Properties/C37.v
theories/Properties/C38.v
theories/Properties/C39.v
theories/Properties/C40.v
theories/Properties/C41.v
theories/Properties/C42.v
theories/Properties/C43.v
theories/Properties/C44.v
theories/Properties/C45.v
theories/Properties/C46_Ieee.v
theories/Properties/C46_Util.v
theories/Properties/C47_Rest.v
theories/Properties/C47_VecGeom.v
theories/Properties/C48_AffineRot.v
theories/Properties/C48_VecGeom.v
theories/Properties/C48_VecRot.v
theories/Properties/C49.v
theories/Properties/C50.v
theories/Properties/C51.v
theories/Properties/C52.v
theories/Properties/C53.v
theories/Properties/C54_Noise.v
theories/Properties/C54_SimdNoise.v
theories/Properties/C55_SimdAlias.v
theories/Properties/C55_SimdBuilds.v
theories/Properties/C55_SimdExc.v
theories/Properties/C55_SimdNoise.v
theories/Properties/C56_ArrayApi.v
theories/Properties/C56_Chain.v
theories/Properties/C56_CornersAt.v
theories/Properties/C56_StructApi.v
theories/Properties/C57.v
theories/Properties/C58_SafeApi.v
theories/Properties/C58_SafeNorm.v
theories/Properties/C58_SimdBuilds.v
theories/Properties/C59.v
theories/Properties/C60.v
theories/Properties/C61.v
theories/Properties/C62.v
theories/Properties/C63.v
theories/Properties/C64_IeeeErr.v
theories/Properties/C64_IeeeNorm.v
theories/Properties/C65.v
theories/Properties/C66_Config.v
theories/Properties/C66_StructConfig.v
theories/Properties/C67_RotQuat.v
theories/Properties/C67_RotQuatP.v
theories/Properties/C68.v
theories/Properties/C69.v
theories/Properties/C70.v
theories/Properties/C71.v
theories/Properties/C72.v
theories/Properties/C73_ApproxAll.v
theories/Properties/C73_ApproxEx.v
theories/Properties/C74.v
theories/Properties/C75.v
theories/Properties/C76.v
theories/Properties/C77.v
theories/Properties/C78.v
theories/Properties/C79.v
theories/Properties/C80.v
theories/Properties/C81.v
theories/Properties/C82.v
theories/Properties/C83.v
theories/Properties/Contracts.v
theories/RScalar.v
theories/Simd/avx.v
theories/Simd/fma.v
theories/Simd/neon.v
theories/Simd/neon32.v
theories/Simd/sse2.v
theories/Simd/wasm.v
theories/Spec/Affine.v
theories/Spec/Agree.v
theories/Spec/Approx.v
theories/Spec/ApproxLists.v
theories/Spec/Arrays.v
theories/Spec/Bounds.v
theories/Spec/Box.v
theories/Spec/Builds.v
theories/Spec/CallApi.v
theories/Spec/Camera.v
theories/Spec/Client.v
theories/Spec/Clip.v
theories/Spec/ClipConfig.v
theories/Spec/Close.v
theories/Spec/Cull32.v
theories/Spec/Curve.v
theories/Spec/Drift.v
theories/Spec/Ease.v
theories/Spec/Euler.v
theories/Spec/Exact.v
theories/Spec/ExactLists.v
theories/Spec/Exchange.v
theories/Spec/Float32.v
theories/Spec/Frustum.v
theories/Spec/Gap.v
theories/Spec/Geometry.v
theories/Spec/IntVec.v
theories/Spec/Inverse32.v
theories/Spec/Lanes.v
theories/Spec/Limits.v
theories/Spec/Linear.v
theories/Spec/Noise.v
theories/Spec/NoiseBuilds.v
theories/Spec/Placed.v
theories/Spec/Quaternion.v
theories/Spec/Ranges.v
theories/Spec/Relative.v
theories/Spec/Rot32.v
theories/Spec/ScalarSpec.v
theories/Spec/Signatures.v
theories/Spec/StructApi.v
theories/Spec/StructConfig.v
theories/Spec/StructPass.v
theories/Spec/Swizzle.v
theories/Spec/Tests32.v
theories/Spec/Types.v
theories/Spec/Vec.v
theories/Spec/View.v
theories/Spec/View32.v
theories/Sym.v
theories/SymCall.v
theories/SymSound.v
theories/SymTac.v
theories/Tac.v
