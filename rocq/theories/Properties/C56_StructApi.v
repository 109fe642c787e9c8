(** C56: Struct API forwards faithfully.

    Every glms_ function of the struct API returns exactly the value the corresponding array
    function writes when applied to the same operands, for every float arithmetic, and never
    modifies the caller's memory except through its pointer parameters; the exceptions are
    glms_frustum_corners_at, which always reads past the end of a local array, and
    glms_mat4_mulN, which multiplies the identity by the matrices from the left to the right
    (the same product over the reals). *)

From Coq Require Import String List ZArith Bool Reals.
From Verif Require Import MiniC Contract RScalar Cglm.
From Verif.Spec Require Import StructApi Agree.
From Verif.Proofs Require StructApi.
Import ListNotations.
Local Open Scope list_scope.
Local Open Scope nat_scope.
Local Open Scope list_scope.

(** 611 functions of the struct API: the contract of the array function carries over *)
Theorem C56_transfer : Forall (fun t => transfers (fst (fst t)) (snd (fst t)) (snd t)) struct_api.
Proof. exact StructApi.C56_transfer_ok. Qed.
Print Assumptions C56_transfer.

(** the functions of the default clip space *)
Theorem C56_default : Forall (fun p => stands_for (fst p) (snd p)) struct_default.
Proof. exact StructApi.C56_default_ok. Qed.
Print Assumptions C56_default.

(** the bounding box functions of the struct API have the outcome of the array functions *)
Theorem C56_box : forall S (b c d m s p : list (T S)), length b = 6 -> length c = 6 -> length d = 6 -> length m = 16 -> length s = 4 -> length p = 3 ->
  same S glm_aabb_transform [In (fl b); In (fl m); Out 6] glms_aabb_transform [In (fl b); Val (VA (fl m)); Out 6] /\
  same S glm_aabb_merge [In (fl b); In (fl c); Out 6] glms_aabb_merge [In (fl b); In (fl c); Out 6] /\
  same S glm_aabb_crop [In (fl b); In (fl c); Out 6] glms_aabb_crop [In (fl b); In (fl c); Out 6] /\
  same S glm_aabb_crop_until [In (fl b); In (fl c); In (fl d); Out 6] glms_aabb_crop_until [In (fl b); In (fl c); In (fl d); Out 6] /\
  same S glm_aabb_invalidate [Out 6] glms_aabb_invalidate [Out 6] /\
  same S glm_aabb_isvalid [In (fl b)] glms_aabb_isvalid [In (fl b)] /\
  same S glm_aabb_size [In (fl b)] glms_aabb_size [In (fl b)] /\
  same S glm_aabb_radius [In (fl b)] glms_aabb_radius [In (fl b)] /\
  same S glm_aabb_aabb [In (fl b); In (fl c)] glms_aabb_aabb [In (fl b); In (fl c)] /\
  same S glm_aabb_sphere [In (fl b); In (fl s)] glms_aabb_sphere [In (fl b); Val (VA (fl s))] /\
  same S glm_aabb_point [In (fl b); In (fl p)] glms_aabb_point [In (fl b); Val (VA (fl p))] /\
  same S glm_aabb_contains [In (fl b); In (fl c)] glms_aabb_contains [In (fl b); In (fl c)] /\
  same_value S glm_aabb_center [In (fl b); Out 3] glms_aabb_center [In (fl b)].
Proof. exact StructApi.C56_box_ok. Qed.
Print Assumptions C56_box.

(** box against frustum planes *)
Theorem C56_aabb_frustum : forall S (b p : list (T S)), length b = 6 -> length p = 24 ->
  same S glm_aabb_frustum [In (fl b); In (fl p)] glms_aabb_frustum [In (fl b); In (fl p)].
Proof. exact StructApi.C56_aabb_frustum_ok. Qed.
Print Assumptions C56_aabb_frustum.

(** the frustum functions *)
Theorem C56_frustum : forall S (k m : list (T S)), length k = 32 -> length m = 16 ->
  same S glm_frustum_planes [In (fl m); Out 24] glms_frustum_planes [Val (VA (fl m)); Out 24] /\
  same S glm_frustum_corners [In (fl m); Out 32] glms_frustum_corners [Val (VA (fl m)); Out 32] /\
  same_value S glm_frustum_center [In (fl k); Out 4] glms_frustum_center [In (fl k)].
Proof. exact StructApi.C56_frustum_ok. Qed.
Print Assumptions C56_frustum.

(** the box of a frustum *)
Theorem C56_frustum_box : forall S (k m : list (T S)), length k = 32 -> length m = 16 ->
  same S glm_frustum_box [In (fl k); In (fl m); Out 6] glms_frustum_box [In (fl k); Val (VA (fl m)); Out 6].
Proof. exact StructApi.C56_frustum_box_ok. Qed.
Print Assumptions C56_frustum_box.

(** orthographic projections of a box *)
Theorem C56_ortho_aabb : forall S (b : list (T S)) (x : T S), length b = 6 ->
  same_value S glm_ortho_aabb_lh_no [In (fl b); Out 16] glms_ortho_aabb_lh_no [In (fl b)] /\
  same_value S glm_ortho_aabb_p_lh_no [In (fl b); Val (VF x); Out 16] glms_ortho_aabb_p_lh_no [In (fl b); Val (VF x)] /\
  same_value S glm_ortho_aabb_pz_lh_no [In (fl b); Val (VF x); Out 16] glms_ortho_aabb_pz_lh_no [In (fl b); Val (VF x)] /\
  same_value S glm_ortho_aabb_lh_zo [In (fl b); Out 16] glms_ortho_aabb_lh_zo [In (fl b)] /\
  same_value S glm_ortho_aabb_p_lh_zo [In (fl b); Val (VF x); Out 16] glms_ortho_aabb_p_lh_zo [In (fl b); Val (VF x)] /\
  same_value S glm_ortho_aabb_pz_lh_zo [In (fl b); Val (VF x); Out 16] glms_ortho_aabb_pz_lh_zo [In (fl b); Val (VF x)] /\
  same_value S glm_ortho_aabb_rh_no [In (fl b); Out 16] glms_ortho_aabb_rh_no [In (fl b)] /\
  same_value S glm_ortho_aabb_p_rh_no [In (fl b); Val (VF x); Out 16] glms_ortho_aabb_p_rh_no [In (fl b); Val (VF x)] /\
  same_value S glm_ortho_aabb_pz_rh_no [In (fl b); Val (VF x); Out 16] glms_ortho_aabb_pz_rh_no [In (fl b); Val (VF x)] /\
  same_value S glm_ortho_aabb_rh_zo [In (fl b); Out 16] glms_ortho_aabb_rh_zo [In (fl b)] /\
  same_value S glm_ortho_aabb_p_rh_zo [In (fl b); Val (VF x); Out 16] glms_ortho_aabb_p_rh_zo [In (fl b); Val (VF x)] /\
  same_value S glm_ortho_aabb_pz_rh_zo [In (fl b); Val (VF x); Out 16] glms_ortho_aabb_pz_rh_zo [In (fl b); Val (VF x)].
Proof. exact StructApi.C56_ortho_aabb_ok. Qed.
Print Assumptions C56_ortho_aabb.

(** functions that change a copy of their matrix *)
Theorem C56_change : forall S (m q : list (T S)) (x : T S), length m = 16 -> length q = 4 ->
  same_value S glm_persp_move_far_lh_no [InOut (fl m); Val (VF x)] glms_persp_move_far_lh_no [Val (VA (fl m)); Val (VF x)] /\
  same_value S glm_perspective_resize_lh_no [Val (VF x); InOut (fl m)] glms_perspective_resize_lh_no [Val (VA (fl m)); Val (VF x)] /\
  same_value S glm_persp_move_far_lh_zo [InOut (fl m); Val (VF x)] glms_persp_move_far_lh_zo [Val (VA (fl m)); Val (VF x)] /\
  same_value S glm_perspective_resize_lh_zo [Val (VF x); InOut (fl m)] glms_perspective_resize_lh_zo [Val (VA (fl m)); Val (VF x)] /\
  same_value S glm_persp_move_far_rh_no [InOut (fl m); Val (VF x)] glms_persp_move_far_rh_no [Val (VA (fl m)); Val (VF x)] /\
  same_value S glm_perspective_resize_rh_no [Val (VF x); InOut (fl m)] glms_perspective_resize_rh_no [Val (VA (fl m)); Val (VF x)] /\
  same_value S glm_persp_move_far_rh_zo [InOut (fl m); Val (VF x)] glms_persp_move_far_rh_zo [Val (VA (fl m)); Val (VF x)] /\
  same_value S glm_perspective_resize_rh_zo [Val (VF x); InOut (fl m)] glms_perspective_resize_rh_zo [Val (VA (fl m)); Val (VF x)] /\
  same_value S glm_quat_rotate [In (fl m); In (fl q); Out 16] glms_quat_rotate [Val (VA (fl m)); Val (VA (fl q))].
Proof. exact StructApi.C56_change_ok. Qed.
Print Assumptions C56_change.

(** ** The statements apply *)
Example C56_transfer_example : List.In (glms_vec3_cross, glm_vec3_cross, Dest 3) struct_api /\ List.In (glms_mat4_mulv3, glm_mat4_mulv3, Dest 3) struct_api /\
  length struct_api = 611.
Proof. exact StructApi.C56_transfer_ex. Qed.

(** a contract of the struct function obtained from that of the array function *)
Example C56_transfer_cross_example : forall S (a b : list (T S)) out, length a = 3 -> length b = 3 -> length out = 3 ->
  computes S glm_vec3_cross [In (fl a); In (fl b); Out 3] VVoid [fl out] ->
  computes S glms_vec3_cross [Val (VA (fl a)); Val (VA (fl b))] (VA (fl out)) [].
Proof. exact StructApi.C56_transfer_cross_ex. Qed.

Example C56_default_example : length struct_default = 25.
Proof. exact StructApi.C56_default_ex. Qed.
