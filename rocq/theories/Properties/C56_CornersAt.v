(** C56: Struct API forwards faithfully.

    Every glms_ function of the struct API returns exactly the value the corresponding array
    function writes when applied to the same operands, for every float arithmetic, and never
    modifies the caller's memory except through its pointer parameters; the exceptions are
    glms_frustum_corners_at, which always reads past the end of a local array, and
    glms_mat4_mulN, which multiplies the identity by the matrices from the left to the right
    (the same product over the reals). *)

From Coq Require Import String List ZArith Bool Reals.
From Verif Require Import MiniC Contract RScalar Cglm.
From Verif.Gen Require Import struct_vec4 struct_frustum.
From Verif.Proofs Require CornersAt.
Import ListNotations.
Local Open Scope list_scope.
Local Open Scope string_scope.
Local Open Scope nat_scope.
Local Open Scope list_scope.
Local Open Scope R_scope.

(** ... but the struct function never does: it reads eight corners from an array of four
    (struct/frustum.h:143-153) *)
Theorem C56_frustum_corners_at_refuted : exists corners split far out,
  length corners = 32%nat /\
  computes RS glm_frustum_corners_at [In (fl corners); Val (VF split); Val (VF far); Out 16] VVoid [fl out] /\
  forall args m r, call RS glms_frustum_corners_at args m <> Ok r.
Proof. exact CornersAt.C56_frustum_corners_at_refuted_ok. Qed.
Print Assumptions C56_frustum_corners_at_refuted.
