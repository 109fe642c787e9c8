(** C21: Quaternion product.

    Over the reals glm_quat_mul writes the Hamilton product when the destination is neither
    factor; it is associative, norm-multiplicative, has the identity quaternion as unit; in the
    scalar build, when the destination is one of the factors the result is in general not the
    product, while SSE, NEON and WASM builds are safe. *)

From Coq Require Import String List ZArith Bool Reals.
From Verif Require Import MiniC Contract RScalar Cglm.
From Verif.Spec Require Import Linear Geometry Affine Client.
From Verif.Spec Require Import Linear Geometry Affine Client.
From Verif.Spec Require Import Quaternion.
From Verif.Proofs Require Quat.
Import ListNotations.
Local Open Scope list_scope.
Local Open Scope R_scope.

(** the destination is neither factor; the factors may be the same object *)
Theorem C21_mul : forall p q, length p = 4%nat -> length q = 4%nat ->
  computes RS glm_quat_mul [In (fl p); In (fl q); Out 4] VVoid [fl (qmul p q)].
Proof. exact Quat.C21_mul_ok. Qed.
Print Assumptions C21_mul.

Theorem C21_laws : forall p q r, length p = 4%nat -> length q = 4%nat -> length r = 4%nat ->
  qmul (qmul p q) r = qmul p (qmul q r) /\ norm2 (qmul p q) = norm2 p * norm2 q /\
  qmul qone p = p /\ qmul p qone = p /\ qconj (qmul p q) = qmul (qconj q) (qconj p) /\
  qmul p (vadd q r) = vadd (qmul p q) (qmul p r).
Proof. exact Quat.C21_laws_ok. Qed.
Print Assumptions C21_laws.

(** scalar build, destination = first or second factor: what is written instead of the product *)
Theorem C21_mul_first : forall x y z w a b c d,
  computes RS (call_xyx glm_quat_mul) [InOut (fl [x; y; z; w]); In (fl [a; b; c; d])] VVoid
    [fl (let x' := w * a + x * d + y * c - z * b in
         let y' := w * b - x' * c + y * d + z * a in
         let z' := w * c + x' * b - y' * a + z * d in
         [x'; y'; z'; w * d - x' * a - y' * b - z' * c])].
Proof. exact Quat.C21_mul_first_ok. Qed.
Print Assumptions C21_mul_first.

Theorem C21_mul_second : forall x y z w a b c d,
  computes RS (call_xyy glm_quat_mul) [In (fl [x; y; z; w]); InOut (fl [a; b; c; d])] VVoid
    [fl (let a' := w * a + x * d + y * c - z * b in
         let b' := w * b - x * c + y * d + z * a' in
         let c' := w * c + x * b' - y * a' + z * d in
         [a'; b'; c'; w * d - x * a' - y * b' - z * c'])].
Proof. exact Quat.C21_mul_second_ok. Qed.
Print Assumptions C21_mul_second.

Theorem C21_mul_in_place_refuted :
  (exists p q, length p = 4%nat /\ length q = 4%nat /\
     ~ computes RS (call_xyx glm_quat_mul) [InOut (fl p); In (fl q)] VVoid [fl (qmul p q)]) /\
  (exists p q, length p = 4%nat /\ length q = 4%nat /\
     ~ computes RS (call_xyy glm_quat_mul) [In (fl p); InOut (fl q)] VVoid [fl (qmul p q)]).
Proof. exact Quat.C21_mul_in_place_refuted_ok. Qed.
Print Assumptions C21_mul_in_place_refuted.

Theorem C21_basic :
  computes RS glm_quat_identity [Out 4] VVoid [fl qone] /\
  (forall p q, length p = 4%nat -> length q = 4%nat -> computes RS glm_quat_add [InA (fl p); InA (fl q); Out 4] VVoid [fl (vadd p q)]) /\
  (forall p q, length p = 4%nat -> length q = 4%nat -> computes RS glm_quat_sub [InA (fl p); InA (fl q); Out 4] VVoid [fl (vsub p q)]) /\
  (forall p q, length p = 4%nat -> length q = 4%nat -> computes RS glm_quat_dot [In (fl p); In (fl q)] (VF (rdot p q)) []) /\
  (forall p, length p = 4%nat -> computes RS glm_quat_real [In (fl p)] (VF (re p)) []) /\
  (forall p, length p = 4%nat -> computes RS glm_quat_imag [In (fl p); Out 3] VVoid [fl (im p)]).
Proof. exact Quat.C21_basic_ok. Qed.
Print Assumptions C21_basic.

Theorem C21_norm : forall p, length p = 4%nat -> computes RS glm_quat_norm [In (fl p)] (VF (norm p)) [].
Proof. exact Quat.C21_norm_ok. Qed.
Print Assumptions C21_norm.
