(** * Reflection, refraction, rotation, projection, angle, complex numbers (C47-C49, C60) *)

From Coq Require Import String List ZArith Bool Reals Lra Lia.
From Verif Require Import Cglm.
From Verif.Spec Require Import Linear Geometry Client.
From Verif.Proofs Require Import RExact.
Import ListNotations.
Local Open Scope R_scope.

(** ** C47 *)
Lemma C47_reflect_ok :
  (forall v n, length v = 2%nat -> length n = 2%nat ->
     computes RS glm_vec2_reflect [InA (fl v); InA (fl n); Out 2] VVoid [fl (mirror v n)]) /\
  (forall v n, length v = 3%nat -> length n = 3%nat ->
     computes RS glm_vec3_reflect [InA (fl v); InA (fl n); Out 3] VVoid [fl (mirror v n)]) /\
  (forall v n, length v = 4%nat -> length n = 4%nat ->
     computes RS glm_vec4_reflect [In (fl v); InA (fl n); Out 4] VVoid [fl (firstn 3 (mirror v n) ++ [at_ v 3])]).
Proof. repeat split; go. Qed.
(** with the destination equal to the incident vector, vec4 loses the original w *)
Lemma C47_vec4_reflect_in_place_ok : forall v n, length v = 4%nat -> length n = 4%nat ->
  computes RS (call_xyx glm_vec4_reflect) [InOut (fl v); In (fl n)] VVoid [fl (mirror v n)].
Proof. go. Qed.
(** the mirror image of a unit normal's hyperplane: involution, isometry, normal reversed *)
Lemma C47_mirror_ok : forall v n, length v = length n -> (length v = 2 \/ length v = 3 \/ length v = 4)%nat -> norm2 n = 1 ->
  mirror (mirror v n) n = v /\ norm (mirror v n) = norm v /\ rdot (mirror v n) n = - rdot v n /\
  tangential (mirror v n) n = tangential v n.
Proof.
  intros v n E L.
  destruct L as [L|[L|L]]; rewrite L in E; symmetry in E; unlists; lcbv; intros N.
  - assert (a1 * a1 = 1 - a2 * a2) as N' by lra; repeat split; try f_equal; cells ltac:(try ring [N']); try ring [N'].
  - assert (a2 * a2 = 1 - a3 * a3 - a4 * a4) as N' by lra; repeat split; try f_equal; cells ltac:(try ring [N']); try ring [N'].
  - assert (a3 * a3 = 1 - a4 * a4 - a5 * a5 - a6 * a6) as N' by lra; repeat split; try f_equal; cells ltac:(try ring [N']); try ring [N'].
Qed.

(** refraction; the destination may be the incident vector *)
Ltac refr := intros v n eta L1 L2; unlists; lcbv; intros K; symr; rprep; try domain; rcells.
Lemma C47_refract_ok :
  (forall v n eta, length v = 2%nat -> length n = 2%nat -> 0 <= refr_k eta v n ->
     computes RS glm_vec2_refract [InA (fl v); In (fl n); Val (VF eta); Out 2] (VB true) [fl (refracted eta v n)]) /\
  (forall v n eta, length v = 3%nat -> length n = 3%nat -> 0 <= refr_k eta v n ->
     computes RS glm_vec3_refract [InA (fl v); In (fl n); Val (VF eta); Out 3] (VB true) [fl (refracted eta v n)]) /\
  (forall v n eta, length v = 4%nat -> length n = 4%nat -> 0 <= refr_k eta v n ->
     computes RS glm_vec4_refract [InA (fl v); In (fl n); Val (VF eta); Out 4] (VB true) [fl (refracted eta v n)]).
Proof. split;[|split]; refr. Qed.
(** total internal reflection; here the destination may even be the normal *)
Lemma C47_total_reflection_ok :
  (forall v n eta, length v = 2%nat -> length n = 2%nat -> refr_k eta v n < 0 ->
     computes RS glm_vec2_refract [InA (fl v); InA (fl n); Val (VF eta); Out 2] (VB false) [fl [0; 0]]) /\
  (forall v n eta, length v = 3%nat -> length n = 3%nat -> refr_k eta v n < 0 ->
     computes RS glm_vec3_refract [InA (fl v); InA (fl n); Val (VF eta); Out 3] (VB false) [fl [0; 0; 0]]) /\
  (forall v n eta, length v = 4%nat -> length n = 4%nat -> refr_k eta v n < 0 ->
     computes RS glm_vec4_refract [InA (fl v); InA (fl n); Val (VF eta); Out 4] (VB false) [fl [0; 0; 0; 0]]).
Proof. split;[|split]; refr. Qed.
(** Snell's law: the refracted ray of unit vectors is a unit vector on the far side of
    the surface whose tangential part is [eta] times that of the incident ray *)
Lemma C47_snell_ok : forall eta v n, length v = length n -> (length v = 2 \/ length v = 3 \/ length v = 4)%nat ->
  norm2 v = 1 -> norm2 n = 1 -> 0 <= refr_k eta v n ->
  norm2 (refracted eta v n) = 1 /\ rdot (refracted eta v n) n = - sqrt (refr_k eta v n) /\
  tangential (refracted eta v n) n = vscale eta (tangential v n).
Proof.
  intros eta v n E L V N K.
  pose proof (sqrt_def _ K) as Q. set (q := sqrt (refr_k eta v n)) in *.
  unfold refracted. fold q. clearbody q. revert V N Q. clear K.
  destruct L as [L|[L|L]]; rewrite L in E; symmetry in E; unlists; lcbv; intros V N Q.
  - assert (a1 * a1 = 1 - a2 * a2) as N' by lra. assert (a * a = 1 - a0 * a0) as V' by lra.
    repeat split; cells ltac:(try ring [N' V' Q]).
  - assert (a2 * a2 = 1 - a3 * a3 - a4 * a4) as N' by lra. assert (a * a = 1 - a0 * a0 - a1 * a1) as V' by lra.
    repeat split; cells ltac:(try ring [N' V' Q]).
  - assert (a3 * a3 = 1 - a4 * a4 - a5 * a5 - a6 * a6) as N' by lra. assert (a * a = 1 - a0 * a0 - a1 * a1 - a2 * a2) as V' by lra.
    repeat split; cells ltac:(try ring [N' V' Q]).
Qed.
Lemma C47_snell_ex : norm2 [3/5; -4/5] = 1 /\ norm2 [0; 1] = 1 /\ 0 <= refr_k (1/2) [3/5; -4/5] [0; 1] /\ refr_k 2 [3/5; -4/5] [0; 1] < 0.
Proof. lcbv. lra. Qed.
(** what happens when the destination is the normal ([refract(v, n, eta, n)]): the scaled
    incident vector is used in place of the normal, so the result is parallel to [v] *)
Lemma C47_refract_into_normal_ok : forall v n eta, length v = 3%nat -> length n = 3%nat -> 0 <= refr_k eta v n ->
  computes RS (rcaller ["v"; "n"; "eta"]%string glm_vec3_refract ["v"; "n"; "eta"; "n"]%string)
     [In (fl v); InOut (fl n); Val (VF eta)] (VB true)
     [fl (vscale (1 - eta * rdot n v - sqrt (refr_k eta v n)) (vscale eta v))].
Proof. refr. Qed.
(** hence it is not the refracted ray *)
Lemma C47_refract_into_normal_refuted_ok : exists v n eta, length v = 3%nat /\ length n = 3%nat /\
  norm2 v = 1 /\ norm2 n = 1 /\ 0 <= refr_k eta v n /\
  ~ computes RS (rcaller ["v"; "n"; "eta"]%string glm_vec3_refract ["v"; "n"; "eta"; "n"]%string)
     [In (fl v); InOut (fl n); Val (VF eta)] (VB true) [fl (refracted eta v n)].
Proof.
  exists [0; -1; 0], [0; 1; 0], (1/2). repeat split; try (lcbv; lra).
  intros H. assert (0 <= refr_k (1/2) [0; -1; 0] [0; 1; 0]) as K by (lcbv; lra).
  pose proof (C47_refract_into_normal_ok [0; -1; 0] [0; 1; 0] (1/2) eq_refl eq_refl K) as H'.
  revert H H'. unfold refracted. replace (refr_k (1 / 2) [0; -1; 0] [0; 1; 0]) with 1 by (lcbv; lra). rewrite sqrt_1.
  intros H H'. differs H H'.
Qed.

(** ** C48 *)
Lemma C48_rotate_ok : forall v angle axis, length v = 3%nat -> length axis = 3%nat ->
  computes RS glm_vec3_rotate [InOut (fl v); Val (VF angle); InA (fl axis)] VVoid [fl (rotated (normalized axis) angle v)].
Proof. rexec; unfold normalized; rcells. Qed.
