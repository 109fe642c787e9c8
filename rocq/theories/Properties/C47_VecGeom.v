(** C47: Reflection and refraction.

    Over the reals glm_vecN_reflect(v,n) for unit n is an involution preserving length and
    reversing the normal component; glm_vecN_refract obeys Snell's law (eta scales the
    tangential component, unit result) when it returns true and writes zero and returns false
    on total internal reflection; glm_vecN_refract is wrong when the destination is the normal
    and glm_vec4_reflect leaves w wrong when the destination is v; glm_vec3_faceforward returns
    the normal or its opposite, facing away from the incident vector. *)

From Coq Require Import String List ZArith Bool Reals.
From Verif Require Import MiniC Contract RScalar Cglm.
From Verif.Spec Require Import Linear Geometry Client.
From Verif.Proofs Require VecGeom.
Import ListNotations.
Local Open Scope list_scope.
Local Open Scope R_scope.

(** ** C47 *)
Theorem C47_reflect :
  (forall v n, length v = 2%nat -> length n = 2%nat ->
     computes RS glm_vec2_reflect [InA (fl v); InA (fl n); Out 2] VVoid [fl (mirror v n)]) /\
  (forall v n, length v = 3%nat -> length n = 3%nat ->
     computes RS glm_vec3_reflect [InA (fl v); InA (fl n); Out 3] VVoid [fl (mirror v n)]) /\
  (forall v n, length v = 4%nat -> length n = 4%nat ->
     computes RS glm_vec4_reflect [In (fl v); InA (fl n); Out 4] VVoid [fl (firstn 3 (mirror v n) ++ [at_ v 3])]).
Proof. exact VecGeom.C47_reflect_ok. Qed.
Print Assumptions C47_reflect.

(** with the destination equal to the incident vector, vec4 loses the original w *)
Theorem C47_vec4_reflect_in_place : forall v n, length v = 4%nat -> length n = 4%nat ->
  computes RS (call_xyx glm_vec4_reflect) [InOut (fl v); In (fl n)] VVoid [fl (mirror v n)].
Proof. exact VecGeom.C47_vec4_reflect_in_place_ok. Qed.
Print Assumptions C47_vec4_reflect_in_place.

(** the mirror image of a unit normal's hyperplane: involution, isometry, normal reversed *)
Theorem C47_mirror : forall v n, length v = length n -> (length v = 2 \/ length v = 3 \/ length v = 4)%nat -> norm2 n = 1 ->
  mirror (mirror v n) n = v /\ norm (mirror v n) = norm v /\ rdot (mirror v n) n = - rdot v n /\
  tangential (mirror v n) n = tangential v n.
Proof. exact VecGeom.C47_mirror_ok. Qed.
Print Assumptions C47_mirror.

Theorem C47_refract :
  (forall v n eta, length v = 2%nat -> length n = 2%nat -> 0 <= refr_k eta v n ->
     computes RS glm_vec2_refract [InA (fl v); In (fl n); Val (VF eta); Out 2] (VB true) [fl (refracted eta v n)]) /\
  (forall v n eta, length v = 3%nat -> length n = 3%nat -> 0 <= refr_k eta v n ->
     computes RS glm_vec3_refract [InA (fl v); In (fl n); Val (VF eta); Out 3] (VB true) [fl (refracted eta v n)]) /\
  (forall v n eta, length v = 4%nat -> length n = 4%nat -> 0 <= refr_k eta v n ->
     computes RS glm_vec4_refract [InA (fl v); In (fl n); Val (VF eta); Out 4] (VB true) [fl (refracted eta v n)]).
Proof. exact VecGeom.C47_refract_ok. Qed.
Print Assumptions C47_refract.

(** total internal reflection; here the destination may even be the normal *)
Theorem C47_total_reflection :
  (forall v n eta, length v = 2%nat -> length n = 2%nat -> refr_k eta v n < 0 ->
     computes RS glm_vec2_refract [InA (fl v); InA (fl n); Val (VF eta); Out 2] (VB false) [fl [0; 0]]) /\
  (forall v n eta, length v = 3%nat -> length n = 3%nat -> refr_k eta v n < 0 ->
     computes RS glm_vec3_refract [InA (fl v); InA (fl n); Val (VF eta); Out 3] (VB false) [fl [0; 0; 0]]) /\
  (forall v n eta, length v = 4%nat -> length n = 4%nat -> refr_k eta v n < 0 ->
     computes RS glm_vec4_refract [InA (fl v); InA (fl n); Val (VF eta); Out 4] (VB false) [fl [0; 0; 0; 0]]).
Proof. exact VecGeom.C47_total_reflection_ok. Qed.
Print Assumptions C47_total_reflection.

(** Snell's law: the refracted ray of unit vectors is a unit vector on the far side of
    the surface whose tangential part is [eta] times that of the incident ray *)
Theorem C47_snell : forall eta v n, length v = length n -> (length v = 2 \/ length v = 3 \/ length v = 4)%nat ->
  norm2 v = 1 -> norm2 n = 1 -> 0 <= refr_k eta v n ->
  norm2 (refracted eta v n) = 1 /\ rdot (refracted eta v n) n = - sqrt (refr_k eta v n) /\
  tangential (refracted eta v n) n = vscale eta (tangential v n).
Proof. exact VecGeom.C47_snell_ok. Qed.
Print Assumptions C47_snell.

Example C47_snell_example : norm2 [3/5; -4/5] = 1 /\ norm2 [0; 1] = 1 /\ 0 <= refr_k (1/2) [3/5; -4/5] [0; 1] /\ refr_k 2 [3/5; -4/5] [0; 1] < 0.
Proof. exact VecGeom.C47_snell_ex. Qed.

(** what happens when the destination is the normal ([refract(v, n, eta, n)]): the scaled
    incident vector is used in place of the normal, so the result is parallel to [v] *)
Theorem C47_refract_into_normal : forall v n eta, length v = 3%nat -> length n = 3%nat -> 0 <= refr_k eta v n ->
  computes RS (rcaller ["v"; "n"; "eta"]%string glm_vec3_refract ["v"; "n"; "eta"; "n"]%string)
     [In (fl v); InOut (fl n); Val (VF eta)] (VB true)
     [fl (vscale (1 - eta * rdot n v - sqrt (refr_k eta v n)) (vscale eta v))].
Proof. exact VecGeom.C47_refract_into_normal_ok. Qed.
Print Assumptions C47_refract_into_normal.

(** hence it is not the refracted ray *)
Theorem C47_refract_into_normal_refuted : exists v n eta, length v = 3%nat /\ length n = 3%nat /\
  norm2 v = 1 /\ norm2 n = 1 /\ 0 <= refr_k eta v n /\
  ~ computes RS (rcaller ["v"; "n"; "eta"]%string glm_vec3_refract ["v"; "n"; "eta"; "n"]%string)
     [In (fl v); InOut (fl n); Val (VF eta)] (VB true) [fl (refracted eta v n)].
Proof. exact VecGeom.C47_refract_into_normal_refuted_ok. Qed.
Print Assumptions C47_refract_into_normal_refuted.
