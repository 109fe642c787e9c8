(** C78: Relative accuracy in single precision.

    Call a float ordinary if it is zero or of magnitude from 2^-30 to 2^30. In IEEE binary32,
    glm_ortho_* and glm_frustum_* with ordinary sides, left different from right, bottom from
    top and near from far, write a matrix each of whose elements is within 6*2^-24, relatively,
    of the element the same function computes over the reals; zero elements are exact. The same
    holds of glm_perspective_* for fields of view from 2^-30 to 3 radians, ordinary nonzero
    aspect and ordinary near different from far, with any tanf that is within 2^-23 relatively
    from 2^-31 to 3/2. For ordinary vectors of 2, 3 or 4 components norm2, norm, distance2 and
    distance return a float within 8*2^-24, relatively, of the exact value. No cancellation
    spoils these results, however close the sides or points are. *)

From Coq Require Import String List ZArith Bool Reals.
From Verif Require Import MiniC Contract RScalar Cglm.
From Coq Require Import Reals Floats.SpecFloat.
From Verif Require Import B32.
From Verif.Spec Require Import Float32 Linear Relative.
From Verif.Spec Require Import Float32 Linear Relative.
From Verif.Spec Require Import Float32 Linear Relative.
From Verif.Proofs Require Relative.
Import ListNotations.
Local Open Scope list_scope.
Local Open Scope R_scope.

Theorem C78_volume : forall l a b c d n f, ordinary a -> ordinary b -> ordinary c -> ordinary d -> ordinary n -> ordinary f ->
  rval a <> rval b -> rval c <> rval d -> rval n <> rval f ->
  Forall (fun g => exists F M, computes (B32 l) g (map (fun x => Val (VF x)) [a; b; c; d; n; f] ++ [Out 16]) VVoid [fl F] /\
    computes RS g (map (fun x => Val (VF (rval x))) [a; b; c; d; n; f] ++ [Out 16]) VVoid [fl M] /\ accurate_to (6 * u) F M) volume_projections.
Proof. exact Relative.C78_volume_ok. Qed.
Print Assumptions C78_volume.

Theorem C78_norms : forall l n (D : (n = 2 \/ n = 3 \/ n = 4)%nat) v w, length v = n -> length w = n -> Forall ordinary v -> Forall ordinary w ->
  let pick (f g h : fundef) := if Nat.eqb n 2 then f else if Nat.eqb n 3 then g else h in
  let d2 := norm2 (vsub (map rval v) (map rval w)) in
  (exists x, computes (B32 l) (pick glm_vec2_norm2 glm_vec3_norm2 glm_vec4_norm2) [In (fl v)] (VF x) [] /\ number x /\ Rabs (rval x - norm2 (map rval v)) <= 8 * u * norm2 (map rval v)) /\
  (exists x, computes (B32 l) (pick glm_vec2_norm glm_vec3_norm glm_vec4_norm) [In (fl v)] (VF x) [] /\ number x /\ Rabs (rval x - norm (map rval v)) <= 8 * u * norm (map rval v)) /\
  (exists x, computes (B32 l) (pick glm_vec2_distance2 glm_vec3_distance2 glm_vec4_distance2) [In (fl v); In (fl w)] (VF x) [] /\ number x /\ Rabs (rval x - d2) <= 8 * u * d2) /\
  (exists x, computes (B32 l) (pick glm_vec2_distance glm_vec3_distance glm_vec4_distance) [In (fl v); In (fl w)] (VF x) [] /\ number x /\ Rabs (rval x - sqrt d2) <= 8 * u * sqrt d2).
Proof. exact Relative.C78_norms_ok. Qed.
Print Assumptions C78_norms.

Example C78_volume_example : ordinary (b_lit (-1) 1) /\ ordinary (b_lit 1 1) /\ ordinary (b_lit 5 1) /\ rval (b_lit (-1) 1) <> rval (b_lit 1 1) /\ rval (b_lit 1 1) <> rval (b_lit 5 1) /\
  accurate_to (6 * u) [b_lit 5 1] [rval (b_lit 5 1)] /\ ~ accurate_to (6 * u) [b_lit 5 1] [rval (b_lit 1 1)].
Proof. exact Relative.C78_volume_ex. Qed.

Example C78_norms_example : Forall ordinary (map (fun n => b_lit n 1) [1; 5; -1; 0]%Z) /\ norm2 (map rval (map (fun n => b_lit n 1) [1; 5; -1; 0]%Z)) = 27.
Proof. exact Relative.C78_norms_ex. Qed.

Theorem C78_perspective : forall l fovy aspect n f, tan_accurate l -> number fovy -> powerRZ 2 (-30) <= rval fovy <= 3 ->
  ordinary aspect -> ordinary n -> ordinary f -> rval aspect <> 0 -> rval n <> rval f ->
  Forall (fun g => exists F M, computes (B32 l) g (map (fun x => Val (VF x)) [fovy; aspect; n; f] ++ [Out 16]) VVoid [fl F] /\
    computes RS g (map (fun x => Val (VF (rval x))) [fovy; aspect; n; f] ++ [Out 16]) VVoid [fl M] /\ accurate_to (6 * u) F M) view_projections.
Proof. exact Relative.C78_perspective_ok. Qed.
Print Assumptions C78_perspective.

(** the correctly rounded tangent is accurate enough; a view of 5 / 2 radians *)
Example C78_perspective_example : (exists l, tan_accurate l) /\ number (b_lit 5 2) /\ powerRZ 2 (-30) <= rval (b_lit 5 2) <= 3 /\ ordinary (b_lit 5 1) /\ ordinary (b_lit 1 1) /\ rval (b_lit 1 1) <> rval (b_lit 5 1).
Proof. exact Relative.C78_perspective_ex. Qed.
