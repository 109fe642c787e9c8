(** C77: Geometric tests in single precision.

    In IEEE binary32: glm_eq and the vector comparisons with tolerance hold on numbers iff
    every exact difference is at most 21990233*2^-41. glm_aabb_point, glm_aabb_contains and
    glm_aabb_aabb decide their exact conditions. For coordinates and radii up to 2^k,
    glm_sphere_point and glm_sphere_sphere return true when the squared distance is below the
    squared radius (sum) by 61 (72) units of 2^(2k-25) and false when it is above by more than
    that. For boxes with coordinates up to 2^k and plane normals with components up to 1,
    glm_aabb_frustum keeps every box that has, for each plane, a point at depth at least
    9*2^(k-25), and every box it keeps has, for each plane, a point at depth at least
    -9*2^(k-25). *)

From Coq Require Import String List ZArith Bool Reals.
From Verif Require Import MiniC Contract RScalar Cglm.
From Coq Require Import Reals Floats.SpecFloat.
From Verif Require Import B32.
From Verif.Spec Require Import Float32 Linear Geometry Clip Frustum Box Tests32.
From Verif.Spec Require Import Float32 Linear Geometry Affine Clip Frustum Box Tests32.
From Verif.Spec Require Import Float32 Linear Geometry Clip Frustum Box Tests32.
From Verif.Proofs Require Tests32.
Import ListNotations.
Local Open Scope list_scope.
Local Open Scope R_scope.

(** on numbers, the comparisons with tolerance hold iff the exact differences are at most [tolerance] *)
Theorem C77_near : forall l,
  (forall a b, number a -> number b -> exists r, computes (B32 l) glm_eq [Val (VF a); Val (VF b)] (VB r) [] /\ (r = true <-> Rabs (rval a - rval b) <= tolerance)) /\
  (forall a b, length a = 2%nat -> length b = 2%nat -> Forall number a -> Forall number b -> exists r, computes (B32 l) glm_vec2_eqv_eps [In (fl a); In (fl b)] (VB r) [] /\ (r = true <-> all_near (map rval a) (map rval b))) /\
  (forall a b, length a = 3%nat -> length b = 3%nat -> Forall number a -> Forall number b -> exists r, computes (B32 l) glm_vec3_eqv_eps [In (fl a); In (fl b)] (VB r) [] /\ (r = true <-> all_near (map rval a) (map rval b))) /\
  (forall a b, length a = 4%nat -> length b = 4%nat -> Forall number a -> Forall number b -> exists r, computes (B32 l) glm_vec4_eqv_eps [In (fl a); In (fl b)] (VB r) [] /\ (r = true <-> all_near (map rval a) (map rval b))) /\
  (forall a x, length a = 2%nat -> Forall number a -> number x -> exists r, computes (B32 l) glm_vec2_eq_eps [In (fl a); Val (VF x)] (VB r) [] /\ (r = true <-> all_near (map rval a) (repeat (rval x) 2))) /\
  (forall a x, length a = 3%nat -> Forall number a -> number x -> exists r, computes (B32 l) glm_vec3_eq_eps [In (fl a); Val (VF x)] (VB r) [] /\ (r = true <-> all_near (map rval a) (repeat (rval x) 3))) /\
  (forall a x, length a = 4%nat -> Forall number a -> number x -> exists r, computes (B32 l) glm_vec4_eq_eps [In (fl a); Val (VF x)] (VB r) [] /\ (r = true <-> all_near (map rval a) (repeat (rval x) 4))).
Proof. exact Tests32.C77_near_ok. Qed.
Print Assumptions C77_near.

Example C77_near_example : number (b_lit 1 3) /\ number (b_lit 33334 100000) /\ Rabs (rval (b_lit 1 3) - rval (b_lit 33334 100000)) <= tolerance.
Proof. exact Tests32.C77_near_ex. Qed.

(** culling: a box with, for each plane, a point at depth [e] is kept; a box that is kept has a point at depth [-e] for each plane *)
Theorem C77_frustum : forall l k b ps, (-70 <= k <= 100)%Z -> length b = 6%nat -> length ps = 24%nat -> bounded_by (powerRZ 2 k) b -> Forall number ps ->
  (forall j, (j < 6)%nat -> bounded_by 1 (firstn 3 (skipn (4 * j) ps))) -> proper 3 (map rval b) ->
  exists r, computes (B32 l) glm_aabb_frustum [In (fl b); In (fl ps)] (VB r) [] /\
  ((forall j, (j < 6)%nat -> exists p, length p = 3%nat /\ in_aabb 3 (map rval b) p /\ depth (map rval ps) j p >= 9 * powerRZ 2 (k - 25)) -> r = true) /\
  (r = true -> forall j, (j < 6)%nat -> exists p, length p = 3%nat /\ in_aabb 3 (map rval b) p /\ depth (map rval ps) j p >= - (9 * powerRZ 2 (k - 25))).
Proof. exact Tests32.C77_frustum_ok. Qed.
Print Assumptions C77_frustum.

Example C77_frustum_example : let b := map (fun n => b_lit n 1) [0; 0; 0; 5; 5; 5]%Z in let ps := map (fun n => b_lit n 1) [1;0;0;1; -1;0;0;1; 0;1;0;1; 0;-1;0;1; 0;0;1;1; 0;0;-1;1]%Z in
  bounded_by (powerRZ 2 3) b /\ Forall number ps /\ (forall j, (j < 6)%nat -> bounded_by 1 (firstn 3 (skipn (4 * j) ps))) /\ proper 3 (map rval b) /\
  forall j, (j < 6)%nat -> exists p, length p = 3%nat /\ in_aabb 3 (map rval b) p /\ depth (map rval ps) j p >= 9 * powerRZ 2 (3 - 25).
Proof. exact Tests32.C77_frustum_ex. Qed.

(** a point well inside a sphere is reported inside, a point well outside is not; likewise for spheres that meet *)
Theorem C77_ball : forall l k s p, (-40 <= k <= 60)%Z -> length s = 4%nat -> length p = 3%nat -> bounded_by (powerRZ 2 k) s -> bounded_by (powerRZ 2 k) p ->
  exists r, computes (B32 l) glm_sphere_point [In (fl s); In (fl p)] (VB r) [] /\
  let d2 := norm2 (vsub (map rval p) (firstn 3 (map rval s))) in let R2 := nth 3 (map rval s) 0 * nth 3 (map rval s) 0 in let e := 61 * powerRZ 2 (2 * k - 25) in
  (d2 + e <= R2 -> r = true) /\ (r = true -> d2 <= R2 + e).
Proof. exact Tests32.C77_ball_ok. Qed.
Print Assumptions C77_ball.

Theorem C77_spheres : forall l k s t, (-40 <= k <= 60)%Z -> length s = 4%nat -> length t = 4%nat -> bounded_by (powerRZ 2 k) s -> bounded_by (powerRZ 2 k) t ->
  exists r, computes (B32 l) glm_sphere_sphere [In (fl s); In (fl t)] (VB r) [] /\
  let d2 := norm2 (vsub (firstn 3 (map rval s)) (firstn 3 (map rval t))) in let R := nth 3 (map rval s) 0 + nth 3 (map rval t) 0 in let e := 72 * powerRZ 2 (2 * k - 25) in
  (d2 + e <= R * R -> r = true) /\ (r = true -> d2 <= R * R + e).
Proof. exact Tests32.C77_spheres_ok. Qed.
Print Assumptions C77_spheres.

Example C77_ball_example : let s := map (fun n => b_lit n 1) [0; 0; 1; 5]%Z in let p := map (fun n => b_lit n 1) [1; 1; 1]%Z in
  bounded_by (powerRZ 2 3) s /\ bounded_by (powerRZ 2 3) p /\ norm2 (vsub (map rval p) (firstn 3 (map rval s))) + 61 * powerRZ 2 (2 * 3 - 25) <= nth 3 (map rval s) 0 * nth 3 (map rval s) 0.
Proof. exact Tests32.C77_ball_ex. Qed.

Theorem C77_boxes : forall l b c p, length b = 6%nat -> length c = 6%nat -> length p = 3%nat -> Forall number b -> Forall number c -> Forall number p ->
  (exists r, computes (B32 l) glm_aabb_point [In (fl b); In (fl p)] (VB r) [] /\ (r = true <-> in_aabb 3 (map rval b) (map rval p))) /\
  (exists r, computes (B32 l) glm_aabb_contains [In (fl b); In (fl c)] (VB r) [] /\ (r = true <-> forall i, (i < 3)%nat -> at_ (map rval b) i <= at_ (map rval c) i /\ at_ (map rval c) (3 + i) <= at_ (map rval b) (3 + i))) /\
  (exists r, computes (B32 l) glm_aabb_aabb [In (fl b); In (fl c)] (VB r) [] /\ (r = true <-> forall i, (i < 3)%nat -> at_ (map rval b) i <= at_ (map rval c) (3 + i) /\ at_ (map rval c) i <= at_ (map rval b) (3 + i))).
Proof. exact Tests32.C77_boxes_ok. Qed.
Print Assumptions C77_boxes.

Example C77_boxes_example : let b := map (fun n => b_lit n 1) [0; 0; 0; 5; 5; 5]%Z in let p := map (fun n => b_lit n 1) [1; 0; 5]%Z in
  Forall number b /\ Forall number p /\ in_aabb 3 (map rval b) (map rval p).
Proof. exact Tests32.C77_boxes_ex. Qed.

Example C77_spheres_example : let s := map (fun n => b_lit n 1) [0; 0; 1; 5]%Z in let t := map (fun n => b_lit n 1) [5; -1; 1; 1]%Z in
  bounded_by (powerRZ 2 3) s /\ bounded_by (powerRZ 2 3) t /\
  norm2 (vsub (firstn 3 (map rval s)) (firstn 3 (map rval t))) + 72 * powerRZ 2 (2 * 3 - 25) <= (nth 3 (map rval s) 0 + nth 3 (map rval t) 0) * (nth 3 (map rval s) 0 + nth 3 (map rval t) 0).
Proof. exact Tests32.C77_spheres_ex. Qed.
