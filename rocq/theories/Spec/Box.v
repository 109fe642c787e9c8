(** * Boxes, spheres and rays *)

From Coq Require Import List Reals.
From Verif.Spec Require Import Linear Geometry.
From Verif Require Import MiniC Cglm.
Import ListNotations.
Open Scope R_scope.

(** An axis-aligned box of dimension [n] is the list of its lower corner followed by its upper
    corner.  The point [p] is in the (closed) box. *)
Definition in_aabb (n : nat) (b p : list R) : Prop := forall i, (i < n)%nat -> at_ b i <= at_ p i <= at_ b (n + i).
(** lower corner below upper corner *)
Definition proper (n : nat) (b : list R) : Prop := forall i, (i < n)%nat -> at_ b i <= at_ b (n + i).
(** [b] is a subset of [b'] *)
Definition box_sub (n : nat) (b b' : list R) : Prop := forall p, length p = n -> in_aabb n b p -> in_aabb n b' p.

(** spheres: centre followed by radius; the point is in the closed ball *)
Definition in_ball (n : nat) (s p : list R) : Prop := norm2 (vsub p (firstn n s)) <= at_ s n * at_ s n.

Definition merge_fn (n : nat) : fundef := if Nat.eqb n 2 then glm_aabb2d_merge else glm_aabb_merge.
Definition crop_fn (n : nat) : fundef := if Nat.eqb n 2 then glm_aabb2d_crop else glm_aabb_crop.
Definition crop_until_fn (n : nat) : fundef := if Nat.eqb n 2 then glm_aabb2d_crop_until else glm_aabb_crop_until.
Definition contains_fn (n : nat) : fundef := if Nat.eqb n 2 then glm_aabb2d_contains else glm_aabb_contains.
Definition point_fn (n : nat) : fundef := if Nat.eqb n 2 then glm_aabb2d_point else glm_aabb_point.
Definition meet_fn (n : nat) : fundef := if Nat.eqb n 2 then glm_aabb2d_aabb else glm_aabb_aabb.
Definition ball_fn (n : nat) : fundef := if Nat.eqb n 2 then glm_aabb2d_circle else glm_aabb_sphere.
Definition box_transform_fn (n : nat) : fundef := if Nat.eqb n 2 then glm_aabb2d_transform else glm_aabb_transform.

(** the line from [o] along [d] is on the sphere (centre, radius) at parameter [t] *)
Definition on_sphere (o d s : list R) (t : R) : Prop := norm2 (vsub (vadd o (vscale t d)) (firstn 3 s)) = at_ s 3 * at_ s 3.
(** ... and in the triangle at parameter [t] *)
Definition in_triangle (o d x y z : list R) (t : R) : Prop := exists u v, 0 <= u /\ 0 <= v /\ u + v <= 1 /\
  vadd o (vscale t d) = vadd x (vadd (vscale u (vsub y x)) (vscale v (vsub z x))).
