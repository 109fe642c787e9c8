(** * Swizzle masks *)

From Coq Require Import List ZArith.
From Verif Require Import MiniC Cglm.
Import ListNotations.

(** the [k]-th two-bit field of a mask, from the low end *)
Definition field (mask : Z) (k : nat) : nat := Z.to_nat ((mask / 4 ^ Z.of_nat k) mod 4).
(** all [n] fields are indices of a vector of [n] components *)
Definition mask_ok (n : nat) (mask : Z) : Prop := forall k, (k < n)%nat -> (field mask k < n)%nat.
(** the components selected by the mask *)
Definition swizzled {F} (n : nat) (mask : Z) (d : F) (v : list F) : list F := map (fun k => nth (field mask k) v d) (seq 0 n).
Definition swizzle_fn (n : nat) : fundef :=
  match n with 2%nat => glm_vec2_swizzle | 3%nat => glm_vec3_swizzle | _ => glm_vec4_swizzle end.
(** GLM_SHUFFLE4(i3, i2, i1, i0) and shorter *)
Fixpoint shuffle (l : list Z) : Z := match l with [] => 0 | i :: l' => i + 4 * shuffle l' end%Z.
