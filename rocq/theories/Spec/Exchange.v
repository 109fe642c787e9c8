(** * The row and column exchange functions by matrix size *)

From Verif Require Import MiniC Cglm.

Definition exchange (n : nat) (cols : bool) : fundef :=
  match n, cols with
  | 2%nat, true => glm_mat2_swap_col | 2%nat, false => glm_mat2_swap_row
  | 3%nat, true => glm_mat3_swap_col | 3%nat, false => glm_mat3_swap_row
  | _, true => glm_mat4_swap_col | _, false => glm_mat4_swap_row end.
