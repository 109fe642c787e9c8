(** * Square matrices (C05-C09, C11) *)

From Coq Require Import String List ZArith Bool Reals Lra Lia.
From Verif Require Import Cglm.
From Verif.Spec Require Import Linear Client.
From Verif.Proofs Require Import RTac Layout.
Import ListNotations.
Local Open Scope R_scope.

(** the destination may be either factor, or both factors may be one matrix *)
Lemma C05_mat2_mul_ok : forall A B, length A = 4%nat -> length B = 4%nat ->
  computes RS glm_mat2_mul [InA (fl A); InA (fl B); Out 4] VVoid [fl (mmul 2 A B)].
Proof. go. Qed.
Lemma C05_mat3_mul_ok : forall A B, length A = 9%nat -> length B = 9%nat ->
  computes RS glm_mat3_mul [InA (fl A); InA (fl B); Out 9] VVoid [fl (mmul 3 A B)].
Proof. go. Qed.
Lemma C05_mat4_mul_ok : forall A B, length A = 16%nat -> length B = 16%nat ->
  computes RS glm_mat4_mul [InA (fl A); InA (fl B); Out 16] VVoid [fl (mmul 4 A B)].
Proof. go. Qed.

(** identity and zero matrices *)
Lemma C05_identity_ok :
  computes RS glm_mat2_identity [Out 4] VVoid [fl (mid 2)] /\
  computes RS glm_mat3_identity [Out 9] VVoid [fl (mid 3)] /\
  computes RS glm_mat4_identity [Out 16] VVoid [fl (mid 4)] /\
  computes RS glm_mat2_zero [Out 4] VVoid [fl (repeat 0 4)] /\
  computes RS glm_mat3_zero [Out 9] VVoid [fl (repeat 0 9)] /\
  computes RS glm_mat4_zero [Out 16] VVoid [fl (repeat 0 16)].
Proof. repeat split; go. Qed.

(** hence associativity and neutral elements *)
Lemma C05_monoid_ok : forall n, (n = 2 \/ n = 3 \/ n = 4)%nat ->
  forall A B C, length A = (n * n)%nat -> length B = (n * n)%nat -> length C = (n * n)%nat ->
  mmul n (mmul n A B) C = mmul n A (mmul n B C) /\
  mmul n (mid n) A = A /\ mmul n A (mid n) = A /\ length (mmul n A B) = (n * n)%nat.
Proof.
  intros n Hn A B C HA HB HC. destruct Hn as [-> | [-> | ->]]; simpl in *; unlists; repeat split; lcbv; repeat (f_equal; try ring).
Qed.

(** both factors and the destination the same object *)
Lemma C05_in_place_ex : exists m ps, layout m [InA (fl (mid 4)); InA (fl (mid 4)); Out (length (@fl R (mid 4)))] ps /\ nth_error ps 0 = nth_error ps 2.
Proof. apply layout_in_place_ok. Qed.

Lemma C07_det_ok :
  (forall A, length A = 4%nat -> computes RS glm_mat2_det [In (fl A)] (VF (det 2 A)) []) /\
  (forall A, length A = 9%nat -> computes RS glm_mat3_det [In (fl A)] (VF (det 3 A)) []) /\
  (forall A, length A = 16%nat -> computes RS glm_mat4_det [In (fl A)] (VF (det 4 A)) []).
Proof. repeat split; go. Qed.

(** multiplicative over the product computed by glm_matN_mul, and invariant under transposition *)
Lemma C07_multiplicative_ok : forall n, (n = 2 \/ n = 3 \/ n = 4)%nat ->
  forall A B, length A = (n * n)%nat -> length B = (n * n)%nat ->
  det n (mmul n A B) = det n A * det n B /\ det n (transp n n A) = det n A /\ det n (mid n) = 1.
Proof.
  intros n Hn A B HA HB. destruct Hn as [-> | [-> | ->]]; simpl in *; unlists; repeat split; lcbv; ring.
Qed.

Lemma C07_trace_ok :
  (forall A, length A = 4%nat -> computes RS glm_mat2_trace [In (fl A)] (VF (Rsum 2 (fun i => ent 2 A i i))) []) /\
  (forall A, length A = 9%nat -> computes RS glm_mat3_trace [In (fl A)] (VF (Rsum 3 (fun i => ent 3 A i i))) []) /\
  (forall A, length A = 16%nat -> computes RS glm_mat4_trace [In (fl A)] (VF (Rsum 4 (fun i => ent 4 A i i))) []) /\
  (forall A, length A = 16%nat -> computes RS glm_mat4_trace3 [In (fl A)] (VF (Rsum 3 (fun i => ent 4 A i i))) []).
Proof. repeat split; go. Qed.

