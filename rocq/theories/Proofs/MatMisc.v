(** * Transposition, matrix times vector, exchanges (C08, C09, C11) *)

From Coq Require Import String List ZArith Bool Reals Lra Lia.
From Verif Require Import Cglm.
From Verif.Spec Require Import Linear Client.
From Verif.Proofs Require Import RExact.
Import ListNotations.
Local Open Scope R_scope.


(** [f args] has this other outcome, so the claimed one would have to coincide with it *)
(** in place, for every float arithmetic *)
Lemma C08_transpose_ok : forall (S : Scalar) (d : T S),
  (forall A, length A = 4%nat -> computes S glm_mat2_transpose [InOut (fl A)] VVoid [fl (transpose d 2 2 A)]) /\
  (forall A, length A = 9%nat -> computes S glm_mat3_transpose [InOut (fl A)] VVoid [fl (transpose d 3 3 A)]) /\
  (forall A, length A = 16%nat -> computes S glm_mat4_transpose [InOut (fl A)] VVoid [fl (transpose d 4 4 A)]).
Proof. intros S d. repeat split; go. Qed.
(** source and destination apart, for every float arithmetic *)
Lemma C08_transpose_to_ok : forall (S : Scalar) (d : T S),
  (forall A, length A = 4%nat -> computes S glm_mat2_transpose_to [In (fl A); Out 4] VVoid [fl (transpose d 2 2 A)]) /\
  (forall A, length A = 9%nat -> computes S glm_mat3_transpose_to [In (fl A); Out 9] VVoid [fl (transpose d 3 3 A)]) /\
  (forall A, length A = 16%nat -> computes S glm_mat4_transpose_to [In (fl A); Out 16] VVoid [fl (transpose d 4 4 A)]).
Proof. intros S d. repeat split; go. Qed.
(** source == destination: the lower triangle is lost, so the result is the transpose
    exactly when the matrix is already symmetric *)
Lemma C08_transpose_to_in_place_ok : forall (S : Scalar) (d : T S),
  (forall A, length A = 4%nat -> (computes S (call_xx glm_mat2_transpose_to) [InOut (fl A)] VVoid [fl (transpose d 2 2 A)] <-> A = transpose d 2 2 A)) /\
  (forall A, length A = 9%nat -> (computes S (call_xx glm_mat3_transpose_to) [InOut (fl A)] VVoid [fl (transpose d 3 3 A)] <-> A = transpose d 3 3 A)) /\
  (forall A, length A = 16%nat -> (computes S (call_xx glm_mat4_transpose_to) [InOut (fl A)] VVoid [fl (transpose d 4 4 A)] <-> A = transpose d 4 4 A)).
Proof.
  intros S d. repeat split; intros; unlists.
  - assert (E : computes S (call_xx glm_mat2_transpose_to) [InOut (fl [a; a0; a1; a2])] VVoid [fl [a; a1; a1; a2]]) by go.
    other_outcome H0 E. linj Eo. lcbv. reflexivity.
  - linj H0. go.
  - eassert (E : computes S (call_xx glm_mat3_transpose_to) [InOut (fl [a; a0; a1; a2; a3; a4; a5; a6; a7])] VVoid [fl [_; _; _; _; _; _; _; _; _]]) by (symr; rprep; cells reflexivity).
    other_outcome H0 E. linj Eo. lcbv. reflexivity.
  - linj H0. go.
  - eassert (E : computes S (call_xx glm_mat4_transpose_to) [InOut (fl [a; a0; a1; a2; a3; a4; a5; a6; a7; a8; a9; a10; a11; a12; a13; a14])] VVoid [fl [_; _; _; _; _; _; _; _; _; _; _; _; _; _; _; _]]) by (symr; rprep; cells reflexivity).
    other_outcome H0 E. linj Eo. lcbv. reflexivity.
  - linj H0. go.
Qed.
Lemma C08_transpose_to_in_place_refuted_ok : exists A, length A = 16%nat /\
  ~ computes RS (call_xx glm_mat4_transpose_to) [InOut (fl A)] VVoid [fl (transpose 0 4 4 A)].
Proof.
  exists [1;2;0;0; 0;1;0;0; 0;0;1;0; 0;0;0;1]. split; auto.
  intros H. apply (C08_transpose_to_in_place_ok RS 0) in H; auto. cbv [transpose build entry] in H. simpl in H. injection H. intros. lra.
Qed.

(** the destination may be the vector *)
Lemma C09_mulv_ok :
  (forall M v, length M = 9%nat -> length v = 3%nat ->
     computes RS glm_mat3_mulv [In (fl M); InA (fl v); Out 3] VVoid [fl (mvec 3 3 M v)]) /\
  (forall M v, length M = 16%nat -> length v = 4%nat ->
     computes RS glm_mat4_mulv [In (fl M); InA (fl v); Out 4] VVoid [fl (mvec 4 4 M v)]) /\
  (forall M v w, length M = 16%nat -> length v = 3%nat ->
     computes RS glm_mat4_mulv3 [In (fl M); InA (fl v); Val (VF w); Out 3] VVoid [fl (firstn 3 (mvec 4 4 M (v ++ [w])))]).
Proof. repeat split; go. Qed.
(** glm_mat2_mulv only when the destination is not the vector ... *)
Lemma C09_mat2_mulv_ok : forall M v, length M = 4%nat -> length v = 2%nat ->
  computes RS glm_mat2_mulv [In (fl M); In (fl v); Out 2] VVoid [fl (mvec 2 2 M v)].
Proof. go. Qed.
(** ... when it is, the second component uses the overwritten first one *)
Lemma C09_mat2_mulv_in_place_ok : forall M x y, length M = 4%nat ->
  computes RS (call_xyy glm_mat2_mulv) [In (fl M); InOut (fl [x; y])] VVoid
    [fl [at_ (mvec 2 2 M [x; y]) 0; at_ (mvec 2 2 M [at_ (mvec 2 2 M [x; y]) 0; y]) 1]].
Proof. go. Qed.
Lemma C09_mat2_mulv_in_place_refuted_ok : exists M v, length M = 4%nat /\ length v = 2%nat /\
  ~ computes RS (call_xyy glm_mat2_mulv) [In (fl M); InOut (fl v)] VVoid [fl (mvec 2 2 M v)].
Proof.
  exists [0;1; -1;0], [1;2]. repeat split; auto. intros H.
  pose proof (C09_mat2_mulv_in_place_ok [0;1; -1;0] 1 2 eq_refl) as E.
  other_outcome H E. revert Eo. lcbv. intros Eo. injection Eo. intros. lra.
Qed.
(** it is the usual action: linear, identity acts trivially, product acts as composition *)
Lemma C09_action_ok : forall n, (n = 2 \/ n = 3 \/ n = 4)%nat -> forall A B v,
  length A = (n * n)%nat -> length B = (n * n)%nat -> length v = n ->
  mvec n n (mmul n A B) v = mvec n n A (mvec n n B v) /\ mvec n n (mid n) v = v.
Proof.
  intros n Hn A B v HA HB Hv. destruct Hn as [-> | [-> | ->]]; simpl in *; unlists; split; lcbv; repeat (f_equal; try ring).
Qed.

Lemma zcases4 : forall P : Z -> Prop, P 0%Z -> P 1%Z -> P 2%Z -> P 3%Z -> forall i, (0 <= i < 4)%Z -> P i.
Proof. intros P H0 H1 H2 H3 i Hi. assert (i = 0 \/ i = 1 \/ i = 2 \/ i = 3)%Z by lia. intuition subst; auto. Qed.
Lemma zcases3 : forall P : Z -> Prop, P 0%Z -> P 1%Z -> P 2%Z -> forall i, (0 <= i < 3)%Z -> P i.
Proof. intros P H0 H1 H2 i Hi. assert (i = 0 \/ i = 1 \/ i = 2)%Z by lia. intuition subst; auto. Qed.
Lemma zcases2 : forall P : Z -> Prop, P 0%Z -> P 1%Z -> forall i, (0 <= i < 2)%Z -> P i.
Proof. intros P H0 H1 i Hi. assert (i = 0 \/ i = 1)%Z by lia. intuition subst; auto. Qed.

(** for every float arithmetic, any indices in range, also equal ones *)
Lemma C11_swap_ok : forall (S : Scalar) (d : T S),
  (forall A i j, length A = 4%nat -> (0 <= i < 2)%Z -> (0 <= j < 2)%Z ->
     computes S glm_mat2_swap_col [InOut (fl A); Val (VI i); Val (VI j)] VVoid [fl (swap_cols d 2 A (Z.to_nat i) (Z.to_nat j))] /\
     computes S glm_mat2_swap_row [InOut (fl A); Val (VI i); Val (VI j)] VVoid [fl (swap_rows d 2 A (Z.to_nat i) (Z.to_nat j))]) /\
  (forall A i j, length A = 9%nat -> (0 <= i < 3)%Z -> (0 <= j < 3)%Z ->
     computes S glm_mat3_swap_col [InOut (fl A); Val (VI i); Val (VI j)] VVoid [fl (swap_cols d 3 A (Z.to_nat i) (Z.to_nat j))] /\
     computes S glm_mat3_swap_row [InOut (fl A); Val (VI i); Val (VI j)] VVoid [fl (swap_rows d 3 A (Z.to_nat i) (Z.to_nat j))]) /\
  (forall A i j, length A = 16%nat -> (0 <= i < 4)%Z -> (0 <= j < 4)%Z ->
     computes S glm_mat4_swap_col [InOut (fl A); Val (VI i); Val (VI j)] VVoid [fl (swap_cols d 4 A (Z.to_nat i) (Z.to_nat j))] /\
     computes S glm_mat4_swap_row [InOut (fl A); Val (VI i); Val (VI j)] VVoid [fl (swap_rows d 4 A (Z.to_nat i) (Z.to_nat j))]).
Proof.
  intros S d. split; [|split]; intros A i j HA Hi Hj; unlists; revert i Hi.
  - apply zcases2; revert j Hj; apply zcases2; split; symr; cbv -[computes T s_lit]; auto.
  - apply zcases3; revert j Hj; apply zcases3; split; symr; cbv -[computes T s_lit]; auto.
  - apply zcases4; revert j Hj; apply zcases4; split; symr; cbv -[computes T s_lit]; auto.
Qed.
Lemma C11_rmc_ok :
  (forall r M c, length r = 2%nat -> length M = 4%nat -> length c = 2%nat ->
     computes RS glm_mat2_rmc [In (fl r); In (fl M); In (fl c)] (VF (rdot r (mvec 2 2 M c))) []) /\
  (forall r M c, length r = 3%nat -> length M = 9%nat -> length c = 3%nat ->
     computes RS glm_mat3_rmc [In (fl r); In (fl M); In (fl c)] (VF (rdot r (mvec 3 3 M c))) []) /\
  (forall r M c, length r = 4%nat -> length M = 16%nat -> length c = 4%nat ->
     computes RS glm_mat4_rmc [In (fl r); In (fl M); In (fl c)] (VF (rdot r (mvec 4 4 M c))) []).
Proof. repeat split; go. Qed.
