(** * Other values of the configuration macros (C65, C66) *)

From Coq Require Import String List ZArith Bool Reals Lra Lia.
From Verif Require Import MiniC SymTac Tac Contract Cglm RScalar.
From Verif.Config Require Import fast eps.
From Verif.Spec Require Import Linear Geometry Affine Clip Frustum Close Quaternion ClipConfig.
From Verif.Proofs Require Import Forward Struct StructApi RExact AffTac Affine Quat Cam Project Frustum QuatSlerp.
From Verif Require B32.
From Verif.Spec Require Float32.
From Verif.Proofs Require IeeeOver.
(* props: From Verif Require B32. *)
(* props: From Verif.Config Require Import fast eps. *)
(* props: From Verif.Spec Require Import Linear Geometry Affine Clip Frustum Close Quaternion ClipConfig. *)
Import ListNotations.
Local Open Scope R_scope.

(** ** C65: handedness and depth range *)
(** in each build the functions of cam.h, project.h and euler.h without suffix have exactly the
    effect of those that name the convention *)
Lemma C65_clip_ok : forall lh zo, Forall (fun p => same_effect (fst p) (snd p)) (clip_config lh zo).
Proof. intros [|] [|]; unfold clip_config; repeat (apply Forall_cons; [apply (same_resolved 12); vm_compute; reflexivity|]); constructor. Qed.
Lemma C65_clip_ex : forall lh zo, length (clip_config lh zo) = 31%nat.
Proof. intros [|] [|]; reflexivity. Qed.
(** the struct functions likewise *)
Lemma C65_struct_ok : forall lh zo, Forall (fun p => stands_for (fst p) (snd p)) (struct_config lh zo).
Proof. intros [|] [|]; unfold struct_config; repeat (apply Forall_cons; [apply delegate_ok; vm_compute; repeat split|]); constructor. Qed.
Lemma C65_struct_ex : forall lh zo, length (struct_config lh zo) = 25%nat.
Proof. intros [|] [|]; reflexivity. Qed.
Lemma C65_struct_through_ok : forall lh zo, Forall (fun t => transfers (fst (fst t)) (snd (fst t)) (snd t)) (struct_through lh zo).
Proof. intros [|] [|]; unfold struct_through; repeat (apply Forall_cons; [apply shape_ok; vm_compute; reflexivity|]); constructor. Qed.
Lemma C65_struct_through_ex : length (struct_through true true) = 9%nat.
Proof. reflexivity. Qed.
(** in each build glm_unproject undoes glm_project *)
Lemma unproject_zo_calc : forall A, length A = 16%nat -> det 4 A <> 0 -> exists B, length B = 16%nat /\ mmul 4 A B = mid 4 /\ mmul 4 B A = mid 4 /\
  forall w vp, length w = 3%nat -> length vp = 4%nat -> at_ vp 2 <> 0 -> at_ vp 3 <> 0 -> at_ (mvec 4 4 B (ndc true vp w)) 3 <> 0 ->
  computes RS rh_zo_glm_unproject [InA (fl w); In (fl A); In (fl vp); Out 3] VVoid [fl (dehom (mvec 4 4 B (ndc true vp w)))].
Proof.
  intros A HA HD. unlists.
  assert (X : exists b0 b1 b2 b3 b4 b5 b6 b7 b8 b9 b10 b11 b12 b13 b14 b15, let A := [a; a0; a1; a2; a3; a4; a5; a6; a7; a8; a9; a10; a11; a12; a13; a14] in
    let B := [b0; b1; b2; b3; b4; b5; b6; b7; b8; b9; b10; b11; b12; b13; b14; b15] in
    computes RS glm_mat4_inv [InA (fl A); Out 16] VVoid [fl B] /\ mmul 4 A B = mid 4 /\ mmul 4 B A = mid 4 /\
    forall w vp, length w = 3%nat -> length vp = 4%nat -> at_ vp 2 <> 0 -> at_ vp 3 <> 0 -> at_ (mvec 4 4 B (ndc true vp w)) 3 <> 0 ->
    computes RS rh_zo_glm_unproject [InA (fl w); In (fl A); In (fl vp); Out 3] VVoid [fl (dehom (mvec 4 4 B (ndc true vp w)))]).
  { do 16 eexists. cbv zeta.
    split; [symr; rprep; try (reqs; let H := fresh in intro H; match goal with HD : det _ _ <> 0 |- _ => apply HD; rewrite <- H; lcbv; ring end); cells reflexivity|].
    split; [lcbv; repeat match goal with |- (_ :: _) = (_ :: _) => f_equal end; auto; (field; let H := fresh in intro H; match goal with HD : det _ _ <> 0 |- _ => apply HD; rewrite <- H; lcbv; ring end)|].
    split; [lcbv; repeat match goal with |- (_ :: _) = (_ :: _) => f_equal end; auto; (field; let H := fresh in intro H; match goal with HD : det _ _ <> 0 |- _ => apply HD; rewrite <- H; lcbv; ring end)|].
    intros w vp Lw Lv. un3 w x y z. un4 vp v0 v1 v2 v3. unfold dehom, ndc. lcbv. intros H2 H3 W.
    symr; rprep; try (solve [nz]).
    all: first [ solve [reqs; intro H; apply HD; rewrite <- H; lcbv; ring] |
      revert W; generalize (2 * (x - v0) / v2 - 1) (2 * (y - v1) / v3 - 1); intros q0 q1 W;
      match goal with |- context [1 / ?D] => lazymatch D with context [1 / _] => fail | _ => revert W; generalize (1 / D); intros d W end end;
      cells ltac:(unfold Rdiv; ring) ]. }
  destruct X as (b0 & b1 & b2 & b3 & b4 & b5 & b6 & b7 & b8 & b9 & b10 & b11 & b12 & b13 & b14 & b15 & X).
  exists [b0; b1; b2; b3; b4; b5; b6; b7; b8; b9; b10; b11; b12; b13; b14; b15]. split; [reflexivity|]. destruct X as (_ & X1 & X2 & X3). auto.
Qed.
Lemma unproject_zo : forall p M vp, length p = 3%nat -> length M = 16%nat -> length vp = 4%nat ->
  det 4 M <> 0 -> at_ vp 2 <> 0 -> at_ vp 3 <> 0 -> at_ (clip M p) 3 <> 0 -> exists w, length w = 3%nat /\
  computes RS rh_zo_glm_project [InA (fl p); In (fl M); In (fl vp); Out 3] VVoid [fl w] /\
  computes RS rh_zo_glm_unproject [InA (fl w); In (fl M); In (fl vp); Out 3] VVoid [fl p].
Proof.
  intros p M vp Lp LM Lv HD H2 H3 W. exists (window true vp (clip M p)). split; [reflexivity|].
  destruct (unproject_zo_calc M LM HD) as (N & LN & _ & E & C).
  pose proof (back true p M N vp Lp LM LN Lv E H2 H3 W) as B.
  destruct (dehom_scale p (at_ (clip M p) 3) Lp W) as [D1 D2]. rewrite <- B in D1, D2. split.
  - clear - Lp LM Lv W. un3 p x y z. un4 vp v0 v1 v2 v3. unlists. revert W. unfold clip, window. lcbv. intros W.
    symr; rprep; try (solve [nz]); cells idtac; field; try lra.
  - rewrite <- D1 at 2. apply C; auto.
Qed.
Lemma C65_unproject_ok : forall lh zo p M vp, length p = 3%nat -> length M = 16%nat -> length vp = 4%nat ->
  det 4 M <> 0 -> at_ vp 2 <> 0 -> at_ vp 3 <> 0 -> at_ (clip M p) 3 <> 0 -> exists w, length w = 3%nat /\
  computes RS (project_in lh zo) [InA (fl p); In (fl M); In (fl vp); Out 3] VVoid [fl w] /\
  computes RS (unproject_in lh zo) [InA (fl w); In (fl M); In (fl vp); Out 3] VVoid [fl p].
Proof.
  intros lh zo p M vp Lp LM Lv HD H2 H3 W. destruct zo.
  - destruct (unproject_zo p M vp Lp LM Lv HD H2 H3 W) as (w & L & A & B). exists w. destruct lh; auto.
  - destruct (C34_unproject_ok p M vp Lp LM Lv HD H2 H3 W) as (w & L & A & B). exists w. destruct lh; auto.
Qed.
Lemma C65_unproject_ex : let M := [2;0;0;0; 0;1;0;0; 0;0;-2;-1; 0;0;-3;0] in let p := [1; 2; -5] in
  det 4 M <> 0 /\ at_ (clip M p) 3 <> 0.
Proof. exact C34_unproject_ex. Qed.
Lemma le_sqrt_of : forall a b, 0 <= a -> a * a <= b -> a <= sqrt b.
Proof. intros a b A H. rewrite <- (sqrt_square a A). apply sqrt_le_1_alt. auto. Qed.
(** frustum.h does not follow the depth range: in the build with depth from 0 to 1 the near corners
    of the frustum of an orthographic matrix of that same build lie behind the viewer *)
Lemma C65_corners_refuted_ok : exists M N ps, mmul 4 M N = mid 4 /\
  computes RS rh_zo_glm_ortho [Val (VF (-1)); Val (VF 1); Val (VF (-1)); Val (VF 1); Val (VF 1); Val (VF 3); Out 16] VVoid [fl M] /\
  computes RS glm_frustum_corners [In (fl N); Out 32] VVoid [fl ps] /\
  ahead false (firstn 3 ps) = -1 /\ ~ in_clip true (clip M (firstn 3 ps)).
Proof.
  exists [1;0;0;0; 0;1;0;0; 0;0;-(1/2);0; 0;0;-(1/2);1], [1;0;0;0; 0;1;0;0; 0;0;-2;0; 0;0;-1;1].
  exists [-1;-1;1;1; -1;1;1;1; 1;1;1;1; 1;-1;1;1; -1;-1;-3;1; -1;1;-3;1; 1;1;-3;1; 1;-1;-3;1].
  split; [lcbv; cells ltac:(field)|]. split; [symr; rprep; try (solve [nz]); cells ltac:(field)|].
  split; [symr; rprep; try (solve [nz]); cells ltac:(field)|].
  unfold ahead, in_clip, clip. lcbv. split; lra.
Qed.
(** nor do the planes: a point in front of all six extracted planes need not be in the view volume
    (though every point of the view volume is in front of them) *)
Lemma C65_planes_ok : forall M, length M = 16%nat -> (forall j, (j < 6)%nat -> eps <= norm (firstn 3 (clip_plane M j))) ->
  exists q : list (list R), length q = 6%nat /\ computes RS glm_frustum_planes [In (fl M); Out 24] VVoid [fl (concat q)] /\
  forall p, length p = 3%nat -> in_clip true (clip M p) -> forall j, (j < 6)%nat -> on_side (nth j q []) p.
Proof.
  intros M L H. destruct (C35_planes_ok M L H) as (q & Lq & _ & C & I). exists q. split; [auto|]. split; [auto|].
  intros p Lp V. apply I; auto. revert V. unfold in_clip. cbv iota. lra.
Qed.
Lemma C65_planes_refuted_ok : exists M p q, length q = 6%nat /\
  computes RS rh_zo_glm_ortho [Val (VF (-1)); Val (VF 1); Val (VF (-1)); Val (VF 1); Val (VF 1); Val (VF 3); Out 16] VVoid [fl M] /\
  computes RS glm_frustum_planes [In (fl M); Out 24] VVoid [fl (concat q)] /\
  (forall j, (j < 6)%nat -> on_side (nth j q []) p) /\ ~ in_clip true (clip M p).
Proof.
  set (M := [1;0;0;0; 0;1;0;0; 0;0;-(1/2);0; 0;0;-(1/2);1]).
  assert (E : forall j, (j < 6)%nat -> eps <= norm (firstn 3 (clip_plane M j))).
  { intros j Hj. apply Rle_trans with (sqrt (1 / 4)); [apply le_sqrt_of; unfold eps; lra|]. apply sqrt_le_1_alt. unfold M, clip_plane, row4. do 6 (destruct j as [|j]; [lcbv; lra|]). lia. }
  destruct (C35_planes_ok M eq_refl E) as (q & Lq & _ & C & I). exists M, [0; 0; 0], q. split; [auto|].
  split; [unfold M; symr; rprep; try (solve [nz]); cells ltac:(field)|]. split; [auto|].
  split; [apply I; auto|]; unfold M, in_clip, clip; lcbv; lra.
Qed.
Lemma C65_planes_ex : let M := [1;0;0;0; 0;1;0;0; 0;0;-(1/2);0; 0;0;-(1/2);1] in
  (forall j, (j < 6)%nat -> eps <= norm (firstn 3 (clip_plane M j))) /\ in_clip true (clip M [0; 0; -2]).
Proof.
  cbv zeta. split; [|unfold in_clip, clip; lcbv; lra].
  intros j Hj. apply Rle_trans with (sqrt (1 / 4)); [apply le_sqrt_of; unfold eps; lra|]. apply sqrt_le_1_alt. unfold clip_plane, row4. do 6 (destruct j as [|j]; [lcbv; lra|]). lia.
Qed.

(** ** C66: fast math and default epsilon *)
(** with fast-math compiler flags the NaN and infinity tests answer "no" for every input, so every
    vector is "valid", for every float arithmetic *)
Lemma C66_fast_ok : forall S : Scalar,
  (forall x, length x = 2%nat -> computes S fast_glm_vec2_isnan [In (fl x)] (VB false) [] /\ computes S fast_glm_vec2_isinf [In (fl x)] (VB false) [] /\
    computes S fast_glm_vec2_isvalid [In (fl x)] (VB true) []) /\
  (forall x, length x = 3%nat -> computes S fast_glm_vec3_isnan [In (fl x)] (VB false) [] /\ computes S fast_glm_vec3_isinf [In (fl x)] (VB false) [] /\
    computes S fast_glm_vec3_isvalid [In (fl x)] (VB true) []) /\
  (forall x, length x = 4%nat -> computes S fast_glm_vec4_isnan [In (fl x)] (VB false) [] /\ computes S fast_glm_vec4_isinf [In (fl x)] (VB false) [] /\
    computes S fast_glm_vec4_isvalid [In (fl x)] (VB true) []).
Proof. intros S. split; [|split]; intros x L; unlists; repeat match goal with |- _ /\ _ => split end; sym_with 40%nat; try exact I; repeat split. Qed.
(** so the fast-math build calls a vector with a NaN component valid, the default build does not *)
Lemma C66_fast_refuted_ok : exists v : list B32.b32, length v = 3%nat /\ forall l,
  computes (B32.B32 l) glm_vec3_isvalid [In (fl v)] (VB false) [] /\ computes (B32.B32 l) fast_glm_vec3_isvalid [In (fl v)] (VB true) [].
Proof.
  exists [Float32.nan; Float32.b1; Float32.b0]. split; [reflexivity|]. intros l.
  split; [exact (proj2 (proj2 (proj1 (proj2 (IeeeOver.C62_classify_ok l)) [Float32.nan; Float32.b1; Float32.b0] eq_refl)))|exact (proj2 (proj2 (proj1 (proj2 (C66_fast_ok (B32.B32 l))) [Float32.nan; Float32.b1; Float32.b0] eq_refl)))].
Qed.
(** glm_eq and the vector comparisons then use FLT_EPSILON instead of 1e-5 *)
Ltac withins := repeat split; intros; unlists; symr; rprep; try domain; cbv [forallb map combine fst snd within eps repeat];
  rifs; try reflexivity; exfalso; first [contradiction | lra].
Lemma C66_eps_ok :
  (forall a b, computes RS eps_glm_eq [Val (VF a); Val (VF b)] (VB (within eps a b)) []) /\
  (forall a b, length a = 2%nat -> length b = 2%nat -> computes RS eps_glm_vec2_eqv_eps [In (fl a); In (fl b)] (VB (all_within eps a b)) []) /\
  (forall a b, length a = 3%nat -> length b = 3%nat -> computes RS eps_glm_vec3_eqv_eps [In (fl a); In (fl b)] (VB (all_within eps a b)) []) /\
  (forall a b, length a = 4%nat -> length b = 4%nat -> computes RS eps_glm_vec4_eqv_eps [In (fl a); In (fl b)] (VB (all_within eps a b)) []) /\
  (forall a t, length a = 2%nat -> computes RS eps_glm_vec2_eq_eps [In (fl a); Val (VF t)] (VB (all_within eps a (repeat t 2))) []) /\
  (forall a t, length a = 3%nat -> computes RS eps_glm_vec3_eq_eps [In (fl a); Val (VF t)] (VB (all_within eps a (repeat t 3))) []) /\
  (forall a t, length a = 4%nat -> computes RS eps_glm_vec4_eq_eps [In (fl a); Val (VF t)] (VB (all_within eps a (repeat t 4))) []) /\
  (forall a, length a = 2%nat -> computes RS eps_glm_vec2_eq_all [In (fl a)] (VB (all_within eps a (repeat (at_ a 0) 2))) []) /\
  (forall a, length a = 3%nat -> computes RS eps_glm_vec3_eq_all [In (fl a)] (VB (all_within eps a (repeat (at_ a 0) 3))) []) /\
  (forall a, length a = 4%nat -> computes RS eps_glm_vec4_eq_all [In (fl a)] (VB (all_within eps a (repeat (at_ a 0) 4))) []) /\
  (forall x y z w, length x = 4%nat -> length y = 4%nat -> length z = 4%nat -> length w = 4%nat ->
    let n := [norm (firstn 3 x); norm (firstn 3 y); norm (firstn 3 z)] in
    computes RS eps_glm_uniscaled [In (fl (x ++ y ++ z ++ w))] (VB (all_within eps n (repeat (at_ n 0) 3))) []).
Proof.
  split; [unfold within; withins|]. do 9 (split; [unfold all_within; withins|]).
  intros; change (T RS) with R in *; unlists. unfold n, all_within; symr; rprep; try domain. cbv [forallb map combine fst snd within eps repeat].
  rifs; try reflexivity; exfalso; first [contradiction | lra].
Qed.
(** the shortest rotation between unit vectors with the smaller threshold *)
Lemma C66_from_vecs_ok : forall a b, length a = 3%nat -> length b = 3%nat -> norm2 a = 1 -> norm2 b = 1 ->
  -1 + eps <= rdot a b < 1 - eps -> exists q, length q = 4%nat /\
  computes RS eps_glm_quat_from_vecs [In (fl a); In (fl b); Out 4] VVoid [fl q] /\ norm2 q = 1 /\ qrot q a = b.
Proof.
  intros a b La Lb Na Nb H.
  set (u := quat (vcross a b) (1 + rdot a b)).
  assert (N : norm2 u = 2 * (1 + rdot a b)).
  { clear H. unfold u. revert Na Nb. un3 a a0 a1 a2. un3 b b0 b1 b2. qu. lcbv. intros Na Nb.
    assert (A : a0 * a0 = 1 - a1 * a1 - a2 * a2) by lra. assert (B : b0 * b0 = 1 - b1 * b1 - b2 * b2) by lra. ring [A B]. }
  assert (Lu : length u = 4%nat) by reflexivity.
  assert (P : 0 < norm2 u) by (rewrite N; unfold eps in H; lra).
  exists (qnormalized u). split; [apply qnormalized_len; auto|]. split; [|split; [apply qnormalized_unit; auto|]].
  - clear N P. unfold u in *. clear Lu. revert H. un3 a a0 a1 a2. un3 b b0 b1 b2. qu. lcbv. unfold eps. intros H.
    match goal with |- context [qnormalized [?a; ?b; ?c; ?d]] => destruct (qn4 a b c d) as (e & f & g & h & E & X & Y & Z & W) end.
    rewrite E. clear E. revert X Y Z W. cbv zeta. intros X Y Z W.
    assert (O1 : Rleb (1 - 1 / 8388608) (a0 * b0 + a1 * b1 + a2 * b2) = false) by (apply Rleb_false; lra).
    assert (O2 : Rltb (- (1) + 1 / 8388608) 0 = true) by (apply Rltb_true; lra).
    assert (O3 : Rltb (a0 * b0 + a1 * b1 + a2 * b2) (- (1) + 1 / 8388608) = false) by (apply Rltb_false; lra).
    symr; rprep; rewrite ?O1, ?O3; try apply qn_dom; try reflexivity; try (reqs; sq0); rewrite ?X, ?Y, ?Z, ?W; try reflexivity.
    all: try domain.
  - unfold qnormalized. destruct Req_EM_T; [lra|].
    transitivity (vscale (/ (norm u * norm u)) (qrot u a)).
    + generalize (/ norm u) (/ (norm u * norm u)) (Rinv_mult (norm u) (norm u)). intros i j Ej. rewrite Ej. clear - La Lu.
      generalize dependent u. intros. qalg.
    + rewrite norm_sq, N.
      transitivity (vscale (/ (2 * (1 + rdot a b))) (vscale (2 * (1 + rdot a b)) b)).
      * f_equal. clear - La Lb Na Nb. unfold u. revert Na Nb. un3 a a0 a1 a2. un3 b b0 b1 b2. qu. lcbv. intros Na Nb.
        assert (A : a0 * a0 = 1 - a1 * a1 - a2 * a2) by lra. assert (B : b0 * b0 = 1 - b1 * b1 - b2 * b2) by lra. cells ltac:(ring [A B]).
      * rewrite N in P. generalize dependent (2 * (1 + rdot a b)). intros. un3 b b0 b1 b2. lcbv. cells ltac:(field; lra).
Qed.
Lemma C66_from_vecs_ex : norm2 [1; 0; 0] = 1 /\ norm2 [3/5; 4/5; 0] = 1 /\ -1 + eps <= rdot [1; 0; 0] [3/5; 4/5; 0] < 1 - eps.
Proof. unfold eps. lcbv. lra. Qed.
Lemma C66_equal_ok : forall a b, length a = 3%nat -> length b = 3%nat -> 1 - eps <= rdot a b ->
  computes RS eps_glm_quat_from_vecs [In (fl a); In (fl b); Out 4] VVoid [fl qone].
Proof.
  intros a b La Lb. un3 a a0 a1 a2. un3 b b0 b1 b2. unfold eps, qone. lcbv. intros H.
  assert (O1 : Rleb (1 - 1 / 8388608) (a0 * b0 + a1 * b1 + a2 * b2) = true) by (apply Rleb_true; lra).
  symr; rprep; rewrite ?O1; reflexivity.
Qed.
Lemma C66_opposite_ok : forall a b, length a = 3%nat -> length b = 3%nat -> norm2 a = 1 -> rdot a b < -1 + eps ->
  exists q, length q = 4%nat /\ computes RS eps_glm_quat_from_vecs [In (fl a); In (fl b); Out 4] VVoid [fl q] /\
  norm2 q = 1 /\ re q = 0 /\ qrot q a = neg a.
Proof.
  intros a b La Lb Na H. destruct (ortho_facts a La) as (D & Z). specialize (Z Na). assert (Lo : length (ortho a) = 3%nat) by reflexivity.
  set (u := quat (ortho a) 0).
  assert (Lu : length u = 4%nat) by reflexivity.
  assert (Nu : norm2 u = norm2 (ortho a)). { unfold u, quat. generalize dependent (ortho a). intros o. intros. un3 o x y z. lcbv. ring. }
  exists (qnormalized u). split; [apply qnormalized_len; auto|]. split; [|split; [apply qnormalized_unit; auto|]].
  - unfold u. clear - La Lb H. unfold ortho, hface. revert H. un3 a a0 a1 a2. un3 b b0 b1 b2. qu. lcbv. unfold eps. intros H.
    match goal with |- context [qnormalized [?a; ?b; ?c; ?d]] => destruct (qn4 a b c d) as (e & f & g & h & E & X & Y & Z & W) end.
    rewrite E. clear E. revert X Y Z W. cbv zeta. intros X Y Z W.
    assert (O1 : Rleb (1 - 1 / 8388608) (a0 * b0 + a1 * b1 + a2 * b2) = false) by (apply Rleb_false; lra).
    assert (O3 : Rltb (a0 * b0 + a1 * b1 + a2 * b2) (- (1) + 1 / 8388608) = true) by (apply Rltb_true; lra).
    symr; rprep; rewrite ?O1, ?O3; try apply qn_dom; try reflexivity; try (reqs; sq0); rewrite ?X, ?Y, ?Z, ?W; try reflexivity.
    all: try domain.
  - unfold qnormalized. destruct Req_EM_T; [congruence|]. split. { generalize (/ norm u). intros i. clear - Lo. unfold u. generalize dependent (ortho a). intros o L. un3 o x y z. qu. lcbv. ring. }
    transitivity (vscale (/ (norm u * norm u)) (qrot u a)).
    + generalize (/ norm u) (/ (norm u * norm u)) (Rinv_mult (norm u) (norm u)). intros i j Ej. rewrite Ej. clear - La Lu.
      generalize dependent u. intros. qalg.
    + rewrite norm_sq.
      transitivity (vscale (/ norm2 u) (vscale (norm2 u) (neg a))).
      * f_equal. rewrite Nu. unfold u. clear - La Lo D. revert Lo D. generalize (ortho a). intros o Lo D.
        transitivity (vsub (vscale (2 * rdot a o) o) (vscale (norm2 o) a)); [clear D; qalg|rewrite D; clear D; unfold neg; qalg].
      * generalize dependent (norm2 u). clear - La. intros. un3 a x y z. unfold neg. lcbv. cells ltac:(field; auto).
Qed.
Lemma C66_opposite_ex : norm2 [0; 1; 0] = 1 /\ rdot [0; 1; 0] [0; -1; 0] < -1 + eps.
Proof. unfold eps. lcbv. lra. Qed.
