(** * Window coordinates (C34) *)

From Coq Require Import String List ZArith Bool Reals Lra Lia.
From Verif Require Import Cglm.
From Verif.Spec Require Import Linear Geometry Affine Clip.
From Verif.Proofs Require Import Layout RExact AffTac Cam.
Import ListNotations.
Local Open Scope R_scope.

(** ** C34 *)
Lemma C34_project_ok : forall zo p M vp, length p = 3%nat -> length M = 16%nat -> length vp = 4%nat -> at_ (clip M p) 3 <> 0 ->
  computes RS (project_fn zo) [InA (fl p); In (fl M); In (fl vp); Out 3] VVoid [fl (window zo vp (clip M p))] /\
  computes RS (project_z_fn zo) [In (fl p); In (fl M)] (VF (at_ (window zo vp (clip M p)) 2)) [].
Proof.
  intros zo p M vp L1 L2 L3. un3 p x y z. un4 vp v0 v1 v2 v3. unlists. unfold clip, window. lcbv.
  intros W.
  destruct zo; unfold project_fn, project_z_fn; split; symr; rprep; try (solve [nz]); cells idtac.
  all: try (field; try lra).
  all: try (intro Q; apply W; lra).
Qed.
(** points of the plane at infinity of the view have no window coordinates *)
Lemma C34_no_image_ok : forall zo p M vp, length p = 3%nat -> length M = 16%nat -> length vp = 4%nat -> at_ (clip M p) 3 = 0 ->
  aborts RS (project_fn zo) [InA (fl p); In (fl M); In (fl vp); Out 3] XFloatDomain /\
  aborts RS (project_z_fn zo) [In (fl p); In (fl M)] XFloatDomain.
Proof.
  intros zo p M vp L1 L2 L3. un3 p x y z. un4 vp v0 v1 v2 v3. unlists. unfold clip. lcbv. intros W.
  destruct zo; unfold project_fn, project_z_fn; split; symx_with 20%nat; useeqs; rcbv; lcbv; rifs; simpl; try reflexivity; exfalso; lra.
Qed.
Definition ndc (zo : bool) (vp w : list R) : list R :=
  [2 * (at_ w 0 - at_ vp 0) / at_ vp 2 - 1; 2 * (at_ w 1 - at_ vp 1) / at_ vp 3 - 1; if zo then at_ w 2 else 2 * at_ w 2 - 1; 1].
Lemma unprojecti_calc : forall zo w N vp, length w = 3%nat -> length N = 16%nat -> length vp = 4%nat ->
  at_ vp 2 <> 0 -> at_ vp 3 <> 0 -> at_ (mvec 4 4 N (ndc zo vp w)) 3 <> 0 ->
  computes RS (unprojecti_fn zo) [InA (fl w); In (fl N); In (fl vp); Out 3] VVoid [fl (dehom (mvec 4 4 N (ndc zo vp w)))].
Proof.
  intros zo w N vp L1 L2 L3. un3 w x y z. un4 vp v0 v1 v2 v3. unlists. unfold dehom, ndc. lcbv. intros H2 H3.
  destruct zo; unfold unprojecti_fn.
  - intros W. symr; rprep; try (solve [nz]); revert W; generalize (2 * (x - v0) / v2 - 1) (2 * (y - v1) / v3 - 1); intros q0 q1 W; try (solve [nz]); cells ltac:(field; intro Q; apply W; lra).
  - intros W. symr; rprep; try (solve [nz]); revert W; generalize (2 * (x - v0) / v2 - 1) (2 * (y - v1) / v3 - 1) (2 * z - 1); intros q0 q1 q2 W; try (solve [nz]); cells ltac:(field; intro Q; apply W; lra).
Qed.
Lemma ndc_window : forall zo vp c, length vp = 4%nat -> length c = 4%nat -> at_ vp 2 <> 0 -> at_ vp 3 <> 0 -> at_ c 3 <> 0 ->
  ndc zo vp (window zo vp c) = vscale (/ at_ c 3) c.
Proof.
  intros zo vp c L1 L2. un4 vp v0 v1 v2 v3. un4 c k0 k1 k2 k3. unfold ndc, window. destruct zo; lcbv; intros; cells ltac:(field; auto).
Qed.
Lemma mvec4_scale : forall M v s, length M = 16%nat -> length v = 4%nat -> mvec 4 4 M (vscale s v) = vscale s (mvec 4 4 M v).
Proof. alg. Qed.
Lemma mvec4_mul : forall A B v, length A = 16%nat -> length B = 16%nat -> length v = 4%nat -> mvec 4 4 A (mvec 4 4 B v) = mvec 4 4 (mmul 4 A B) v.
Proof. alg. Qed.
Lemma mvec4_id : forall v, length v = 4%nat -> mvec 4 4 (mid 4) v = v.
Proof. alg. Qed.
Lemma back : forall zo p M N vp, length p = 3%nat -> length M = 16%nat -> length N = 16%nat -> length vp = 4%nat ->
  mmul 4 N M = mid 4 -> at_ vp 2 <> 0 -> at_ vp 3 <> 0 -> at_ (clip M p) 3 <> 0 ->
  mvec 4 4 N (ndc zo vp (window zo vp (clip M p))) = vscale (/ at_ (clip M p) 3) (p ++ [1]).
Proof.
  intros zo p M N vp Lp LM LN Lv E H2 H3 W. rewrite ndc_window; auto. rewrite mvec4_scale; auto.
  unfold clip at 2. rewrite mvec4_mul, E, mvec4_id; auto; un3 p x y z; reflexivity.
Qed.
Lemma dehom_scale : forall p k, length p = 3%nat -> k <> 0 -> dehom (vscale (/ k) (p ++ [1])) = p /\ at_ (vscale (/ k) (p ++ [1])) 3 <> 0.
Proof.
  intros p k L H. un3 p x y z. assert (/ k <> 0) by (apply Rinv_neq_0_compat; auto). unfold dehom. lcbv. split; [cells ltac:(field; auto)|lra].
Qed.
(** unprojecting with the inverse matrix undoes projection *)
Lemma C34_unprojecti_ok : forall zo p M N vp, length p = 3%nat -> length M = 16%nat -> length N = 16%nat -> length vp = 4%nat ->
  mmul 4 N M = mid 4 -> at_ vp 2 <> 0 -> at_ vp 3 <> 0 -> at_ (clip M p) 3 <> 0 -> exists w, length w = 3%nat /\
  computes RS (project_fn zo) [InA (fl p); In (fl M); In (fl vp); Out 3] VVoid [fl w] /\
  computes RS (unprojecti_fn zo) [InA (fl w); In (fl N); In (fl vp); Out 3] VVoid [fl p].
Proof.
  intros zo p M N vp Lp LM LN Lv E H2 H3 W. exists (window zo vp (clip M p)). split; [reflexivity|].
  split; [apply C34_project_ok; auto|]. pose proof (back zo p M N vp Lp LM LN Lv E H2 H3 W) as B.
  destruct (dehom_scale p (at_ (clip M p) 3) Lp W) as [D1 D2]. rewrite <- B in D1, D2.
  rewrite <- D1 at 2. apply unprojecti_calc; auto.
Qed.
Lemma unproject_calc : forall A, length A = 16%nat -> det 4 A <> 0 -> exists B, length B = 16%nat /\ mmul 4 A B = mid 4 /\ mmul 4 B A = mid 4 /\
  forall w vp, length w = 3%nat -> length vp = 4%nat -> at_ vp 2 <> 0 -> at_ vp 3 <> 0 -> at_ (mvec 4 4 B (ndc false vp w)) 3 <> 0 ->
  computes RS glm_unproject [InA (fl w); In (fl A); In (fl vp); Out 3] VVoid [fl (dehom (mvec 4 4 B (ndc false vp w)))].
Proof.
  intros A HA HD. unlists.
  assert (X : exists b0 b1 b2 b3 b4 b5 b6 b7 b8 b9 b10 b11 b12 b13 b14 b15, let A := [a; a0; a1; a2; a3; a4; a5; a6; a7; a8; a9; a10; a11; a12; a13; a14] in
    let B := [b0; b1; b2; b3; b4; b5; b6; b7; b8; b9; b10; b11; b12; b13; b14; b15] in
    computes RS glm_mat4_inv [InA (fl A); Out 16] VVoid [fl B] /\ mmul 4 A B = mid 4 /\ mmul 4 B A = mid 4 /\
    forall w vp, length w = 3%nat -> length vp = 4%nat -> at_ vp 2 <> 0 -> at_ vp 3 <> 0 -> at_ (mvec 4 4 B (ndc false vp w)) 3 <> 0 ->
    computes RS glm_unproject [InA (fl w); In (fl A); In (fl vp); Out 3] VVoid [fl (dehom (mvec 4 4 B (ndc false vp w)))]).
  { do 16 eexists. cbv zeta.
    split; [symr; rprep; try (reqs; let H := fresh in intro H; match goal with HD : det _ _ <> 0 |- _ => apply HD; rewrite <- H; lcbv; ring end); cells reflexivity|].
    split; [lcbv; repeat match goal with |- (_ :: _) = (_ :: _) => f_equal end; auto; (field; let H := fresh in intro H; match goal with HD : det _ _ <> 0 |- _ => apply HD; rewrite <- H; lcbv; ring end)|].
    split; [lcbv; repeat match goal with |- (_ :: _) = (_ :: _) => f_equal end; auto; (field; let H := fresh in intro H; match goal with HD : det _ _ <> 0 |- _ => apply HD; rewrite <- H; lcbv; ring end)|].
    intros w vp Lw Lv. un3 w x y z. un4 vp v0 v1 v2 v3. unfold dehom, ndc. lcbv. intros H2 H3 W.
    symr; rprep; try (solve [nz]).
    all: first [ solve [reqs; intro H; apply HD; rewrite <- H; lcbv; ring] |
      revert W; generalize (2 * (x - v0) / v2 - 1) (2 * (y - v1) / v3 - 1) (2 * z - 1); intros q0 q1 q2 W;
      match goal with |- context [1 / ?D] => lazymatch D with context [1 / _] => fail | _ => revert W; generalize (1 / D); intros d W end end;
      cells ltac:(unfold Rdiv; ring) ]. }
  destruct X as (b0 & b1 & b2 & b3 & b4 & b5 & b6 & b7 & b8 & b9 & b10 & b11 & b12 & b13 & b14 & b15 & X).
  exists [b0; b1; b2; b3; b4; b5; b6; b7; b8; b9; b10; b11; b12; b13; b14; b15]. split; [reflexivity|]. destruct X as (_ & X1 & X2 & X3). auto.
Qed.
(** glm_unproject inverts the matrix itself (default clip convention) *)
Lemma C34_unproject_ok : forall p M vp, length p = 3%nat -> length M = 16%nat -> length vp = 4%nat ->
  det 4 M <> 0 -> at_ vp 2 <> 0 -> at_ vp 3 <> 0 -> at_ (clip M p) 3 <> 0 -> exists w, length w = 3%nat /\
  computes RS glm_project [InA (fl p); In (fl M); In (fl vp); Out 3] VVoid [fl w] /\
  computes RS glm_unproject [InA (fl w); In (fl M); In (fl vp); Out 3] VVoid [fl p].
Proof.
  intros p M vp Lp LM Lv HD H2 H3 W. exists (window false vp (clip M p)). split; [reflexivity|].
  destruct (unproject_calc M LM HD) as (N & LN & _ & E & C).
  pose proof (back false p M N vp Lp LM LN Lv E H2 H3 W) as B.
  destruct (dehom_scale p (at_ (clip M p) 3) Lp W) as [D1 D2]. rewrite <- B in D1, D2. split.
  - clear - Lp LM Lv W. un3 p x y z. un4 vp v0 v1 v2 v3. unlists. revert W. unfold clip, window. lcbv. intros W.
    symr; rprep; try (solve [nz]); cells idtac; field; try lra.
  - rewrite <- D1 at 2. apply C; auto.
Qed.
Lemma C34_unproject_ex : let M := [2;0;0;0; 0;1;0;0; 0;0;-2;-1; 0;0;-3;0] in let p := [1; 2; -5] in
  det 4 M <> 0 /\ at_ (clip M p) 3 <> 0.
Proof. cbv zeta. unfold clip. lcbv. split; lra. Qed.
(** the picking matrix maps the chosen rectangle of the window onto the whole clip square, and
    leaves depth and w alone *)
Lemma C34_pick_ok : forall c s vp M v, length c = 2%nat -> length s = 2%nat -> length vp = 4%nat -> length v = 4%nat ->
  0 < at_ s 0 -> 0 < at_ s 1 -> at_ vp 2 <> 0 -> at_ vp 3 <> 0 -> at_ v 3 <> 0 -> length M = 16%nat -> exists P, length P = 16%nat /\
  computes RS glm_pickmatrix [In (fl c); In (fl s); In (fl vp); InOut (fl M)] VVoid [fl P] /\
  let w := window false vp v in let u := mvec 4 4 P v in
  at_ u 0 / at_ u 3 = 2 * (at_ w 0 - at_ c 0) / at_ s 0 /\
  at_ u 1 / at_ u 3 = 2 * (at_ w 1 - at_ c 1) / at_ s 1 /\ at_ u 2 = at_ v 2 /\ at_ u 3 = at_ v 3.
Proof.
  intros c s vp M v Lc Ls Lv Lw. un2 c k0 k1. un2 s s0 s1. un4 vp v0 v1 v2 v3. un4 v w0 w1 w2 w3. lcbv. intros H0 H1 H2 H3 Hw HM. unlists.
  exists [v2 / s0; 0; 0; 0; 0; v3 / s1; 0; 0; 0; 0; 1; 0; (v2 - 2 * (k0 - v0)) / s0; (v3 - 2 * (k1 - v1)) / s1; 0; 1]. split; [reflexivity|]. split.
  - symr; rprep; rifs; simpl; try (exfalso; lra); try reflexivity; cells ltac:(field; lra).
  - unfold window. lcbv. repeat split; try ring; field; try (repeat split; lra).
Qed.
(** an empty rectangle: nothing is written *)
Lemma C34_pick_empty_ok : forall c s vp M, length c = 2%nat -> length s = 2%nat -> length vp = 4%nat -> length M = 16%nat ->
  at_ s 0 <= 0 \/ at_ s 1 <= 0 ->
  computes RS glm_pickmatrix [In (fl c); In (fl s); In (fl vp); InOut (fl M)] VVoid [fl M].
Proof.
  intros c s vp M Lc Ls Lv LM. un2 c k0 k1. un2 s s0 s1. un4 vp v0 v1 v2 v3. unlists. lcbv. intros H.
  symr; rprep; rifs; simpl; try (exfalso; lra); try reflexivity; cells ltac:(field; lra).
Qed.
