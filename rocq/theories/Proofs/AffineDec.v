(** * Decomposition of affine transforms; affine maps of the plane (C19, C20) *)

From Coq Require Import String List ZArith Bool Reals Lra Lia.
From Verif.Proofs Require Import AffTac.
From Verif.Spec Require Import ScalarSpec.
(* props: From Verif.Spec Require Import Linear Geometry Affine ScalarSpec. *)
Import ListNotations.
Local Open Scope R_scope.

(** ** C20 *)
Lemma C20_action_ok : forall t s r p a, length t = 2%nat -> length s = 2%nat -> length r = 4%nat -> length p = 2%nat ->
  moves2 (transl2 t) p (vadd p t) /\
  moves2 (scaling2 s) p [at_ s 0 * at_ p 0; at_ s 1 * at_ p 1] /\
  moves2 (aff2 r t) p (vadd (mvec 2 2 r p) t) /\
  moves2 (rot2 a) p (cmul [cos a; sin a] p).
Proof. alg. Qed.
Lemma C20_make_ok :
  (forall t, length t = 2%nat -> computes RS glm_translate2d_make [Out 9; In (fl t)] VVoid [fl (transl2 t)]) /\
  (forall s, length s = 2%nat -> computes RS glm_scale2d_make [Out 9; In (fl s)] VVoid [fl (scaling2 s)]) /\
  (forall a, computes RS glm_rotate2d_make [Out 9; Val (VF a)] VVoid [fl (rot2 a)]).
Proof. repeat split; ago. Qed.
Lemma C20_translate_ok :
  (forall m t, length m = 9%nat -> length t = 2%nat -> computes RS glm_translate2d [InOut (fl m); In (fl t)] VVoid [fl (mmul 3 m (transl2 t))]) /\
  (forall m t, length m = 9%nat -> length t = 2%nat -> computes RS glm_translate2d_to [InA (fl m); In (fl t); Out 9] VVoid [fl (mmul 3 m (transl2 t))]) /\
  (forall m x, length m = 9%nat -> computes RS glm_translate2d_x [InOut (fl m); Val (VF x)] VVoid [fl (mmul 3 m (transl2 [x; 0]))]) /\
  (forall m x, length m = 9%nat -> computes RS glm_translate2d_y [InOut (fl m); Val (VF x)] VVoid [fl (mmul 3 m (transl2 [0; x]))]).
Proof. repeat split; ago. Qed.
Lemma C20_scale_ok :
  (forall m t, length m = 9%nat -> length t = 2%nat -> computes RS glm_scale2d [InOut (fl m); In (fl t)] VVoid [fl (mmul 3 m (scaling2 t))]) /\
  (forall m t, length m = 9%nat -> length t = 2%nat -> computes RS glm_scale2d_to [InA (fl m); In (fl t); Out 9] VVoid [fl (mmul 3 m (scaling2 t))]) /\
  (forall m x, length m = 9%nat -> computes RS glm_scale2d_uni [InOut (fl m); Val (VF x)] VVoid [fl (mmul 3 m (scaling2 [x; x]))]).
Proof. repeat split; ago. Qed.
Lemma C20_rotate_ok :
  (forall m a, length m = 9%nat -> computes RS glm_rotate2d [InOut (fl m); Val (VF a)] VVoid [fl (mmul 3 m (rot2 a))]) /\
  (forall m a, length m = 9%nat -> computes RS glm_rotate2d_to [InA (fl m); Val (VF a); Out 9] VVoid [fl (mmul 3 m (rot2 a))]).
Proof. repeat split; ago. Qed.
Lemma C20_rotation_ok : forall a b, mmul 3 (rot2 a) (rot2 b) = rot2 (a + b) /\ rot2 0 = mid 3 /\ det 3 (rot2 a) = 1.
Proof.
  intros. unfold rot2, aff2. rewrite cos_plus, sin_plus, cos_0, sin_0. pose proof (sin2_cos2 a). unfold Rsqr in *.
  repeat split; lcbv; cells ltac:(try ring; try lra).
Qed.

(** ** C19 *)
Lemma C19_scalev_ok : forall x y z w, length x = 4%nat -> length y = 4%nat -> length z = 4%nat -> length w = 4%nat ->
  computes RS glm_decompose_scalev [In (fl (x ++ y ++ z ++ w)); Out 3] VVoid
    [fl [norm (firstn 3 x); norm (firstn 3 y); norm (firstn 3 z)]].
Proof. intros; change (T RS) with R in *; unlists. symr; rprep; try domain; rcells. Qed.
(** columns of length <> 0: the three results multiply to the input; if moreover the columns are
    orthogonal the second is a rotation *)
Lemma C19_decompose_ok : forall r t, length r = 9%nat -> length t = 3%nat ->
  norm2 (firstn 3 r) <> 0 -> norm2 (firstn 3 (skipn 3 r)) <> 0 -> norm2 (skipn 6 r) <> 0 ->
  exists q s, length q = 9%nat /\ length s = 3%nat /\
    computes RS glm_decompose [In (fl (aff r t)); Out 4; Out 16; Out 3] VVoid [fl (t ++ [1]); fl (aff q [0; 0; 0]); fl s] /\
    computes RS glm_decompose_rs [In (fl (aff r t)); Out 16; Out 3] VVoid [fl (aff q [0; 0; 0]); fl s] /\
    mmul 4 (transl t) (mmul 4 (aff q [0; 0; 0]) (scaling s)) = aff r t /\
    (mmul 3 (transp 3 3 r) r = diag3 [norm2 (firstn 3 r); norm2 (firstn 3 (skipn 3 r)); norm2 (skipn 6 r)] -> rotation q).
Proof.
  intros r t Lr Lt X Y Z.
  set (sg := if Rlt_dec (det 3 r) 0 then -1 else 1).
  set (nx := norm (firstn 3 r)). set (ny := norm (firstn 3 (skipn 3 r))). set (nz := norm (skipn 6 r)).
  assert (G : forall v, norm2 v <> 0 -> 0 < norm v).
  { intros v N. unfold norm. apply sqrt_lt_R0. pose proof (norm2_nonneg v). lra. }
  assert (Px : 0 < nx) by (apply G; auto). assert (Py : 0 < ny) by (apply G; auto). assert (Pz : 0 < nz) by (apply G; auto).
  exists (vscale (sg / nx) (firstn 3 r) ++ vscale (sg / ny) (firstn 3 (skipn 3 r)) ++ vscale (sg / nz) (skipn 6 r)), [sg * nx; sg * ny; sg * nz].
  assert (D1 : det 3 r = rdot (vcross (firstn 3 r) (firstn 3 (skipn 3 r))) (skipn 6 r)) by (clear - Lr; alg).
  assert (S1 : sg * sg = 1) by (unfold sg; destruct Rlt_dec; lra).
  split; [rewrite !app_length; unfold vscale; rewrite !map_length; unlists; reflexivity|]. split; [reflexivity|].
  split; [|split]; [| |split].
  - revert X Y Z Px Py Pz. unfold nx, ny, nz, sg. rewrite D1. clear - Lr Lt. au. unlists. lcbv. intros.
    symr; rprep; try domain. all: rifs; try (exfalso; lra); unfold Rdiv; cells ltac:(try ring).
  - revert X Y Z Px Py Pz. unfold nx, ny, nz, sg. rewrite D1. clear - Lr Lt. au. unlists. lcbv. intros.
    symr; rprep; try domain. all: rifs; try (exfalso; lra); unfold Rdiv; cells ltac:(try ring).
  - clear - Lr Lt Px Py Pz S1. clearbody nx ny nz sg. au. unlists. lcbv. cells ltac:(try (field [S1]; repeat split; lra)).
  - intros O.
    assert (Nx : nx * nx = norm2 (firstn 3 r)) by apply norm_sq. assert (Ny : ny * ny = norm2 (firstn 3 (skipn 3 r))) by apply norm_sq.
    assert (Nz : nz * nz = norm2 (skipn 6 r)) by apply norm_sq.
    assert (SD : sg * det 3 r = nx * ny * nz).
    { assert (D2 : det 3 r * det 3 r = (nx * ny * nz) * (nx * ny * nz)).
      { transitivity (det 3 (mmul 3 (transp 3 3 r) r)). clear - Lr; alg. rewrite O. rewrite <- Nx, <- Ny, <- Nz. clear. au. lcbv. ring. }
      assert (P : 0 < nx * ny * nz) by (repeat apply Rmult_lt_0_compat; auto).
      unfold sg. destruct Rlt_dec; [|]; apply Rsqr_inj; unfold Rsqr; nra. }
    revert O. rewrite <- Nx, <- Ny, <- Nz. revert SD Nx Ny Nz. clear - Lr Px Py Pz S1. clearbody nx ny nz sg. unfold rotation, orthonormal.
    destruct r as [|a [|b [|c [|d [|e [|f [|g [|h [|i [|? ?]]]]]]]]]]; try discriminate.
    au. lcbv. intros SD Nx Ny Nz O. injection O. intros.
    assert (Q : forall p q X, 0 < p -> 0 < q -> X = 0 -> sg * sg * X / (p * q) = 0) by (intros; subst; field; lra).
    split.
    + cells ltac:(idtac); match goal with
        | |- sg / ?p * _ * (sg / ?q * _) + sg / ?p * _ * (sg / ?q * _) + sg / ?p * _ * (sg / ?q * _) = 0 =>
            match goal with H : ?X = 0 |- ?l = 0 => let K := fresh in assert (K : l = sg * sg * X / (p * q)) by (field; lra); rewrite K; apply Q; auto end
        | |- sg / ?p * ?a * (sg / ?p * ?a) + sg / ?p * ?b * (sg / ?p * ?b) + sg / ?p * ?c * (sg / ?p * ?c) = 1 =>
            transitivity (sg * sg * (a * a + b * b + c * c) / (p * p)); [field; lra|]; rewrite S1, <- ?Nx, <- ?Ny, <- ?Nz; field; lra
        end.
    + match type of SD with _ * ?D = _ => transitivity (sg * sg * (sg * D) / (nx * ny * nz)); [field; repeat split; lra|] end.
      rewrite S1, SD. field. repeat split; lra.
Qed.
Lemma C19_ex : let r := [0; 2; 0; -3; 0; 0; 0; 0; -4] in
  norm2 (firstn 3 r) <> 0 /\ norm2 (firstn 3 (skipn 3 r)) <> 0 /\ norm2 (skipn 6 r) <> 0 /\
  mmul 3 (transp 3 3 r) r = diag3 [norm2 (firstn 3 r); norm2 (firstn 3 (skipn 3 r)); norm2 (skipn 6 r)].
Proof. cbv zeta. au. lcbv. repeat split; cells ltac:(try lra). all: lra. Qed.
(** a column of length zero: division by zero *)
Lemma C19_zero_scale_ok : forall r t, length r = 9%nat -> length t = 3%nat ->
  norm2 (firstn 3 r) = 0 \/ norm2 (firstn 3 (skipn 3 r)) = 0 \/ norm2 (skipn 6 r) = 0 ->
  aborts RS glm_decompose [In (fl (aff r t)); Out 4; Out 16; Out 3] XFloatDomain.
Proof.
  intros r t Lr Lt. 
  destruct r as [|a [|b [|c [|d [|e [|f [|g [|h [|i [|? ?]]]]]]]]]]; try discriminate. un3 t x y z.
  au. lcbv. intros H. rabort.
  all: repeat match goal with H : _ \/ _ |- _ => destruct H as [H|H] end;
    match goal with H : _ + _ = 0 |- _ => rewrite ?H, ?sqrt_0 in * end; try contradiction; try lra.
Qed.
(** glm_uniscaled: are the three column lengths equal up to the tolerance *)
Lemma C19_uniscaled_ok : forall x y z w, length x = 4%nat -> length y = 4%nat -> length z = 4%nat -> length w = 4%nat ->
  let n := [norm (firstn 3 x); norm (firstn 3 y); norm (firstn 3 z)] in
  computes RS glm_uniscaled [In (fl (x ++ y ++ z ++ w))] (VB (all_close n (repeat (at_ n 0) 3))) [].
Proof.
  intros; change (T RS) with R in *; unlists. unfold n, all_close; symr; rprep; try domain. cbv [forallb map combine fst snd close tol repeat].
  rifs; try reflexivity; exfalso; first [contradiction | lra].
Qed.
