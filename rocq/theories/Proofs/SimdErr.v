(** * Binary32: rounding error bounds in the SIMD builds (C72) *)

From Coq Require Import String List ZArith Bool Reals Lra Lia Psatz Floats.SpecFloat.
From Flocq Require Import Core.
From Verif Require Import MiniC Sym SymSound Contract SymCall SymTac Tac RScalar Cglm B32.
From Verif.Simd Require Import sse2 avx fma neon neon32 wasm.
From Verif.Spec Require Import Linear Quaternion Float32 Bounds Lanes.
From Verif.Proofs Require Import RTac Quat Flo FloErr FloFma Ieee IeeeId IeeeErr Lanes.
Import ListNotations.
(* props: From Coq Require Import Reals Floats.SpecFloat. *)
(* props: From Verif Require Import B32. *)
(* props: From Verif.Simd Require Import sse2 avx fma neon neon32 wasm. *)
(* props: From Verif.Spec Require Import Float32 Bounds Lanes. *)
Local Open Scope R_scope.

Lemma near_qe : forall n e x m, qallnum e -> (qwt e <= n)%nat -> qund e <= INR n * tiny -> x = qev e -> m = qmaj e -> near1 n (qbfl e) x m.
Proof.
  intros n e x m N W U -> -> F. unfold gamma. pose proof (qpoly_err e N F). pose proof (pow_mono _ _ W). pose proof (qmaj_pos e).
  assert (((1 + u) ^ qwt e - 1) * qmaj e <= ((1 + u) ^ n - 1) * qmaj e) by (apply Rmult_le_compat_r; lra). lra.
Qed.
Lemma zlit : rval (b_lit 0 1) = 0. Proof. reflexivity. Qed.
Ltac qreif t := lazymatch t with
  | SFadd prec emax ?a ?b => let x := qreif a in let y := qreif b in constr:(QAdd x y)
  | SFsub prec emax ?a ?b => let x := qreif a in let y := qreif b in constr:(QSub x y)
  | SFmul prec emax ?a ?b => let x := qreif a in let y := qreif b in constr:(QMul x y)
  | SFopp ?a => let x := qreif a in constr:(QOpp x)
  | b_fma ?a ?b ?c => let x := qreif a in let y := qreif b in let z := qreif c in constr:(QFma x y z)
  | ?x => constr:(QV x)
  end.
Ltac qnumgo := cbn [qallnum]; repeat match goal with |- number _ => assumption || (split; reflexivity) | |- _ /\ _ => split end.
Ltac qundgo := rewrite tiny_eta; pose proof eta_pos; cbn [qund qwt qmaj INR max Nat.max Nat.add pow]; unfold u; lra.
Ltac qnear1go := lazymatch goal with
  | |- near1 ?n ?t ?x ?m => let e := qreif t in change (near1 n (qbfl e) x m);
     apply near_qe; [qnumgo|cbn [qwt]; lia|qundgo|cbn [qev]; unfold rabs; rewrite ?zlit; ring|cbn [qmaj]; unfold rabs; rewrite ?zlit, ?Rabs_R0; ring]
  end.
Ltac qneargo := lazymatch goal with |- near _ _ _ _ => cbn [map]; cbv [cross_abs qmul_abs nth]; qu; lcbv; cbv [near]; repeat match goal with |- _ /\ _ => split end; try exact I; qnear1go end.
Ltac qfin1go := lazymatch goal with
  | |- finite ?t = true => let e := qreif t in change (finite (qbfl e) = true);
     apply (qpoly_fin B60 e); [qnumgo|cbn [qcapped]; repeat split; try (apply mod_cap; assumption); cbn [qcap]; rewrite ?big_num, ?zlit, ?Rabs_R0; pose proof eta_pos; pose proof eta_1; unfold u, B60; lra]
  end.
Ltac qfingo := cbn [app] in *; mods; repeat (apply Forall_cons; [qfin1go|]); try apply Forall_nil.
Ltac qerrgo n := intros; unlists; nums; exl n; split; [brun|split; [qneargo|intros; qfingo]].

Lemma C72_dot_ok : forall l, Forall (close_dot l 4) [sse2_glm_vec4_dot; avx_glm_vec4_dot; fma_glm_vec4_dot; neon_glm_vec4_dot; neon32_glm_vec4_dot; wasm_glm_vec4_dot].
Proof.
  intros l. repeat (apply Forall_cons || apply Forall_nil); intros a b; intros; unlists; nums; (eexists; split; [brun|]); cbn [map]; lcbv;
    (split; [qnear1go|intros; cbn [app] in *; mods; qfin1go]).
Qed.
Lemma C72_mulv_ok : forall l, Forall (close_mvec l 4) [sse2_glm_mat4_mulv; avx_glm_mat4_mulv; fma_glm_mat4_mulv; neon_glm_mat4_mulv; neon32_glm_mat4_mulv; wasm_glm_mat4_mulv].
Proof. intros l. repeat (apply Forall_cons || apply Forall_nil); intros m v; qerrgo 4%nat. Qed.
Lemma C72_mat2_mul_ok : forall l, Forall (close_mmul l 2) [sse2_glm_mat2_mul; avx_glm_mat2_mul; fma_glm_mat2_mul; neon_glm_mat2_mul; neon32_glm_mat2_mul; wasm_glm_mat2_mul].
Proof. intros l. repeat (apply Forall_cons || apply Forall_nil); intros a b; qerrgo 4%nat. Qed.
Lemma C72_mat3_mul_ok : forall l, Forall (close_mmul l 3) [sse2_glm_mat3_mul; avx_glm_mat3_mul; fma_glm_mat3_mul; wasm_glm_mat3_mul].
Proof. intros l. repeat (apply Forall_cons || apply Forall_nil); intros a b; qerrgo 9%nat. Qed.
Lemma C72_quat_mul_ok : forall l, Forall (close_qmul l) [sse2_glm_quat_mul; avx_glm_quat_mul; fma_glm_quat_mul; neon_glm_quat_mul; neon32_glm_quat_mul; wasm_glm_quat_mul].
Proof. intros l. repeat (apply Forall_cons || apply Forall_nil); intros a b; qerrgo 4%nat. Qed.
Lemma C72_mat4_mul_ok : forall l, Forall (close_mmul l 4) [sse2_glm_mat4_mul; avx_glm_mat4_mul; fma_glm_mat4_mul; neon_glm_mat4_mul; neon32_glm_mat4_mul; wasm_glm_mat4_mul].
Proof. intros l. repeat (apply Forall_cons || apply Forall_nil); intros a b; qerrgo 16%nat. Qed.

(** the fused helpers round once, the others do not *)
Lemma fma_once : forall x y z, number x -> number y -> number z -> once (b_fma x y z) (rval x * rval y + rval z).
Proof.
  intros x y z Nx Ny Nz F. destruct (fma_rnd _ _ _ Nx Ny Nz) as [E _]. rewrite (E F).
  destruct (err_any (rval x * rval y + rval z)) as (d & e & D & H & _ & ->). set (t := rval x * rval y + rval z).
  replace (t * (1 + d) + e - t) with (d * t + e) by ring. eapply Rle_trans; [apply Rabs_triang|]. rewrite Rabs_mult. apply Rplus_le_compat; auto.
  apply Rmult_le_compat_r; auto. apply Rabs_pos.
Qed.
Lemma opp_num : forall x, number x -> number (SFopp x).
Proof. intros x [V F]. split; [apply opp_valid; auto|rewrite opp_finite; auto]. Qed.
Ltac onego := intros; un; nums; eapply (ex_intro _ [_; _; _; _]); split; [apply takes_intro; intros; cbv -[firstn length b_fma SFopp]; rewrite ?firstn_all; reflexivity|];
  repeat (apply Forall2_cons || apply Forall2_nil);
  match goal with |- once (b_fma ?x ?y ?z) ?t => replace t with (rval x * rval y + rval z) by (rewrite ?opp_value; ring) end; apply fma_once; auto using opp_num.
Lemma C72_fused_ok : forall l a b c, four a -> four b -> four c -> Forall number a -> Forall number b -> Forall number c ->
  Forall (fun f => exists r, takes (B32 l) f [a; b; c] (lanes r) /\ Forall2 once r (each3 (fun x y z => rval x * rval y + rval z) a b c)) [fma_glmm_fmadd; neon_glmm_fmadd] /\
  Forall (fun f => exists r, takes (B32 l) f [a; b; c] (lanes r) /\ Forall2 once r (each3 (fun x y z => - (rval x * rval y) + rval z) a b c)) [fma_glmm_fnmadd; neon_glmm_fnmadd] /\
  Forall (fun f => exists r, takes (B32 l) f [a; b; c] (lanes r) /\ Forall2 once r (each3 (fun x y z => rval x * rval y - rval z) a b c)) [fma_glmm_fmsub; neon_glmm_fmsub] /\
  Forall (fun f => exists r, takes (B32 l) f [a; b; c] (lanes r) /\ Forall2 once r (each3 (fun x y z => - (rval x * rval y) - rval z) a b c)) [fma_glmm_fnmsub].
Proof. intros. repeat split; repeat (apply Forall_cons || apply Forall_nil); onego. Qed.
(** (1 + 2^-12)^2 - (1 + 2^-11) is 2^-24; rounded twice, 0 *)
Definition exf : b32 := S754_finite false 8390656 (-23).
Definition exg : b32 := S754_finite true 8392704 (-23).
Lemma exfv : rval exf = 1 + / 4096.
Proof. unfold rval, exf. change (-23)%Z with (Z.opp (Z.of_nat 23)). rewrite powerRZ_neg', <- pow_powerRZ, pow_IZR. simpl (2 ^ _)%Z. lra. Qed.
Lemma exgv : rval exg = - (1 + / 2048).
Proof. unfold rval, exg. change (-23)%Z with (Z.opp (Z.of_nat 23)). rewrite powerRZ_neg', <- pow_powerRZ, pow_IZR. simpl (2 ^ _)%Z. lra. Qed.
Lemma exnum : number exf /\ number exg.
Proof. repeat split. Qed.
Lemma C72_unfused_refuted_ok : forall l, Forall (fun f => exists a b c r, four a /\ four b /\ four c /\ Forall number a /\ Forall number b /\ Forall number c /\
  takes (B32 l) f [a; b; c] (lanes r) /\ Forall (fun x => finite x = true) r /\ ~ Forall2 once r (each3 (fun x y z => rval x * rval y + rval z) a b c))
  [sse2_glmm_fmadd; avx_glmm_fmadd; neon32_glmm_fmadd; wasm_glmm_fmadd].
Proof.
  intros l. destruct exnum as [F G].
  repeat (apply Forall_cons || apply Forall_nil); exists (repeat exf 4), (repeat exf 4), (repeat exg 4), (repeat (S754_zero false) 4);
    (split; [reflexivity|]); (split; [reflexivity|]); (split; [reflexivity|]); (split; [repeat (apply Forall_cons || apply Forall_nil); auto|]);
    (split; [repeat (apply Forall_cons || apply Forall_nil); auto|]); (split; [repeat (apply Forall_cons || apply Forall_nil); auto|]);
    (split; [apply takes_intro; intros; cbv -[firstn length]; rewrite ?firstn_all; reflexivity|]); (split; [repeat (apply Forall_cons || apply Forall_nil); reflexivity|]);
    intros H; inversion H as [|? ? ? ? O]; subst; change (once (S754_zero false) (rval exf * rval exf + rval exg)) in O; specialize (O eq_refl); rewrite exfv, exgv in O; change (rval (S754_zero false)) with 0 in O;
    unfold u, eta in O; change (-24)%Z with (Z.opp (Z.of_nat 24)) in O; change (-150)%Z with (Z.opp (Z.of_nat 150)) in O; rewrite !powerRZ_neg', <- !pow_powerRZ, !pow_IZR in O; simpl (2 ^ _)%Z in O;
    replace ((1 + / 4096) * (1 + / 4096) + - (1 + / 2048)) with (/ 16777216) in O by lra; rewrite Rabs_left in O by lra; rewrite Rabs_pos_eq in O by lra; lra.
Qed.
Lemma C72_dot_ex : let x := S754_finite false 8388609 (-23) in
  Forall moderate [x; x; x; x] /\ rval (SFmul prec emax x x) <> rval x * rval x.
Proof. split; [repeat (apply Forall_cons; [apply ex_mod|]); apply Forall_nil|exact ex_err]. Qed.
Lemma C72_mulv_ex : let x := S754_finite false 8388609 (-23) in
  length (repeat x 16) = 16%nat /\ Forall moderate (repeat x 16 ++ repeat x 4) /\ rval (SFmul prec emax x x) <> rval x * rval x.
Proof. split; [reflexivity|]. split; [simpl; repeat (apply Forall_cons; [apply ex_mod|]); apply Forall_nil|exact ex_err]. Qed.
Lemma C72_mat4_mul_ex : let x := S754_finite false 8388609 (-23) in
  length (repeat x 16) = 16%nat /\ Forall moderate (repeat x 16 ++ repeat x 16) /\ rval (SFmul prec emax x x) <> rval x * rval x.
Proof. split; [reflexivity|]. split; [simpl; repeat (apply Forall_cons; [apply ex_mod|]); apply Forall_nil|exact ex_err]. Qed.
Lemma C72_fused_ex : let x := S754_finite false 8390656 (-23) in let z := S754_finite true 8392704 (-23) in
  four (repeat x 4) /\ four (repeat z 4) /\ Forall number (repeat x 4) /\ Forall number (repeat z 4) /\
  rval x * rval x + rval z = / 16777216 /\ finite (b_fma x x z) = true /\ 0 < rval (b_fma x x z).
Proof.
  cbv zeta. change (S754_finite false 8390656 (-23)) with exf. change (S754_finite true 8392704 (-23)) with exg.
  destruct exnum as [F G]. repeat split; try (simpl; repeat (apply Forall_cons || apply Forall_nil); auto; fail).
  - rewrite exfv, exgv. lra.
  - vm_compute. lra.
Qed.
