(** * Binary32: rounding error bounds (C64) *)

From Coq Require Import String List ZArith Bool Reals Lra Lia Psatz Floats.SpecFloat.
From Flocq Require Import Core.
From Verif Require Import MiniC Sym SymSound Contract SymCall SymTac Tac RScalar Cglm B32.
From Verif.Spec Require Import Linear Quaternion Float32.
From Verif.Proofs Require Import RTac Quat Flo FloErr Ieee IeeeId.
Import ListNotations.
(* props: From Coq Require Import Reals Floats.SpecFloat. *)
(* props: From Verif Require Import B32. *)
(* props: From Verif.Spec Require Import Linear Quaternion Float32. *)
Local Open Scope R_scope.

Lemma tiny_eta : tiny = 2 * eta.
Proof. unfold tiny, eta. change (-149)%Z with (1 + -150)%Z. rewrite powerRZ_add by lra. simpl powerRZ at 1. lra. Qed.
Lemma near_pe : forall n e x m, allnum e -> wt e = n -> und e <= INR n * tiny -> x = ev e -> m = maj e -> near1 n (bfl e) x m.
Proof. intros n e x m N W U -> -> F. subst n. unfold gamma. pose proof (poly_err e N F). lra. Qed.

Ltac reif t := lazymatch t with
  | SFadd prec emax ?a ?b => let x := reif a in let y := reif b in constr:(PAdd x y)
  | SFsub prec emax ?a ?b => let x := reif a in let y := reif b in constr:(PSub x y)
  | SFmul prec emax ?a ?b => let x := reif a in let y := reif b in constr:(PMul x y)
  | ?x => constr:(PV x)
  end.
Ltac numgo := cbn [allnum]; repeat match goal with |- number _ => assumption | |- _ /\ _ => split end.
Ltac undgo := rewrite tiny_eta; pose proof eta_pos; cbn [und wt maj INR max Nat.max Nat.add pow]; unfold u; lra.
Ltac near1go := lazymatch goal with
  | |- near1 ?n ?t ?x ?m => let e := reif t in change (near1 n (bfl e) x m);
     apply near_pe; [numgo|reflexivity|undgo|cbn [ev]; unfold rabs; ring|cbn [maj]; unfold rabs; ring]
  end.
Ltac neargo := lazymatch goal with |- near _ _ _ _ => cbn [map]; cbv [cross_abs qmul_abs nth]; qu; lcbv; cbv [near]; repeat match goal with |- _ /\ _ => split end; try exact I; near1go end.
Ltac errgo n := intros; unlists; nums; exl n; split; [brun|split; [neargo|intros]].
(** no overflow when every input is moderate *)
Definition B60 : R := 1152921504606846976.
Lemma b60 : powerRZ 2 60 = B60. Proof. change 60%Z with (Z.of_nat 60). rewrite <- pow_powerRZ, pow_IZR. reflexivity. Qed.
Lemma big_num : big = 340282366920938463463374607431768211456. Proof. reflexivity. Qed.
Lemma eta_1 : eta < 1.
Proof. unfold eta. change (-150)%Z with (Z.opp 150). rewrite powerRZ_neg'. rewrite <- Rinv_1. apply Rinv_lt_contravar; [rewrite Rmult_1_l; apply powerRZ_lt; lra|].
  change 150%Z with (Z.of_nat 150). rewrite <- pow_powerRZ. apply Rlt_pow_R1; [lra|lia]. Qed.
Lemma mod_cap : forall x, moderate x -> Rabs (rval x) <= B60.
Proof. intros x [_ H]. rewrite <- b60. exact H. Qed.
Ltac mods := repeat match goal with H : Forall moderate (_ :: _) |- _ => inversion_clear H end.
Ltac fin1go := lazymatch goal with
  | |- finite ?t = true => let e := reif t in change (finite (bfl e) = true);
     apply (poly_fin B60 e); [numgo|cbn [capped]; repeat split; try (apply mod_cap; assumption); cbn [cap]; rewrite big_num; pose proof eta_pos; pose proof eta_1; unfold u, B60; lra]
  end.
Ltac fingo := mods; repeat (apply Forall_cons; [fin1go|]); try apply Forall_nil.
(** dot products *)
Lemma C64_dot_ok : forall l,
  (forall a b, length a = 2%nat -> length b = 2%nat -> Forall number a -> Forall number b ->
    exists r, computes (B32 l) glm_vec2_dot [In (fl a); In (fl b)] (VF r) [] /\ near1 2 r (rdot (map rval a) (map rval b)) (rdot (map rabs a) (map rabs b)) /\
      (Forall moderate a -> Forall moderate b -> finite r = true)) /\
  (forall a b, length a = 3%nat -> length b = 3%nat -> Forall number a -> Forall number b ->
    exists r, computes (B32 l) glm_vec3_dot [In (fl a); In (fl b)] (VF r) [] /\ near1 3 r (rdot (map rval a) (map rval b)) (rdot (map rabs a) (map rabs b)) /\
      (Forall moderate a -> Forall moderate b -> finite r = true)) /\
  (forall a b, length a = 4%nat -> length b = 4%nat -> Forall number a -> Forall number b ->
    exists r, computes (B32 l) glm_vec4_dot [In (fl a); In (fl b)] (VF r) [] /\ near1 4 r (rdot (map rval a) (map rval b)) (rdot (map rabs a) (map rabs b)) /\
      (Forall moderate a -> Forall moderate b -> finite r = true)).
Proof. idall; intros; unlists; nums; (eexists; split; [brun|]); cbn [map]; lcbv; (split; [near1go|intros; mods; fin1go]). Qed.
(** matrix times vector *)
Lemma C64_mulv_ok : forall l,
  (forall m v, length m = 4%nat -> length v = 2%nat -> Forall number m -> Forall number v ->
    exists r, computes (B32 l) glm_mat2_mulv [In (fl m); In (fl v); Out 2] VVoid [fl r] /\
      near 2 r (mvec 2 2 (map rval m) (map rval v)) (mvec 2 2 (map rabs m) (map rabs v)) /\
      (Forall moderate m -> Forall moderate v -> Forall (fun x => finite x = true) r)) /\
  (forall m v, length m = 9%nat -> length v = 3%nat -> Forall number m -> Forall number v ->
    exists r, computes (B32 l) glm_mat3_mulv [In (fl m); InA (fl v); Out 3] VVoid [fl r] /\
      near 3 r (mvec 3 3 (map rval m) (map rval v)) (mvec 3 3 (map rabs m) (map rabs v)) /\
      (Forall moderate m -> Forall moderate v -> Forall (fun x => finite x = true) r)) /\
  (forall m v, length m = 16%nat -> length v = 4%nat -> Forall number m -> Forall number v ->
    exists r, computes (B32 l) glm_mat4_mulv [In (fl m); InA (fl v); Out 4] VVoid [fl r] /\
      near 4 r (mvec 4 4 (map rval m) (map rval v)) (mvec 4 4 (map rabs m) (map rabs v)) /\
      (Forall moderate m -> Forall moderate v -> Forall (fun x => finite x = true) r)).
Proof. idall; [errgo 2%nat|errgo 3%nat|errgo 4%nat]; fingo. Qed.
(** matrix products *)
Lemma C64_mat_mul_ok : forall l,
  (forall a b, length a = 4%nat -> length b = 4%nat -> Forall number a -> Forall number b ->
    exists r, computes (B32 l) glm_mat2_mul [In (fl a); In (fl b); Out 4] VVoid [fl r] /\
      near 2 r (mmul 2 (map rval a) (map rval b)) (mmul 2 (map rabs a) (map rabs b)) /\
      (Forall moderate a -> Forall moderate b -> Forall (fun x => finite x = true) r)) /\
  (forall a b, length a = 9%nat -> length b = 9%nat -> Forall number a -> Forall number b ->
    exists r, computes (B32 l) glm_mat3_mul [In (fl a); In (fl b); Out 9] VVoid [fl r] /\
      near 3 r (mmul 3 (map rval a) (map rval b)) (mmul 3 (map rabs a) (map rabs b)) /\
      (Forall moderate a -> Forall moderate b -> Forall (fun x => finite x = true) r)) /\
  (forall a b, length a = 16%nat -> length b = 16%nat -> Forall number a -> Forall number b ->
    exists r, computes (B32 l) glm_mat4_mul [In (fl a); In (fl b); Out 16] VVoid [fl r] /\
      near 4 r (mmul 4 (map rval a) (map rval b)) (mmul 4 (map rabs a) (map rabs b)) /\
      (Forall moderate a -> Forall moderate b -> Forall (fun x => finite x = true) r)).
Proof. idall; [errgo 4%nat|errgo 9%nat|errgo 16%nat]; fingo. Qed.
(** cross and Hamilton products *)
Lemma C64_products_ok : forall l,
  (forall a b, length a = 3%nat -> length b = 3%nat -> Forall number a -> Forall number b ->
    exists r, computes (B32 l) glm_vec3_cross [In (fl a); In (fl b); Out 3] VVoid [fl r] /\
      near 2 r (vcross (map rval a) (map rval b)) (cross_abs (map rabs a) (map rabs b)) /\
      (Forall moderate a -> Forall moderate b -> Forall (fun x => finite x = true) r)) /\
  (forall p q, length p = 4%nat -> length q = 4%nat -> Forall number p -> Forall number q ->
    exists r, computes (B32 l) glm_quat_mul [In (fl p); In (fl q); Out 4] VVoid [fl r] /\
      near 4 r (qmul (map rval p) (map rval q)) (qmul_abs (map rabs p) (map rabs q)) /\
      (Forall moderate p -> Forall moderate q -> Forall (fun x => finite x = true) r)).
Proof. idall; [errgo 3%nat|errgo 4%nat]; fingo. Qed.

(** moderate numbers whose product is not representable: the error is really there *)
Lemma ex_mod : moderate (S754_finite false 8388609 (-23)).
Proof.
  split; [split; reflexivity|]. rewrite b60. unfold rabs, rval, B60. change (-23)%Z with (Z.opp (Z.of_nat 23)). rewrite powerRZ_neg', <- pow_powerRZ, pow_IZR. simpl (2 ^ _)%Z. rewrite Rabs_pos_eq; lra.
Qed.
Lemma ex_err : let x := S754_finite false 8388609 (-23) in rval (SFmul prec emax x x) <> rval x * rval x.
Proof.
  cbv zeta. change (SFmul prec emax (S754_finite false 8388609 (-23)) (S754_finite false 8388609 (-23))) with (S754_finite false 8388610 (-23)).
  unfold rval. change (-23)%Z with (Z.opp (Z.of_nat 23)). rewrite powerRZ_neg', <- pow_powerRZ, pow_IZR. simpl (2 ^ _)%Z. lra.
Qed.
Lemma C64_dot_ex : let x := S754_finite false 8388609 (-23) in
  Forall moderate [x; x; x] /\ rval (SFmul prec emax x x) <> rval x * rval x.
Proof. split; [repeat (apply Forall_cons; [apply ex_mod|]); apply Forall_nil|exact ex_err]. Qed.
Lemma C64_mulv_ex : let x := S754_finite false 8388609 (-23) in
  Forall moderate [x; x; x; x] /\ rval (SFmul prec emax x x) <> rval x * rval x.
Proof. split; [repeat (apply Forall_cons; [apply ex_mod|]); apply Forall_nil|exact ex_err]. Qed.
Lemma C64_mat_mul_ex : let x := S754_finite false 8388609 (-23) in
  Forall moderate [x; x; x; x] /\ rval (SFmul prec emax x x) <> rval x * rval x.
Proof. split; [repeat (apply Forall_cons; [apply ex_mod|]); apply Forall_nil|exact ex_err]. Qed.
Lemma C64_products_ex : let x := S754_finite false 8388609 (-23) in
  Forall moderate [x; x; x; x] /\ rval (SFmul prec emax x x) <> rval x * rval x.
Proof. split; [repeat (apply Forall_cons; [apply ex_mod|]); apply Forall_nil|exact ex_err]. Qed.
