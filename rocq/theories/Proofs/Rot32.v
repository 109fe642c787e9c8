(** * Accuracy of rotations in single precision (C81) *)

From Coq Require Import String List ZArith Bool Reals Lra Lia Psatz Floats.SpecFloat.
From Flocq Require Import Core Mult_error BinarySingleNaN.
From Verif Require Import MiniC Sym SymSound Contract SymCall SymTac Tac Cglm B32 RScalar.
From Verif.Spec Require Import Float32 Linear Geometry Affine Quaternion Approx Inverse32 Rot32.
From Verif.Proofs Require Import Flo FloErr Ieee IeeeId IeeeErr IeeeNorm ExactSound ApproxSound Layout RTac RExact Ranges View32.
From Verif.Proofs Require Tests32 ApproxEx.
Import ListNotations.
(* props: From Coq Require Import Reals Floats.SpecFloat. *)
(* props: From Verif Require Import B32. *)
(* props: From Verif.Spec Require Import Float32 Linear Geometry Affine Quaternion Approx Inverse32 Rot32. *)
Local Open Scope R_scope.

(** [x] is within [e] units of [r], which is at most [M] *)
Definition nb (M e : R) (x : b32) (r : R) : Prop := number x /\ Rabs r <= M /\ Rabs (rval x - r) <= e * u.
Lemma nb_le : forall M e x r, nb M e x r -> Rabs (rval x) <= M + e * u.
Proof. intros M e x r (_ & A & B). replace (rval x) with ((rval x - r) + r) by ring. eapply Rle_trans; [apply Rabs_triang|]. lra. Qed.
Lemma nb_mul : forall M e N f x y r s, nb M e x r -> nb N f y s -> 0 <= e <= 200 -> 0 <= f <= 200 -> 0 <= M <= 16 -> 0 <= N <= 16 -> nb (M * N) (M * f + N * e + M * N + 1 / 50) (fmul x y) (r * s).
Proof.
  intros M e N f x y r s X Y He Hf HM HN. pose proof (nb_le _ _ _ _ X) as X1. pose proof (nb_le _ _ _ _ Y) as Y1. destruct X as (Nx & Xr & Xe), Y as (Ny & Yr & Ye).
  pose proof u_small as U. pose proof eta_u. pose proof eta_pos. pose proof B60_1. assert (eu : 0 <= e * u <= / 10000) by nra. assert (fu : 0 <= f * u <= / 10000) by nra.
  assert (ET : eta <= u * / 1000) by lra.
  assert (MN : 0 <= M * N <= 256) by nra.
  assert (P : (M + e * u) * (N + f * u) <= M * N + / 200).
  { replace ((M + e * u) * (N + f * u)) with (M * N + M * (f * u) + (e * u) * N + (e * u) * (f * u)) by ring.
    assert (M * (f * u) <= 16 * / 10000) by (apply Rmult_le_compat; lra). assert (e * u * N <= / 10000 * 16) by (apply Rmult_le_compat; lra). assert (e * u * (f * u) <= / 10000 * / 10000) by (apply Rmult_le_compat; lra). lra. }
  destruct (mul_near x y (M + e * u) (N + f * u) Nx Ny X1 Y1) as [Z E]; [lra|]. split; auto. split; [rewrite Rabs_mult; apply Rmult_le_compat; auto using Rabs_pos|].
  assert (D : Rabs (rval x * rval y - r * s) <= (M + e * u) * (f * u) + N * (e * u)).
  { replace (rval x * rval y - r * s) with (rval x * (rval y - s) + s * (rval x - r)) by ring. eapply Rle_trans; [apply Rabs_triang|]. rewrite !Rabs_mult. apply Rplus_le_compat; apply Rmult_le_compat; auto using Rabs_pos. }
  assert (u * ((M + e * u) * (N + f * u)) <= u * (M * N + / 200)) by (apply Rmult_le_compat_l; lra).
  assert (Q : e * u * (f * u) <= / 250 * u). { replace (e * u * (f * u)) with (e * u * f * u) by ring. apply Rmult_le_compat_r; [lra|]. assert (e * u <= / 50000) by nra. replace (/ 250) with (/ 50000 * 200) by lra. apply Rmult_le_compat; lra. }
  replace (rval (fmul x y) - r * s) with ((rval (fmul x y) - rval x * rval y) + (rval x * rval y - r * s)) by ring. eapply Rle_trans; [apply Rabs_triang|]. lra.
Qed.
Lemma nb_add : forall M e N f x y r s, nb M e x r -> nb N f y s -> 0 <= e <= 200 -> 0 <= f <= 200 -> 0 <= M <= 16 -> 0 <= N <= 16 -> nb (M + N) (f + e + (M + N) + 1 / 100) (fadd x y) (r + s).
Proof.
  intros M e N f x y r s X Y He Hf HM HN. pose proof (nb_le _ _ _ _ X) as X1. pose proof (nb_le _ _ _ _ Y) as Y1. destruct X as (Nx & Xr & Xe), Y as (Ny & Yr & Ye).
  pose proof u_small as U. pose proof eta_u. pose proof eta_pos. pose proof B60_1. assert (eu : 0 <= e * u <= / 10000) by nra. assert (fu : 0 <= f * u <= / 10000) by nra.
  assert (L : Rabs (rval x + rval y) <= M + N + / 200) by (eapply Rle_trans; [apply Rabs_triang|]; lra).
  destruct (add_near x y _ Nx Ny L) as [Z E]; [lra|]. split; auto. split; [eapply Rle_trans; [apply Rabs_triang|]; lra|].
  replace (rval (fadd x y) - (r + s)) with ((rval (fadd x y) - (rval x + rval y)) + (rval x - r) + (rval y - s)) by ring.
  eapply Rle_trans; [apply Rabs_triang|]. pose proof (Rabs_triang (rval (fadd x y) - (rval x + rval y)) (rval x - r)). lra.
Qed.
Lemma nb_sub : forall M e N f x y r s, nb M e x r -> nb N f y s -> 0 <= e <= 200 -> 0 <= f <= 200 -> 0 <= M <= 16 -> 0 <= N <= 16 -> nb (M + N) (f + e + (M + N) + 1 / 100) (fsub x y) (r - s).
Proof.
  intros M e N f x y r s X Y He Hf HM HN. pose proof (nb_le _ _ _ _ X) as X1. pose proof (nb_le _ _ _ _ Y) as Y1. destruct X as (Nx & Xr & Xe), Y as (Ny & Yr & Ye).
  pose proof u_small as U. pose proof eta_u. pose proof eta_pos. pose proof B60_1. assert (eu : 0 <= e * u <= / 10000) by nra. assert (fu : 0 <= f * u <= / 10000) by nra.
  assert (L : Rabs (rval x - rval y) <= M + N + / 200) by (eapply Rle_trans; [apply tri|]; lra).
  destruct (sub_near x y _ Nx Ny L) as [Z E]; [lra|]. split; auto. split; [eapply Rle_trans; [apply tri|]; lra|].
  replace (rval (fsub x y) - (r - s)) with ((rval (fsub x y) - (rval x - rval y)) + ((rval x - r) - (rval y - s))) by ring.
  eapply Rle_trans; [apply Rabs_triang|]. pose proof (tri (rval x - r) (rval y - s)). lra.
Qed.
Lemma nb_opp : forall M e x r, nb M e x r -> nb M e (SFopp x) (- r).
Proof.
  intros M e x r (N & A & B). split; [apply Proofs.Tests32.opp_number; auto|]. rewrite Proofs.Tests32.opp_value, Rabs_Ropp. split; auto.
  replace (- rval x - - r) with (- (rval x - r)) by ring. rewrite Rabs_Ropp. auto.
Qed.
Lemma nb_0 : nb 0 0 (b_lit 0 1) 0.
Proof. split; [split; reflexivity|]. rewrite (proj1 Proofs.Tests32.v_ints), Rminus_0_r, Rabs_R0. lra. Qed.
Lemma nb_1 : nb 1 0 (b_lit 1 1) 1.
Proof. split; [split; reflexivity|]. rewrite (proj1 (proj2 Proofs.Tests32.v_ints)), Rabs_R1. rewrite Rminus_diag_eq, Rabs_R0 by auto. lra. Qed.
Lemma nb_in : forall x M, number x -> Rabs (rval x) <= M -> nb M 0 x (rval x).
Proof. intros. split; auto. split; auto. rewrite Rminus_diag_eq, Rabs_R0 by auto. lra. Qed.
Lemma sin_1 : forall x, Rabs (sin x) <= 1. Proof. intros. pose proof (SIN_bound x). apply Rabs_le. lra. Qed.
Lemma cos_1 : forall x, Rabs (cos x) <= 1. Proof. intros. pose proof (COS_bound x). apply Rabs_le. lra. Qed.
Lemma nb_trig : forall l x, accurate l -> number x -> nb 1 1 (l1 l OSin x) (sin (rval x)) /\ nb 1 1 (l1 l OCos x) (cos (rval x)).
Proof. intros l x L N. destruct (L x N) as (A & B & C & D). assert (PU : powerRZ 2 (-24) = u) by (unfold u; rewrite (p2n 24 : powerRZ 2 (-24) = _); reflexivity). rewrite PU in *. split; (split; [auto|split; [apply sin_1||apply cos_1|lra]]). Qed.
Lemma nb_cell : forall M e x r r' E, nb M e x r -> r = r' -> e * u <= E -> number x /\ Rabs (rval x - r') <= E.
Proof. intros M e x r r' E (A & _ & B) <- H. split; auto. lra. Qed.
(** the unit axis *)
Lemma nb_axis : forall a0 a1 a2, axis_ok [a0; a1; a2] -> let N := norm (map rval [a0; a1; a2]) in
  let n := fsqrt (fadd (fadd (fmul a0 a0) (fmul a1 a1)) (fmul a2 a2)) in let I := fdiv b1 n in
  SFltb n eps32 = false /\ nb 1 (61 / 10) (fmul a0 I) (rval a0 / N) /\ nb 1 (61 / 10) (fmul a1 I) (rval a1 / N) /\ nb 1 (61 / 10) (fmul a2 I) (rval a2 / N) /\
  normalized (map rval [a0; a1; a2]) = [rval a0 / N; rval a1 / N; rval a2 / N].
Proof.
  intros a0 a1 a2 (_ & F & HN) N n I. rewrite p20 in HN. assert (H58 : powerRZ 2 58 <= B60 / 2). { rewrite p2Z by lia. simpl (2 ^ 58)%Z. unfold B60. lra. }
  inversion_clear F as [|? ? N0 F']. inversion_clear F' as [|? ? N1 F]. inversion_clear F as [|? ? N2 _].
  assert (Z : forall r, Rabs (r - r) <= 0) by (intros; rewrite Rminus_diag_eq, Rabs_R0 by auto; lra).
  cbn [map] in N. destruct (unit_near a0 a1 a2 (rval a0) (rval a1) (rval a2) 0 N0 N1 N2) as (C & K0 & K1 & K2); auto; cbn [map] in HN; fold N in HN |- *; try (unfold u in *; lra).
  fold N in K0, K1, K2. fold n in C. fold n I in K0, K1, K2. split; [exact C|].
  assert (G : forall x r, nr (61 / 10 * u + 11 / 4 * 0 / N) x r -> nb 1 (61 / 10) x r) by (intros x r (A & B & D); split; auto; split; auto; unfold Rdiv in *; lra).
  split; [apply G; auto|]. split; [apply G; auto|]. split; [apply G; auto|]. cbn [map]. apply normalized3. fold N. unfold u in *; lra.
Qed.
Ltac nbs := unfold Rdiv; lra.
Ltac nbp := lazymatch goal with
  | H : nb _ _ ?x _ |- nb _ _ ?x _ => exact H
  | |- nb _ _ (fmul _ _) _ => eapply nb_mul; [nbp|nbp|nbs|nbs|nbs|nbs]
  | |- nb _ _ (fadd _ _) _ => eapply nb_add; [nbp|nbp|nbs|nbs|nbs|nbs]
  | |- nb _ _ (fsub _ _) _ => eapply nb_sub; [nbp|nbp|nbs|nbs|nbs|nbs]
  | |- nb _ _ (SFopp _) _ => apply nb_opp; nbp
  | |- nb _ _ b0 _ => exact nb_0
  | |- nb _ _ b1 _ => exact nb_1
  | |- nb _ _ (b_lit 0 1) _ => exact nb_0
  | |- nb _ _ (b_lit 1 1) _ => exact nb_1
  end.
Ltac ncell := eapply nb_cell; [nbp|cbv [rot4 aff build flat_map seq Rsum ent at_ rotmat rotated vadd vscale vcross rdot total map combine fst snd nth List.app fold_right fold_left quat axis_angle]; try (unfold Rdiv; ring)|pose proof u_small; unfold Rdiv; try lra].
Ltac hideK K0 K1 K2 := match type of K0 with nb _ _ ?x _ => match type of K1 with nb _ _ ?y _ => match type of K2 with nb _ _ ?z _ =>
  let k0 := fresh "k0" in let k1 := fresh "k1" in let k2 := fresh "k2" in set (k0 := x) in *; set (k1 := y) in *; set (k2 := z) in *; clearbody k0 k1 k2 end end end.
Lemma C81_rotate_make_ok : forall l angle axis, accurate l -> number angle -> axis_ok axis ->
  exists F, computes (B32 l) glm_rotate_make [Out 16; Val (VF angle); In (fl axis)] VVoid [fl F] /\
    within_all (43 * u) F (rot4 (normalized (map rval axis)) (rval angle)).
Proof.
  intros l angle axis L NA A. destruct axis as [|a0 [|a1 [|a2 [|]]]]; try discriminate (proj1 A). destruct (nb_axis a0 a1 a2 A) as (C & K0 & K1 & K2 & NN). cbv zeta in C, K0, K1, K2, NN. rewrite NN.
  destruct (nb_trig l angle L NA) as [S Co].
  eexists [_;_;_;_;_;_;_;_;_;_;_;_;_;_;_;_]. split; [brun|]. cbv beta. uset. rewrite ?C. clear C NN.
  hideK K0 K1 K2.
  set (r0 := rval a0 / _) in *. set (r1 := rval a1 / _) in *. set (r2 := rval a2 / _) in *. clearbody r0 r1 r2.
  lcbv. unfold within_all. repeat apply Forall2_cons; try apply Forall2_nil; ncell.
Qed.
(** halving is exact, except for tiny numbers *)
Lemma half_any : forall x, number x -> rval x = 0 \/ powerRZ 2 (-100) <= Rabs (rval x) -> number (fmul x (b_lit 1 2)) /\ rval (fmul x (b_lit 1 2)) = rval x / 2.
Proof.
  intros x N H. assert (V : rval (b_lit 1 2) = 1 / 2) by (match goal with |- rval ?x = _ => let v := eval vm_compute in x in change x with v end; cbn [rval]; simpl (powerRZ _ _); lra).
  assert (Nh : number (b_lit 1 2)) by (split; reflexivity). destruct (mul_rnd x (b_lit 1 2) N Nh) as [F1 F2]. rewrite V in F1, F2.
  assert (E : rnd (rval x * (1 / 2)) = rval x * (1 / 2)).
  { destruct H as [H|H]; [rewrite H, Rmult_0_l; apply fix_0|]. replace (1 / 2) with (bpow radix2 (-1)) by (simpl; lra). apply round_generic; auto with typeclass_instances.
    apply (mult_bpow_exact_FLT radix2 (-149) 24 (rval x) (-1)); [apply (format_value x); apply N|].
    assert (-99 <= mag radix2 (rval x))%Z; [|lia]. apply mag_ge_bpow. rewrite bpow_powerRZ. exact H. }
  rewrite E in F1, F2. assert (F : finite (fmul x (b_lit 1 2)) = true).
  { apply F2. rewrite Rabs_mult, (Rabs_pos_eq (1 / 2)) by lra. pose proof (value_big x (proj1 N)). pose proof (Rabs_pos (rval x)). lra. }
  split; [split; auto; apply mul_valid; [apply N|apply Nh]|]. rewrite F1 by auto. lra.
Qed.
Ltac axis3 A := let C := fresh "C" in let K0 := fresh "K0" in let K1 := fresh "K1" in let K2 := fresh "K2" in let NN := fresh "NN" in
  match type of A with axis_ok [?a0; ?a1; ?a2] => destruct (nb_axis a0 a1 a2 A) as (C & K0 & K1 & K2 & NN); cbv zeta in C, K0, K1, K2, NN; rewrite NN end.
Lemma C81_quatv_ok : forall l angle axis, accurate l -> number angle -> rval angle = 0 \/ powerRZ 2 (-100) <= Rabs (rval angle) -> axis_ok axis ->
  exists F, computes (B32 l) glm_quatv [Out 4; Val (VF angle); In (fl axis)] VVoid [fl F] /\
    within_all (9 * u) F (axis_angle (normalized (map rval axis)) (rval angle)).
Proof.
  intros l angle axis L NA H1 A. destruct axis as [|a0 [|a1 [|a2 [|]]]]; try discriminate (proj1 A). destruct (nb_axis a0 a1 a2 A) as (C & K0 & K1 & K2 & NN). cbv zeta in C, K0, K1, K2, NN. rewrite NN.
  destruct (half_any angle NA H1) as [Nh Vh]. destruct (nb_trig l _ L Nh) as [S Co]. rewrite Vh in S, Co.
  eexists [_;_;_;_]. split; [brun|]. cbv beta. uset. rewrite ?C. clear C NN. hideK K0 K1 K2.
  set (r0 := rval a0 / _) in *. set (r1 := rval a1 / _) in *. set (r2 := rval a2 / _) in *. clearbody r0 r1 r2.
  cbv [quat axis_angle vscale map List.app]. unfold within_all. repeat apply Forall2_cons; try apply Forall2_nil; ncell.
Qed.
Lemma C81_vec3_rotate_ok : forall l v angle axis, accurate l -> length v = 3%nat -> entries_upto_1 v -> number angle -> axis_ok axis ->
  exists F, computes (B32 l) glm_vec3_rotate [InOut (fl v); Val (VF angle); InA (fl axis)] VVoid [fl F] /\
    within_all (145 * u) F (rotated (normalized (map rval axis)) (rval angle) (map rval v)).
Proof.
  intros l v angle axis L LV HV NA A. destruct v as [|v0 [|v1 [|v2 [|]]]]; try discriminate LV. unfold entries_upto_1 in HV. fall3.
  destruct axis as [|a0 [|a1 [|a2 [|]]]]; try discriminate (proj1 A). destruct (nb_axis a0 a1 a2 A) as (C & K0 & K1 & K2 & NN). cbv zeta in C, K0, K1, K2, NN. rewrite NN.
  destruct (nb_trig l angle L NA) as [S Co]. pose proof (nb_in v0 1 ltac:(auto) ltac:(auto)) as V0. pose proof (nb_in v1 1 ltac:(auto) ltac:(auto)) as V1. pose proof (nb_in v2 1 ltac:(auto) ltac:(auto)) as V2.
  eexists [_;_;_]. split; [brun|]. cbv beta. uset. rewrite ?C. clear C NN. hideK K0 K1 K2.
  set (r0 := rval a0 / _) in *. set (r1 := rval a1 / _) in *. set (r2 := rval a2 / _) in *. clearbody r0 r1 r2.
  unfold within_all, rotated, vadd, vscale. cbn [map]. cbv [vcross combine map fst snd]. repeat apply Forall2_cons; try apply Forall2_nil; ncell. 
Qed.
Lemma C81_rotate_ok : forall l M angle axis, accurate l -> length M = 16%nat -> entries_upto_1 M -> number angle -> axis_ok axis ->
  exists F, computes (B32 l) glm_rotate [InOut (fl M); Val (VF angle); In (fl axis)] VVoid [fl F] /\
    within_all (160 * u) F (mmul 4 (map rval M) (rot4 (normalized (map rval axis)) (rval angle))).
Proof.
  intros l M angle axis L LV HV NA A. unlists. destruct axis as [|x0 [|x1 [|x2 [|]]]]; try discriminate (proj1 A). unfold entries_upto_1 in HV. fall3.
  match type of A with axis_ok [?a0; ?a1; ?a2] => destruct (nb_axis a0 a1 a2 A) as (C & K0 & K1 & K2 & NN); cbv zeta in C, K0, K1, K2, NN; rewrite NN;
  destruct (nb_trig l angle L NA) as [S Co]; repeat match goal with N : number ?x, B : Rabs (rval ?x) <= 1 |- _ => pose proof (nb_in x 1 N B); clear B end;
  eexists [_;_;_;_;_;_;_;_;_;_;_;_;_;_;_;_]; (split; [brun|]); cbv beta; uset; rewrite ?C; clear C NN; hideK K0 K1 K2;
  set (r0 := rval a0 / _) in *; set (r1 := rval a1 / _) in *; set (r2 := rval a2 / _) in *; clearbody r0 r1 r2 end.
  lcbv. unfold within_all. repeat apply Forall2_cons; try apply Forall2_nil; ncell.
Qed.
Lemma C81_rotate_make_ex : (exists l, accurate l) /\ axis_ok (map (fun k => b_lit k 1) [0; 1; -1]%Z) /\ norm (map rval (map (fun k => b_lit k 1) [0; 1; -1]%Z)) = sqrt 2.
Proof.
  split; [apply Proofs.ApproxEx.C73_accurate_ex|]. destruct Proofs.Tests32.v_ints as (V0 & V1 & Vm & _).
  assert (E : norm (map rval (map (fun k => b_lit k 1) [0; 1; -1]%Z)) = sqrt 2) by (cbn [map]; rewrite V0, V1, Vm, rnorm3; f_equal; ring).
  split; [|exact E]. split; [reflexivity|]. split; [cbn [map]; repeat apply Forall_cons; try apply Forall_nil; split; reflexivity|]. rewrite E, p20, p2Z by lia. simpl (2 ^ 58)%Z.
  assert (1 <= sqrt 2) by (rewrite <- sqrt_1 at 1; apply sqrt_le_1_alt; lra). assert (sqrt 2 <= sqrt (2 * 2)) by (apply sqrt_le_1_alt; lra). rewrite sqrt_square in * by lra. unfold u. lra.
Qed.
(** ** Rotation by a quaternion *)
Lemma nb_2 : nb 2 0 (b_lit 2 1) 2.
Proof.
  assert (V : rval (b_lit 2 1) = 2) by (match goal with |- rval ?x = _ => let v := eval vm_compute in x in change x with v end; cbn [rval]; simpl (powerRZ _ _); lra).
  split; [split; reflexivity|]. rewrite V. rewrite Rminus_diag_eq, Rabs_R0, Rabs_pos_eq by lra. lra.
Qed.
Lemma nb_unit4 : forall a0 a1 a2 a3, Forall number [a0; a1; a2; a3] -> powerRZ 2 (-22) <= norm (map rval [a0; a1; a2; a3]) <= powerRZ 2 60 -> let N := norm (map rval [a0; a1; a2; a3]) in
  let S := fadd (fadd (fadd (fmul a0 a0) (fmul a1 a1)) (fmul a2 a2)) (fmul a3 a3) in let I := fdiv b1 (fsqrt S) in
  SFleb S b0 = false /\ nb 1 (61 / 10) (fmul a0 I) (rval a0 / N) /\ nb 1 (61 / 10) (fmul a1 I) (rval a1 / N) /\ nb 1 (61 / 10) (fmul a2 I) (rval a2 / N) /\ nb 1 (61 / 10) (fmul a3 I) (rval a3 / N) /\
  qnormalized (map rval [a0; a1; a2; a3]) = [rval a0 / N; rval a1 / N; rval a2 / N; rval a3 / N].
Proof.
  intros a0 a1 a2 a3 F HN N S I. pose proof HN as HN'. rewrite p22 in HN'. fold N in HN'.
  inversion_clear F as [|? ? N0 F']. inversion_clear F' as [|? ? N1 F]. inversion_clear F as [|? ? N2 F']. inversion_clear F' as [|? ? N3 _].
  destruct (unit4 a0 a1 a2 a3 N0 N1 N2 N3 HN) as (_ & C & K & _). cbv zeta in C, K. fold N in K. fold S in C, K. fold I in K. split; [exact C|].
  assert (P : 0 < N) by lra. assert (NN : N * N = rval a0 * rval a0 + rval a1 * rval a1 + rval a2 * rval a2 + rval a3 * rval a3) by (unfold N; cbn [map]; rewrite rnorm4, sqrt_sqrt; nra).
  assert (V : inb32 I = true). { unfold I, S. apply div_valid; [reflexivity|]. apply sqrt_valid. repeat apply add_valid; apply mul_valid; first [apply N0|apply N1|apply N2|apply N3]. }
  assert (G : forall x, number x -> Rabs (rval x) <= N -> finite (fmul x I) = true /\ Rabs (rval (fmul x I) - rval x / N) <= 6 * u * (rabs x / N) + tiny -> nb 1 (61 / 10) (fmul x I) (rval x / N)).
  { intros x Nx Bx [Fx D]. assert (Q : Rabs (rval x) / N <= 1). { apply (Rmult_le_reg_r N); [lra|]. unfold Rdiv. rewrite Rmult_assoc, Rinv_l; lra. }
    split; [split; auto; apply mul_valid; [apply Nx|auto]|]. split; [unfold Rdiv; rewrite Rabs_mult, Rabs_inv, (Rabs_pos_eq N) by lra; exact Q|].
    eapply Rle_trans; [exact D|]. unfold rabs. pose proof tiny_le. pose proof u_small. nra. }
  inversion K as [|? ? ? ? K0 K']; subst. inversion K' as [|? ? ? ? K1 K'']; subst. inversion K'' as [|? ? ? ? K2 K3']; subst. inversion K3' as [|? ? ? ? K3 _]; subst.
  split; [apply G; auto; apply comp_le; nra|]. split; [apply G; auto; apply comp_le; nra|]. split; [apply G; auto; apply comp_le; nra|]. split; [apply G; auto; apply comp_le; nra|].
  unfold qnormalized. destruct (Req_EM_T _ _) as [E|E].
  - exfalso. assert (N = 0) by (unfold N, norm; rewrite E; apply sqrt_0). lra.
  - unfold vscale. fold N. cbn [map]. unfold Rdiv. repeat match goal with |- (_ :: _) = (_ :: _) => f_equal end; ring.
Qed.
Ltac nbp ::= lazymatch goal with
  | H : nb _ _ ?x _ |- nb _ _ ?x _ => exact H
  | |- nb _ _ (fmul _ _) _ => eapply nb_mul; [nbp|nbp|nbs|nbs|nbs|nbs]
  | |- nb _ _ (fadd _ _) _ => eapply nb_add; [nbp|nbp|nbs|nbs|nbs|nbs]
  | |- nb _ _ (fsub _ _) _ => eapply nb_sub; [nbp|nbp|nbs|nbs|nbs|nbs]
  | |- nb _ _ (SFopp _) _ => apply nb_opp; nbp
  | |- nb _ _ b0 _ => exact nb_0
  | |- nb _ _ b1 _ => exact nb_1
  | |- nb _ _ (b_lit 0 1) _ => exact nb_0
  | |- nb _ _ (b_lit 1 1) _ => exact nb_1
  | |- nb _ _ (b_lit 2 1) _ => exact nb_2
  end.
Lemma C81_rotatev_ok : forall l q v, length q = 4%nat -> Forall number q -> powerRZ 2 (-22) <= norm (map rval q) <= powerRZ 2 60 -> length v = 3%nat -> entries_upto_1 v ->
  exists F, computes (B32 l) glm_quat_rotatev [In (fl q); InA (fl v); Out 3] VVoid [fl F] /\
    within_all (257 * u) F (qrot (qnormalized (map rval q)) (map rval v)).
Proof.
  intros l q v LQ NQ HQ LV HV. destruct v as [|v0 [|v1 [|v2 [|]]]]; try discriminate LV. unfold entries_upto_1 in HV. destruct q as [|a0 [|a1 [|a2 [|a3 [|]]]]]; try discriminate LQ.
  destruct (nb_unit4 a0 a1 a2 a3 NQ HQ) as (C & K0 & K1 & K2 & K3 & NN). cbv zeta in C, K0, K1, K2, K3, NN. rewrite NN. fall3.
  pose proof (nb_in v0 1 ltac:(auto) ltac:(auto)) as V0. pose proof (nb_in v1 1 ltac:(auto) ltac:(auto)) as V1. pose proof (nb_in v2 1 ltac:(auto) ltac:(auto)) as V2.
  eexists [_;_;_]. split; [brun|]. cbv beta. uset. rewrite ?C. clear C NN.
  match type of K3 with nb _ _ ?x _ => set (k3 := x) in * end. hideK K0 K1 K2. clearbody k3.
  set (r0 := rval a0 / _) in *. set (r1 := rval a1 / _) in *. set (r2 := rval a2 / _) in *. set (r3 := rval a3 / _) in *. clearbody r0 r1 r2 r3.
  cbv [qrot qmul qconj quat im re vsub vadd vscale vcross rdot total fold_left firstn skipn at_ nth map combine fst snd List.app]. unfold within_all. repeat apply Forall2_cons; try apply Forall2_nil; ncell.
Qed.
Lemma C81_rotatev_ex : let q := map (fun k => b_lit k 1) [1; 1; -1; 1]%Z in Forall number q /\ norm (map rval q) = 2 /\ powerRZ 2 (-22) <= 2 <= powerRZ 2 60 /\ qnormalized (map rval q) = [1 / 2; 1 / 2; - (1 / 2); 1 / 2].
Proof.
  cbv zeta. split; [cbn [map]; repeat apply Forall_cons; try apply Forall_nil; split; reflexivity|]. destruct Proofs.Tests32.v_ints as (V0 & V1 & Vm & _). cbn [map]. rewrite V1, Vm.
  assert (N2 : norm [1; 1; -1; 1] = 2) by (rewrite rnorm4; replace (1 * 1 + 1 * 1 + -1 * -1 + 1 * 1) with (2 * 2) by ring; apply sqrt_square; lra).
  split; [exact N2|]. split; [rewrite p22, b60; unfold B60; lra|]. unfold qnormalized. destruct (Req_EM_T _ _) as [E|E].
  - exfalso. unfold norm in N2. rewrite E, sqrt_0 in N2. lra.
  - rewrite N2. cbv [vscale map]. repeat match goal with |- (_ :: _) = (_ :: _) => f_equal end; lra.
Qed.
