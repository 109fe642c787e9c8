(** * Geometric tests in single precision (C77) *)

From Coq Require Import String List ZArith Bool Reals Lra Lia Psatz Floats.SpecFloat.
From Flocq Require Import Core.
From Verif Require Import MiniC Sym SymSound Contract SymCall SymTac Tac Cglm B32.
From Verif.Spec Require Import Float32 Linear Geometry Affine Clip Frustum Box Tests32.
From Verif.Proofs Require Import Flo Ieee IeeeId ExactSound ApproxSound Layout RExact Box Ranges.
Import ListNotations.
(* props: From Coq Require Import Reals Floats.SpecFloat. *)
(* props: From Verif Require Import B32. *)
(* props: From Verif.Spec Require Import Float32 Linear Geometry Clip Frustum Box Tests32. *)
Local Open Scope R_scope.

(** ** Equality within a tolerance *)
Lemma abs_value : forall x, rval (SFabs x) = Rabs (rval x).
Proof.
  intros [s|s| |s m e]; simpl; try (rewrite Rabs_R0; reflexivity). rewrite Rabs_mult, (Rabs_pos_eq (powerRZ 2 e)) by (apply Rlt_le, powerRZ_lt; lra). f_equal.
  destruct s; rewrite <- abs_IZR; reflexivity.
Qed.
Lemma abs_number : forall x, number x -> number (SFabs x).
Proof. intros x [V F]. destruct x; try discriminate F; split; auto. Qed.
Lemma rnd_abs : forall r, Rabs (rnd r) = rnd (Rabs r).
Proof.
  intros r. destruct (Rle_lt_dec 0 r) as [H|H].
  - rewrite (Rabs_pos_eq r H). apply Rabs_pos_eq. replace 0 with (rnd 0) by apply fix_0. apply rnd_le. exact H.
  - rewrite (Rabs_left r H), rnd_opp. apply Rabs_left1. replace 0 with (rnd 0) by apply fix_0. apply rnd_le. lra.
Qed.
Lemma v_eps : rval (b_lit 1 100000) = 10995116 * powerRZ 2 (-40). Proof. match goal with |- rval ?x = _ => let v := eval vm_compute in x in change x with v end. reflexivity. Qed.
Lemma p40 : powerRZ 2 (-40) = 2 * powerRZ 2 (-41). Proof. change (-40)%Z with (1 + -41)%Z. rewrite powerRZ_add by lra. simpl (powerRZ 2 1). ring. Qed.
Lemma rnd_tol : forall r, 0 <= r -> (rnd r <= 10995116 * powerRZ 2 (-40) <-> r <= tolerance).
Proof.
  intros r H0. unfold tolerance. pose proof (p2pos (-41)) as P. rewrite p40. split; intros H.
  - destruct (Rle_lt_dec r (powerRZ 2 (-16))) as [K|K].
    + pose proof (half_ulp r (-16) ltac:(rewrite Rabs_pos_eq; auto) ltac:(lia)) as U. change (-16 - 25)%Z with (-41)%Z in U. apply Rabs_le_inv in U. lra.
    + exfalso. apply Rlt_le, rnd_le in K. assert (F : rnd (powerRZ 2 (-16)) = powerRZ 2 (-16)).
      { change (powerRZ 2 (-16)) with (powerRZ (IZR radix2) (-16)). rewrite <- bpow_powerRZ. rewrite <- (Rmult_1_l (bpow radix2 (-16))). apply (fix_grid 1 (-16)); lia. }
      rewrite F in K. assert (E : powerRZ 2 (-16) = 33554432 * powerRZ 2 (-41)) by (change (-16)%Z with (25 + -41)%Z; rewrite powerRZ_add by lra; f_equal; simpl; lra). lra.
  - apply rnd_le in H. eapply Rle_trans; [exact H|]. right.
    pose proof (tie (b_lit 1 100000) (S754_finite false 8388608 (-64)) (b_lit 1 100000) ltac:(split; reflexivity) ltac:(split; reflexivity) ltac:(vm_compute; reflexivity) ltac:(split; reflexivity)) as T.
    rewrite v_eps, p40 in T. rewrite <- T. f_equal. assert (E : rval (S754_finite false 8388608 (-64)) = powerRZ 2 (-41)); [|lra].
    cbn [rval]. change (-41)%Z with (23 + -64)%Z. rewrite powerRZ_add by lra. f_equal. simpl; lra.
Qed.
Lemma eps_test : forall a b, number a -> number b -> (SFleb (SFabs (fsub a b)) (b_lit 1 100000) = true <-> Rabs (rval a - rval b) <= tolerance).
Proof.
  intros a b Na Nb. destruct (sub_rnd a b Na Nb) as [F1 F2]. destruct (finite (fsub a b)) eqn:F.
  - assert (N : number (fsub a b)) by (split; auto; apply sub_valid; [apply Na|apply Nb]).
    rewrite (le_value _ (b_lit 1 100000) (abs_number _ N) ltac:(split; reflexivity)). rewrite abs_value, (F1 eq_refl), rnd_abs, v_eps. apply rnd_tol, Rabs_pos.
  - rewrite (proj1 (sub_inf a b Na Nb F)). split; [destruct (isign a); discriminate|]. intros H. exfalso.
    assert (K : rnd (Rabs (rval a - rval b)) <= 10995116 * powerRZ 2 (-40)) by (apply rnd_tol; auto using Rabs_pos).
    rewrite <- rnd_abs in K. assert (finite (b_lit 1 100000) = true) by reflexivity. pose proof (value_big (b_lit 1 100000) ltac:(reflexivity)) as B. rewrite v_eps in B.
    apply Rabs_def2 in B. discriminate F2. lra.
Qed.
Lemma iff_and : forall (a b : bool) (P Q : Prop), (a = true <-> P) -> (b = true <-> Q) -> (a && b = true <-> P /\ Q).
Proof. intros a b P Q H1 H2. rewrite andb_true_iff. tauto. Qed.
(** on numbers, the comparisons with tolerance hold iff the exact differences are at most [tolerance] *)
Lemma C77_near_ok : forall l,
  (forall a b, number a -> number b -> exists r, computes (B32 l) glm_eq [Val (VF a); Val (VF b)] (VB r) [] /\ (r = true <-> Rabs (rval a - rval b) <= tolerance)) /\
  (forall a b, length a = 2%nat -> length b = 2%nat -> Forall number a -> Forall number b -> exists r, computes (B32 l) glm_vec2_eqv_eps [In (fl a); In (fl b)] (VB r) [] /\ (r = true <-> all_near (map rval a) (map rval b))) /\
  (forall a b, length a = 3%nat -> length b = 3%nat -> Forall number a -> Forall number b -> exists r, computes (B32 l) glm_vec3_eqv_eps [In (fl a); In (fl b)] (VB r) [] /\ (r = true <-> all_near (map rval a) (map rval b))) /\
  (forall a b, length a = 4%nat -> length b = 4%nat -> Forall number a -> Forall number b -> exists r, computes (B32 l) glm_vec4_eqv_eps [In (fl a); In (fl b)] (VB r) [] /\ (r = true <-> all_near (map rval a) (map rval b))) /\
  (forall a x, length a = 2%nat -> Forall number a -> number x -> exists r, computes (B32 l) glm_vec2_eq_eps [In (fl a); Val (VF x)] (VB r) [] /\ (r = true <-> all_near (map rval a) (repeat (rval x) 2))) /\
  (forall a x, length a = 3%nat -> Forall number a -> number x -> exists r, computes (B32 l) glm_vec3_eq_eps [In (fl a); Val (VF x)] (VB r) [] /\ (r = true <-> all_near (map rval a) (repeat (rval x) 3))) /\
  (forall a x, length a = 4%nat -> Forall number a -> number x -> exists r, computes (B32 l) glm_vec4_eq_eps [In (fl a); Val (VF x)] (VB r) [] /\ (r = true <-> all_near (map rval a) (repeat (rval x) 4))).
Proof.
  intros l. unfold all_near.
  assert (F2 : forall (a b : R) x y, Forall2 (fun a b => Rabs (a - b) <= tolerance) (a :: x) (b :: y) <-> Rabs (a - b) <= tolerance /\ Forall2 (fun a b => Rabs (a - b) <= tolerance) x y).
  { intros; split; [intros H; inversion H; auto|intros []; constructor; auto]. }
  assert (F0 : Forall2 (fun a b => Rabs (a - b) <= tolerance) [] [] <-> True) by (split; auto).
  repeat match goal with |- _ /\ _ => split end; intros; unlists;
    repeat match goal with H : Forall number (_ :: _) |- _ => apply Forall_cons_iff in H; destruct H end;
    (eexists; split; [brun|]); cbn [map repeat]; rewrite ?F2, ?F0, <- ?eps_test by assumption;
    repeat match goal with |- context [SFleb ?x ?y] => destruct (SFleb x y) end; simpl; intuition discriminate.
Qed.
Lemma C77_near_ex : number (b_lit 1 3) /\ number (b_lit 33334 100000) /\ Rabs (rval (b_lit 1 3) - rval (b_lit 33334 100000)) <= tolerance.
Proof.
  split; [split; reflexivity|]. split; [split; reflexivity|]. unfold tolerance.
  assert (A : rval (b_lit 1 3) = 11184811 * powerRZ 2 (-25)) by (match goal with |- rval ?x = _ => let v := eval vm_compute in x in change x with v end; reflexivity).
  assert (B : rval (b_lit 33334 100000) = 11185034 * powerRZ 2 (-25)) by (match goal with |- rval ?x = _ => let v := eval vm_compute in x in change x with v end; reflexivity).
  rewrite A, B. assert (E : powerRZ 2 (-25) = 65536 * powerRZ 2 (-41)) by (change (-25)%Z with (16 + -41)%Z; rewrite powerRZ_add by lra; f_equal; simpl; lra). rewrite E.
  pose proof (p2pos (-41)). apply Rabs_le. lra.
Qed.

(** ** Rounding with bounds that are powers of two *)
Lemma fix_p2 : forall j, (-125 <= j <= 127)%Z -> fixp (powerRZ 2 j) /\ fixp (- powerRZ 2 j).
Proof.
  intros j H. change (powerRZ 2 j) with (powerRZ (IZR radix2) j). rewrite <- bpow_powerRZ.
  replace (bpow radix2 j) with (IZR (2 ^ 24) * bpow radix2 (j - 24)) by (replace (bpow radix2 j) with (bpow radix2 (24 + (j - 24))) by (f_equal; lia); rewrite bpow_plus; f_equal).
  rewrite Ropp_mult_distr_l, <- opp_IZR. split; apply fix_big; lia.
Qed.
(** [x] is a float within [2^j] and within [e] of [r] *)
Definition app (j : Z) (e : R) (x : b32) (r : R) : Prop := number x /\ Rabs (rval x) <= powerRZ 2 j /\ Rabs (rval x - r) <= e.
Lemma app_round : forall j e x y r, number x -> rval x = rnd y -> (-100 <= j <= 127)%Z -> Rabs y <= powerRZ 2 j -> Rabs (y - r) <= e -> app j (e + powerRZ 2 (j - 25)) x r.
Proof.
  intros j e x y r N E J H K. split; auto. rewrite E. split.
  - rewrite rnd_abs. apply rnd_le in H. replace (powerRZ 2 j) with (rnd (powerRZ 2 j)) by (apply fix_p2; lia). exact H.
  - pose proof (half_ulp y j H ltac:(lia)) as U. replace (rnd y - r) with ((rnd y - y) + (y - r)) by ring. eapply Rle_trans; [apply Rabs_triang|]. lra.
Qed.
Lemma app_add : forall j e f x y r s, (-100 <= j <= 126)%Z -> app j e x r -> app j f y s -> app (j + 1) (e + f + powerRZ 2 (j + 1 - 25)) (fadd x y) (r + s).
Proof.
  intros j e f x y r s J (Nx & Bx & Ex) (Ny & By & Ey). destruct (fix_p2 (j + 1) ltac:(lia)) as [X1 X2].
  assert (P : powerRZ 2 (j + 1) = 2 * powerRZ 2 j) by (rewrite powerRZ_add by lra; simpl (powerRZ 2 1); ring).
  assert (B : Rabs (rval x + rval y) <= powerRZ 2 (j + 1)) by (eapply Rle_trans; [apply Rabs_triang|]; lra).
  destruct (add_r _ _ x y X2 X1 Nx Ny ltac:(apply Rabs_le_inv in B; lra)) as [[N _] E].
  eapply app_round; eauto; try lia. replace (rval x + rval y - (r + s)) with ((rval x - r) + (rval y - s)) by ring. eapply Rle_trans; [apply Rabs_triang|]. lra.
Qed.
Lemma app_sub : forall j e f x y r s, (-100 <= j <= 126)%Z -> app j e x r -> app j f y s -> app (j + 1) (e + f + powerRZ 2 (j + 1 - 25)) (fsub x y) (r - s).
Proof.
  intros j e f x y r s J (Nx & Bx & Ex) (Ny & By & Ey). destruct (fix_p2 (j + 1) ltac:(lia)) as [X1 X2].
  assert (P : powerRZ 2 (j + 1) = 2 * powerRZ 2 j) by (rewrite powerRZ_add by lra; simpl (powerRZ 2 1); ring).
  assert (B : Rabs (rval x - rval y) <= powerRZ 2 (j + 1)) by (unfold Rminus; eapply Rle_trans; [apply Rabs_triang|]; rewrite Rabs_Ropp; lra).
  destruct (sub_r _ _ x y X2 X1 Nx Ny ltac:(apply Rabs_le_inv in B; lra)) as [[N _] E].
  eapply app_round; eauto; try lia. replace (rval x - rval y - (r - s)) with ((rval x - r) + - (rval y - s)) by ring. eapply Rle_trans; [apply Rabs_triang|]. rewrite Rabs_Ropp. lra.
Qed.
Lemma app_mul : forall j k e f x y r s, (-100 <= j + k <= 127)%Z -> app j e x r -> app k f y s -> Rabs s <= powerRZ 2 k ->
  app (j + k) (powerRZ 2 j * f + e * powerRZ 2 k + powerRZ 2 (j + k - 25)) (fmul x y) (r * s).
Proof.
  intros j k e f x y r s J (Nx & Bx & Ex) (Ny & By & Ey) Bs. destruct (fix_p2 (j + k) ltac:(lia)) as [X1 X2].
  assert (B : Rabs (rval x * rval y) <= powerRZ 2 (j + k)) by (rewrite Rabs_mult, powerRZ_add by lra; apply Rmult_le_compat; auto using Rabs_pos).
  destruct (mul_r _ _ x y X2 X1 Nx Ny ltac:(apply Rabs_le_inv in B; lra)) as [[N _] E].
  eapply app_round; eauto; try lia. replace (rval x * rval y - r * s) with (rval x * (rval y - s) + (rval x - r) * s) by ring. eapply Rle_trans; [apply Rabs_triang|]. rewrite !Rabs_mult.
  apply Rplus_le_compat; apply Rmult_le_compat; auto using Rabs_pos.
Qed.
Lemma app_exact : forall j x, number x -> Rabs (rval x) <= powerRZ 2 j -> app j 0 x (rval x).
Proof. intros j x N B. split; auto. split; auto. rewrite Rminus_diag_eq, Rabs_R0; auto; lra. Qed.
Lemma app_le : forall j k e f x r, (j <= k)%Z -> e <= f -> app j e x r -> app k f x r.
Proof.
  intros j k e f x r JK EF (N & B & E). split; auto. split; [|lra]. eapply Rle_trans; [exact B|].
  change (powerRZ (IZR radix2) j <= powerRZ (IZR radix2) k). rewrite <- !bpow_powerRZ. apply bpow_le. exact JK.
Qed.

(** ** Boxes against frustum planes *)
Definition dp32 (b q : list b32) : b32 :=
  let q i := nth i q b0 in let b i := nth i b b0 in
  fadd (fadd (fmul (q 0%nat) (if SFltb (b_lit 0 1) (q 0%nat) then b 3%nat else b 0%nat)) (fmul (q 1%nat) (if SFltb (b_lit 0 1) (q 1%nat) then b 4%nat else b 1%nat)))
    (fmul (q 2%nat) (if SFltb (b_lit 0 1) (q 2%nat) then b 5%nat else b 2%nat)).
Definition reaches32 (b q : list b32) : bool := negb (SFltb (dp32 b q) (SFopp (nth 3 q b0))).
Lemma nand : forall x y z : bool, y = z -> (if x then false else y) = negb x && z. Proof. intros [] y z H; [reflexivity|exact H]. Qed.
Lemma frustum32 : forall l b ps, length b = 6%nat -> length ps = 24%nat ->
  computes (B32 l) glm_aabb_frustum [In (fl b); In (fl ps)] (VB (forallb (fun j => reaches32 b (firstn 4 (skipn (4 * j) ps))) (seq 0 6))) [].
Proof.
  intros l b ps Lb Lp. unlists. unfold reaches32, dp32. sym_with 20%nat; useeqs; bcbv; gsplit; try reflexivity; simpl.
  all: f_equal.
  do 5 (apply (nand (SFltb _ _))). rewrite andb_true_r. reflexivity.
Qed.
Definition selb (q lo hi : b32) : b32 := if SFltb (b_lit 0 1) q then hi else lo.
Definition selr (q lo hi : R) : R := if Rlt_dec 0 q then hi else lo.
Lemma sel_val : forall q lo hi, number q -> rval (selb q lo hi) = selr (rval q) (rval lo) (rval hi).
Proof.
  intros q lo hi N. unfold selb, selr. pose proof (lt_value (b_lit 0 1) q ltac:(split; reflexivity) N) as L. replace (rval (b_lit 0 1)) with 0 in L by reflexivity.
  destruct (SFltb (b_lit 0 1) q) eqn:E; destruct (Rlt_dec 0 (rval q)) as [H|H]; auto; [exfalso; apply H, L; reflexivity|]. apply L in H. discriminate H.
Qed.
Lemma sel_case : forall (P : b32 -> Prop) q lo hi, P lo -> P hi -> P (selb q lo hi). Proof. intros. unfold selb. destruct (SFltb _ _); auto. Qed.
Lemma sel_max : forall q lo hi x, lo <= x <= hi -> q * x <= q * selr q lo hi. Proof. intros. unfold selr. destruct (Rlt_dec 0 q); nra. Qed.
Lemma sel_in : forall q lo hi, lo <= hi -> lo <= selr q lo hi <= hi. Proof. intros. unfold selr. destruct (Rlt_dec 0 q); lra. Qed.
Lemma p2S : forall j, powerRZ 2 (j + 1) = 2 * powerRZ 2 j. Proof. intros. rewrite powerRZ_add by lra. simpl (powerRZ 2 1). ring. Qed.
(** three products with factors at most 1 *)
Lemma dot_app : forall k a b c x y z, (-70 <= k <= 100)%Z -> Forall (fun v => number v /\ Rabs (rval v) <= 1) [a; b; c] -> Forall (fun v => number v /\ Rabs (rval v) <= powerRZ 2 k) [x; y; z] ->
  app (k + 1 + 1) (9 * powerRZ 2 (k - 25)) (fadd (fadd (fmul a x) (fmul b y)) (fmul c z)) (rval a * rval x + rval b * rval y + rval c * rval z).
Proof.
  intros k a b c x y z K A B.
  repeat match goal with H : Forall _ (_ :: _) |- _ => inversion_clear H | H : Forall _ [] |- _ => clear H end.
  repeat match goal with H : number _ /\ _ |- _ => destruct H end.
  assert (M : forall u v, number u -> Rabs (rval u) <= 1 -> number v -> Rabs (rval v) <= powerRZ 2 k -> app k (powerRZ 2 (k - 25)) (fmul u v) (rval u * rval v)).
  { intros u v Nu Bu Nv Bv. pose proof (app_mul 0 k 0 0 u v (rval u) (rval v) ltac:(lia) (app_exact 0 u Nu Bu) (app_exact k v Nv Bv) Bv) as G.
    rewrite Z.add_0_l in G. refine (app_le _ _ _ _ _ _ _ _ G); [lia|]. lra. }
  pose proof (p2S k). pose proof (p2S (k + 1)). pose proof (p2S (k - 25)) as P1. pose proof (p2S (k - 25 + 1)) as P2. pose proof (p2pos (k - 25)).
  pose proof (app_add k _ _ _ _ _ _ ltac:(lia) (M a x ltac:(auto) ltac:(auto) ltac:(auto) ltac:(auto)) (M b y ltac:(auto) ltac:(auto) ltac:(auto) ltac:(auto))) as S1.
  pose proof (app_le k (k + 1) _ (powerRZ 2 (k - 25)) _ _ ltac:(lia) (Rle_refl _) (M c z ltac:(auto) ltac:(auto) ltac:(auto) ltac:(auto))) as S2.
  pose proof (app_add (k + 1) _ _ _ _ _ _ ltac:(lia) S1 S2) as S3. refine (app_le _ _ _ _ _ _ _ _ S3); [lia|].
  replace (k + 1 - 25)%Z with (k - 25 + 1)%Z by lia. replace (k + 1 + 1 - 25)%Z with (k - 25 + 1 + 1)%Z by lia. rewrite P2, P1. lra.
Qed.
Lemma opp_value : forall x, rval (SFopp x) = - rval x.
Proof. intros [s|s| |s m e]; simpl; try ring. destruct s; cbn; change (Z.neg m) with (- Z.pos m)%Z; rewrite opp_IZR; ring. Qed.
Lemma opp_number : forall x, number x -> number (SFopp x).
Proof. intros x [V F]. destruct x; try discriminate F; split; auto. Qed.
Lemma reaches32_spec : forall k b q, (-70 <= k <= 100)%Z -> length b = 6%nat -> length q = 4%nat -> bounded_by (powerRZ 2 k) b -> bounded_by 1 (firstn 3 q) -> number (nth 3 q b0) -> proper 3 (map rval b) ->
  ((exists p, length p = 3%nat /\ in_aabb 3 (map rval b) p /\ rdot (firstn 3 (map rval q)) p + nth 3 (map rval q) 0 >= 9 * powerRZ 2 (k - 25)) -> reaches32 b q = true) /\
  (reaches32 b q = true -> exists p, length p = 3%nat /\ in_aabb 3 (map rval b) p /\ rdot (firstn 3 (map rval q)) p + nth 3 (map rval q) 0 >= - (9 * powerRZ 2 (k - 25))).
Proof.
  intros k b q K Lb Lq Bb Bq Nw P. destruct b as [|x0 [|y0 [|z0 [|x1 [|y1 [|z1 [|]]]]]]]; try discriminate Lb. destruct q as [|q0 [|q1 [|q2 [|w [|]]]]]; try discriminate Lq.
  cbn [firstn nth map] in *. unfold bounded_by in *. rewrite proper3 in P. revert P. lcbv. intros (P0 & P1 & P2).
  assert (D : app (k + 1 + 1) (9 * powerRZ 2 (k - 25)) (dp32 [x0; y0; z0; x1; y1; z1] [q0; q1; q2; w])
    (rval q0 * selr (rval q0) (rval x0) (rval x1) + rval q1 * selr (rval q1) (rval y0) (rval y1) + rval q2 * selr (rval q2) (rval z0) (rval z1))).
  { assert (Q : number q0 /\ number q1 /\ number q2) by (repeat match goal with H : Forall _ (_ :: _) |- _ => inversion_clear H | H : Forall _ [] |- _ => clear H end; tauto). destruct Q as (N0 & N1 & N2).
    rewrite <- !sel_val by auto. apply dot_app; auto.
    repeat match goal with H : Forall _ (_ :: _) |- _ => inversion_clear H | H : Forall _ [] |- _ => clear H end. apply Forall_cons; [|apply Forall_cons; [|apply Forall_cons; [|apply Forall_nil]]]; apply (sel_case (fun v => number v /\ Rabs (rval v) <= powerRZ 2 k)); tauto. }
  destruct D as (N & _ & E). apply Rabs_le_inv in E.
  assert (T : reaches32 [x0; y0; z0; x1; y1; z1] [q0; q1; q2; w] = true <-> - rval w <= rval (dp32 [x0; y0; z0; x1; y1; z1] [q0; q1; q2; w])).
  { unfold reaches32. cbn [nth]. rewrite negb_true_iff. pose proof (lt_value _ _ N (opp_number w Nw)) as L. rewrite opp_value in L.
    destruct (SFltb _ _); split; intros H; try discriminate; try reflexivity; [exfalso; apply proj1 in L; specialize (L eq_refl); lra|].
    apply Rnot_lt_le. intros G. apply L in G. discriminate G. }
  rewrite T. split.
  - intros (p & Lp & H & S). un3 p x y z. rewrite in3 in H. revert H S. lcbv. intros (A & B & C) S.
    pose proof (sel_max (rval q0) _ _ x A). pose proof (sel_max (rval q1) _ _ y B). pose proof (sel_max (rval q2) _ _ z C). lra.
  - intros H. exists [selr (rval q0) (rval x0) (rval x1); selr (rval q1) (rval y0) (rval y1); selr (rval q2) (rval z0) (rval z1)].
    split; [reflexivity|]. rewrite in3. lcbv. split; [repeat split; apply sel_in; auto|]. lra.
Qed.
(** culling: a box with, for each plane, a point at depth [e] is kept; a box that is kept has a point at depth [-e] for each plane *)
Lemma C77_frustum_ok : forall l k b ps, (-70 <= k <= 100)%Z -> length b = 6%nat -> length ps = 24%nat -> bounded_by (powerRZ 2 k) b -> Forall number ps ->
  (forall j, (j < 6)%nat -> bounded_by 1 (firstn 3 (skipn (4 * j) ps))) -> proper 3 (map rval b) ->
  exists r, computes (B32 l) glm_aabb_frustum [In (fl b); In (fl ps)] (VB r) [] /\
  ((forall j, (j < 6)%nat -> exists p, length p = 3%nat /\ in_aabb 3 (map rval b) p /\ depth (map rval ps) j p >= 9 * powerRZ 2 (k - 25)) -> r = true) /\
  (r = true -> forall j, (j < 6)%nat -> exists p, length p = 3%nat /\ in_aabb 3 (map rval b) p /\ depth (map rval ps) j p >= - (9 * powerRZ 2 (k - 25))).
Proof.
  intros l k b ps K Lb Lp Bb Np Bp P. eexists. split; [apply frustum32; auto|]. rewrite forallb_forall.
  assert (X : forall j, (j < 6)%nat -> length (firstn 4 (skipn (4 * j) ps)) = 4%nat) by (intros; rewrite firstn_length, skipn_length; lia).
  assert (F : forall j p, (j < 6)%nat -> depth (map rval ps) j p = rdot (firstn 3 (map rval (firstn 4 (skipn (4 * j) ps)))) p + nth 3 (map rval (firstn 4 (skipn (4 * j) ps))) 0).
  { intros j p H. unfold depth. f_equal.
    - f_equal. rewrite skipn_map, <- firstn_map, firstn_firstn. reflexivity.
    - rewrite <- firstn_map, <- skipn_map. unlists. do 6 (destruct j as [|j]; [reflexivity|]). lia. }
  assert (G : forall j, (j < 6)%nat -> bounded_by 1 (firstn 3 (firstn 4 (skipn (4 * j) ps))) /\ number (nth 3 (firstn 4 (skipn (4 * j) ps)) b0)).
  { intros j H. split; [rewrite firstn_firstn; apply Bp; auto|]. clear -Np Lp H. unlists. rewrite Forall_forall in Np. apply Np. do 6 (destruct j as [|j]; [simpl; tauto|]). lia. }
  split.
  - intros H j Hj. apply in_seq in Hj. assert (J : (j < 6)%nat) by lia. destruct (G j J) as [G1 G2]. apply (reaches32_spec k b (firstn 4 (skipn (4 * j) ps)) K Lb (X j J) Bb G1 G2 P).
    destruct (H j J) as (p & H1 & H2 & H3). exists p. rewrite F in H3 by auto. auto.
  - intros H j J. destruct (G j J) as [G1 G2]. destruct (proj2 (reaches32_spec k b (firstn 4 (skipn (4 * j) ps)) K Lb (X j J) Bb G1 G2 P)) as (p & H1 & H2 & H3); [apply H, in_seq; lia|].
    exists p. rewrite F by auto. auto.
Qed.
Lemma v_ints : rval (b_lit 0 1) = 0 /\ rval (b_lit 1 1) = 1 /\ rval (b_lit (-1) 1) = -1 /\ rval (b_lit 5 1) = 5.
Proof.
  repeat split; match goal with |- rval ?x = _ => let v := eval vm_compute in x in change x with v end; cbn [rval]; simpl (powerRZ _ _); try lra.
Qed.
Lemma C77_frustum_ex : let b := map (fun n => b_lit n 1) [0; 0; 0; 5; 5; 5]%Z in let ps := map (fun n => b_lit n 1) [1;0;0;1; -1;0;0;1; 0;1;0;1; 0;-1;0;1; 0;0;1;1; 0;0;-1;1]%Z in
  bounded_by (powerRZ 2 3) b /\ Forall number ps /\ (forall j, (j < 6)%nat -> bounded_by 1 (firstn 3 (skipn (4 * j) ps))) /\ proper 3 (map rval b) /\
  forall j, (j < 6)%nat -> exists p, length p = 3%nat /\ in_aabb 3 (map rval b) p /\ depth (map rval ps) j p >= 9 * powerRZ 2 (3 - 25).
Proof.
  destruct v_ints as (V0 & V1 & Vm & V5).
  assert (N : forall n, List.In n [0; 1; -1; 5]%Z -> number (b_lit n 1)) by (simpl; intros n [<-|[<-|[<-|[<-|[]]]]]; split; reflexivity).
  cbv zeta. cbn [map]. split; [|split; [|split; [|split]]].
  - repeat apply Forall_cons; try apply Forall_nil; (split; [apply N; simpl; tauto|]); rewrite ?V0, ?V5; simpl; apply Rabs_le; lra.
  - repeat apply Forall_cons; try apply Forall_nil; apply N; simpl; tauto.
  - intros j Hj. do 6 (destruct j as [|j]; [repeat apply Forall_cons; try apply Forall_nil; (split; [apply N; simpl; tauto|]); rewrite ?V0, ?V1, ?Vm; apply Rabs_le; lra|]). lia.
  - rewrite proper3. unfold at_. cbn [nth]. rewrite V0, V5. lra.
  - intros j Hj. exists [1/2; 1/2; 1/2]. split; [reflexivity|]. split; [rewrite in3; unfold at_; cbn [nth]; rewrite V0, V5; lra|].
    assert (P : 9 * powerRZ 2 (3 - 25) <= 1 / 2) by (simpl; lra). eapply Rge_trans; [|apply Rle_ge; exact P].
    unfold depth. do 6 (destruct j as [|j]; [simpl; unfold rdot; simpl; rewrite ?V0, ?V1, ?Vm; lra|]). lia.
Qed.

(** ** Spheres *)
Lemma square_app : forall k x y, (-40 <= k <= 60)%Z -> number x -> number y -> Rabs (rval x) <= powerRZ 2 k -> Rabs (rval y) <= powerRZ 2 k ->
  app (2 * k + 2) (12 * powerRZ 2 (2 * k - 25)) (fmul (fsub x y) (fsub x y)) ((rval x - rval y) * (rval x - rval y)) /\
  app (2 * k + 2) (12 * powerRZ 2 (2 * k - 25)) (fmul (fadd x y) (fadd x y)) ((rval x + rval y) * (rval x + rval y)).
Proof.
  intros k x y K Nx Ny Bx By. pose proof (p2S k) as P. pose proof (p2pos (2 * k - 25)).
  assert (E1 : powerRZ 2 (k + 1) * powerRZ 2 (k + 1 - 25) = 4 * powerRZ 2 (2 * k - 25)).
  { rewrite <- powerRZ_add by lra. replace (k + 1 + (k + 1 - 25))%Z with (2 * k - 25 + 2)%Z by lia. rewrite powerRZ_add by lra. simpl (powerRZ 2 2). ring. }
  assert (E2 : powerRZ 2 (k + 1 + (k + 1) - 25) = 4 * powerRZ 2 (2 * k - 25)).
  { replace (k + 1 + (k + 1) - 25)%Z with (2 * k - 25 + 2)%Z by lia. rewrite powerRZ_add by lra. simpl (powerRZ 2 2). ring. }
  split.
  - pose proof (app_sub k 0 0 x y _ _ ltac:(lia) (app_exact k x Nx Bx) (app_exact k y Ny By)) as S. rewrite !Rplus_0_l in S.
    assert (B : Rabs (rval x - rval y) <= powerRZ 2 (k + 1)) by (unfold Rminus; eapply Rle_trans; [apply Rabs_triang|]; rewrite Rabs_Ropp; lra).
    refine (app_le _ _ _ _ _ _ _ _ (app_mul (k + 1) (k + 1) _ _ _ _ _ _ _ S S B)); [lia| |lia]. lra.
  - pose proof (app_add k 0 0 x y _ _ ltac:(lia) (app_exact k x Nx Bx) (app_exact k y Ny By)) as S. rewrite !Rplus_0_l in S.
    assert (B : Rabs (rval x + rval y) <= powerRZ 2 (k + 1)) by (eapply Rle_trans; [apply Rabs_triang|]; lra).
    refine (app_le _ _ _ _ _ _ _ _ (app_mul (k + 1) (k + 1) _ _ _ _ _ _ _ S S B)); [lia| |lia]. lra.
Qed.
Lemma sum3_app : forall j e a b c x y z, (-90 <= j <= 124)%Z -> app j e a x -> app j e b y -> app j e c z -> 0 <= e -> app (j + 1 + 1) (3 * e + 6 * powerRZ 2 (j - 25)) (fadd (fadd a b) c) (x + y + z).
Proof.
  intros j e a b c x y z J A B C He. pose proof (app_add j _ _ _ _ _ _ ltac:(lia) A B) as S1.
  pose proof (app_le j (j + 1) _ _ _ _ ltac:(lia) (Rle_refl _) C) as S2. pose proof (app_add (j + 1) _ _ _ _ _ _ ltac:(lia) S1 S2) as S3.
  refine (app_le _ _ _ _ _ _ _ _ S3); [lia|]. replace (j + 1 - 25)%Z with (j - 25 + 1)%Z by lia. replace (j + 1 + 1 - 25)%Z with (j - 25 + 1 + 1)%Z by lia. rewrite !p2S. lra.
Qed.
Lemma le_app : forall j k e f a b x y, app j e a x -> app k f b y -> (x + (e + f) <= y -> SFleb a b = true) /\ (SFleb a b = true -> x <= y + (e + f)).
Proof.
  intros j k e f a b x y (Na & _ & Ea) (Nb & _ & Eb). apply Rabs_le_inv in Ea, Eb. rewrite (le_value a b Na Nb). lra.
Qed.
(** a point well inside a sphere is reported inside, a point well outside is not; likewise for spheres that meet *)
Lemma C77_ball_ok : forall l k s p, (-40 <= k <= 60)%Z -> length s = 4%nat -> length p = 3%nat -> bounded_by (powerRZ 2 k) s -> bounded_by (powerRZ 2 k) p ->
  exists r, computes (B32 l) glm_sphere_point [In (fl s); In (fl p)] (VB r) [] /\
  let d2 := norm2 (vsub (map rval p) (firstn 3 (map rval s))) in let R2 := nth 3 (map rval s) 0 * nth 3 (map rval s) 0 in let e := 61 * powerRZ 2 (2 * k - 25) in
  (d2 + e <= R2 -> r = true) /\ (r = true -> d2 <= R2 + e).
Proof.
  intros l k s p K Ls Lp Bs Bp. un4 s x y z w. un3 p p0 p1 p2.
  exists (SFleb (fadd (fadd (fmul (fsub p0 x) (fsub p0 x)) (fmul (fsub p1 y) (fsub p1 y))) (fmul (fsub p2 z) (fsub p2 z))) (fmul w w)). split; [brun|].
  unfold bounded_by in *. repeat match goal with H : Forall _ (_ :: _) |- _ => inversion_clear H | H : Forall _ [] |- _ => clear H end.
  repeat match goal with H : number _ /\ _ |- _ => destruct H end. cbv zeta.
  assert (A : forall u v, number u -> number v -> Rabs (rval u) <= powerRZ 2 k -> Rabs (rval v) <= powerRZ 2 k -> app (2 * k + 2) (12 * powerRZ 2 (2 * k - 25)) (fmul (fsub u v) (fsub u v)) ((rval u - rval v) * (rval u - rval v))) by (intros; apply square_app; auto).
  pose proof (p2pos (2 * k - 25)).
  pose proof (sum3_app (2 * k + 2) _ _ _ _ _ _ _ ltac:(lia) (A p0 x ltac:(auto) ltac:(auto) ltac:(auto) ltac:(auto)) (A p1 y ltac:(auto) ltac:(auto) ltac:(auto) ltac:(auto)) (A p2 z ltac:(auto) ltac:(auto) ltac:(auto) ltac:(auto)) ltac:(lra)) as S.
  pose proof (app_mul k k 0 0 w w (rval w) (rval w) ltac:(lia) (app_exact k w ltac:(auto) ltac:(auto)) (app_exact k w ltac:(auto) ltac:(auto)) ltac:(auto)) as M.
  destruct (le_app _ _ _ _ _ _ _ _ S M) as [L1 L2]. clear S M.
  assert (E : powerRZ 2 (2 * k + 2 - 25) = 4 * powerRZ 2 (2 * k - 25)) by (replace (2 * k + 2 - 25)%Z with (2 * k - 25 + 2)%Z by lia; rewrite powerRZ_add by lra; simpl (powerRZ 2 2); ring).
  replace (k + k - 25)%Z with (2 * k - 25)%Z in * by lia. rewrite E in *. lcbv. split; intros Q; [apply L1|apply L2 in Q]; lra.
Qed.
Lemma C77_spheres_ok : forall l k s t, (-40 <= k <= 60)%Z -> length s = 4%nat -> length t = 4%nat -> bounded_by (powerRZ 2 k) s -> bounded_by (powerRZ 2 k) t ->
  exists r, computes (B32 l) glm_sphere_sphere [In (fl s); In (fl t)] (VB r) [] /\
  let d2 := norm2 (vsub (firstn 3 (map rval s)) (firstn 3 (map rval t))) in let R := nth 3 (map rval s) 0 + nth 3 (map rval t) 0 in let e := 72 * powerRZ 2 (2 * k - 25) in
  (d2 + e <= R * R -> r = true) /\ (r = true -> d2 <= R * R + e).
Proof.
  intros l k s p K Ls Lp Bs Bp. un4 s x y z w. un4 p p0 p1 p2 v.
  exists (SFleb (fadd (fadd (fmul (fsub x p0) (fsub x p0)) (fmul (fsub y p1) (fsub y p1))) (fmul (fsub z p2) (fsub z p2))) (fmul (fadd w v) (fadd w v))). split; [brun|].
  unfold bounded_by in *. repeat match goal with H : Forall _ (_ :: _) |- _ => inversion_clear H | H : Forall _ [] |- _ => clear H end.
  repeat match goal with H : number _ /\ _ |- _ => destruct H end. cbv zeta.
  assert (A : forall u v, number u -> number v -> Rabs (rval u) <= powerRZ 2 k -> Rabs (rval v) <= powerRZ 2 k -> app (2 * k + 2) (12 * powerRZ 2 (2 * k - 25)) (fmul (fsub u v) (fsub u v)) ((rval u - rval v) * (rval u - rval v))) by (intros; apply square_app; auto).
  pose proof (p2pos (2 * k - 25)).
  pose proof (sum3_app (2 * k + 2) _ _ _ _ _ _ _ ltac:(lia) (A x p0 ltac:(auto) ltac:(auto) ltac:(auto) ltac:(auto)) (A y p1 ltac:(auto) ltac:(auto) ltac:(auto) ltac:(auto)) (A z p2 ltac:(auto) ltac:(auto) ltac:(auto) ltac:(auto)) ltac:(lra)) as S.
  destruct (square_app k w v K ltac:(auto) ltac:(auto) ltac:(auto) ltac:(auto)) as [_ M].
  destruct (le_app _ _ _ _ _ _ _ _ S M) as [L1 L2]. clear S M.
  assert (E : powerRZ 2 (2 * k + 2 - 25) = 4 * powerRZ 2 (2 * k - 25)) by (replace (2 * k + 2 - 25)%Z with (2 * k - 25 + 2)%Z by lia; rewrite powerRZ_add by lra; simpl (powerRZ 2 2); ring).
  rewrite E in *. lcbv. split; intros Q; [apply L1|apply L2 in Q]; lra.
Qed.
Lemma C77_ball_ex : let s := map (fun n => b_lit n 1) [0; 0; 1; 5]%Z in let p := map (fun n => b_lit n 1) [1; 1; 1]%Z in
  bounded_by (powerRZ 2 3) s /\ bounded_by (powerRZ 2 3) p /\ norm2 (vsub (map rval p) (firstn 3 (map rval s))) + 61 * powerRZ 2 (2 * 3 - 25) <= nth 3 (map rval s) 0 * nth 3 (map rval s) 0.
Proof.
  destruct v_ints as (V0 & V1 & Vm & V5).
  assert (N : forall n, List.In n [0; 1; -1; 5]%Z -> number (b_lit n 1)) by (simpl; intros n [<-|[<-|[<-|[<-|[]]]]]; split; reflexivity).
  cbv zeta. cbn [map]. split; [|split].
  - repeat apply Forall_cons; try apply Forall_nil; (split; [apply N; simpl; tauto|]); rewrite ?V0, ?V1, ?V5; simpl; apply Rabs_le; lra.
  - repeat apply Forall_cons; try apply Forall_nil; (split; [apply N; simpl; tauto|]); rewrite ?V1; simpl; apply Rabs_le; lra.
  - assert (P : 61 * powerRZ 2 (2 * 3 - 25) <= 1) by (simpl; lra). unfold norm2, rdot. cbn [firstn nth]. rewrite V0, V1, V5. revert P. generalize (61 * powerRZ 2 (2 * 3 - 25)). intros e P. lcbv. lra.
Qed.

(** ** Comparisons without rounding *)
Lemma leb_no : forall x y, number x -> number y -> SFleb x y = false -> ~ rval x <= rval y. Proof. intros x y Nx Ny E H. apply (le_value x y Nx Ny) in H. congruence. Qed.
Ltac cmp := repeat match goal with |- context[SFleb ?x ?y] => let E := fresh "E" in destruct (SFleb x y) eqn:E; [apply le_value in E|apply leb_no in E]; auto; cbn [andb] end.
Lemma conj3 : forall P : nat -> Prop, (forall i, (i < 3)%nat -> P i) <-> (P 0 /\ P 1 /\ P 2)%nat.
Proof. intros P. split; [intros H; repeat split; apply H; lia|]. intros (A & B & C) i Hi. destruct i as [|[|[|i]]]; auto. lia. Qed.
Lemma C77_boxes_ok : forall l b c p, length b = 6%nat -> length c = 6%nat -> length p = 3%nat -> Forall number b -> Forall number c -> Forall number p ->
  (exists r, computes (B32 l) glm_aabb_point [In (fl b); In (fl p)] (VB r) [] /\ (r = true <-> in_aabb 3 (map rval b) (map rval p))) /\
  (exists r, computes (B32 l) glm_aabb_contains [In (fl b); In (fl c)] (VB r) [] /\ (r = true <-> forall i, (i < 3)%nat -> at_ (map rval b) i <= at_ (map rval c) i /\ at_ (map rval c) (3 + i) <= at_ (map rval b) (3 + i))) /\
  (exists r, computes (B32 l) glm_aabb_aabb [In (fl b); In (fl c)] (VB r) [] /\ (r = true <-> forall i, (i < 3)%nat -> at_ (map rval b) i <= at_ (map rval c) (3 + i) /\ at_ (map rval c) i <= at_ (map rval b) (3 + i))).
Proof.
  intros l b c p Lb Lc Lp Nb Nc Np. unlists.
  repeat match goal with H : Forall _ (_ :: _) |- _ => inversion_clear H | H : Forall _ [] |- _ => clear H end.
  split; [|split].
  - eexists. split; [brun|]. rewrite in3. unfold at_. cbn [map nth]. cmp; split; intros; try discriminate; try reflexivity; try tauto; exfalso; lra.
  - eexists. split; [brun|]. rewrite (conj3 (fun i => _ /\ _)). unfold at_. cbn [map nth Nat.add]. cmp; split; intros; try discriminate; try reflexivity; try tauto; exfalso; lra.
  - eexists. split; [brun|]. rewrite (conj3 (fun i => _ /\ _)). unfold at_. cbn [map nth Nat.add]. cmp; split; intros; try discriminate; try reflexivity; try tauto; exfalso; lra.
Qed.
Lemma C77_boxes_ex : let b := map (fun n => b_lit n 1) [0; 0; 0; 5; 5; 5]%Z in let p := map (fun n => b_lit n 1) [1; 0; 5]%Z in
  Forall number b /\ Forall number p /\ in_aabb 3 (map rval b) (map rval p).
Proof.
  destruct v_ints as (V0 & V1 & Vm & V5).
  assert (N : forall n, List.In n [0; 1; -1; 5]%Z -> number (b_lit n 1)) by (simpl; intros n [<-|[<-|[<-|[<-|[]]]]]; split; reflexivity).
  cbv zeta. cbn [map]. split; [|split]; [repeat apply Forall_cons; try apply Forall_nil; apply N; simpl; tauto..|].
  rewrite in3. unfold at_. cbn [nth]. rewrite V0, V1, V5. lra.
Qed.
Lemma C77_spheres_ex : let s := map (fun n => b_lit n 1) [0; 0; 1; 5]%Z in let t := map (fun n => b_lit n 1) [5; -1; 1; 1]%Z in
  bounded_by (powerRZ 2 3) s /\ bounded_by (powerRZ 2 3) t /\
  norm2 (vsub (firstn 3 (map rval s)) (firstn 3 (map rval t))) + 72 * powerRZ 2 (2 * 3 - 25) <= (nth 3 (map rval s) 0 + nth 3 (map rval t) 0) * (nth 3 (map rval s) 0 + nth 3 (map rval t) 0).
Proof.
  destruct v_ints as (V0 & V1 & Vm & V5).
  assert (N : forall n, List.In n [0; 1; -1; 5]%Z -> number (b_lit n 1)) by (simpl; intros n [<-|[<-|[<-|[<-|[]]]]]; split; reflexivity).
  cbv zeta. cbn [map]. split; [|split].
  - repeat apply Forall_cons; try apply Forall_nil; (split; [apply N; simpl; tauto|]); rewrite ?V0, ?V1, ?V5; simpl; apply Rabs_le; lra.
  - repeat apply Forall_cons; try apply Forall_nil; (split; [apply N; simpl; tauto|]); rewrite ?V1, ?Vm, ?V5; simpl; apply Rabs_le; lra.
  - assert (P : 72 * powerRZ 2 (2 * 3 - 25) <= 1) by (simpl; lra). unfold norm2, rdot. cbn [firstn nth]. rewrite V0, V1, V5, Vm. revert P. generalize (72 * powerRZ 2 (2 * 3 - 25)). intros e P. lcbv. lra.
Qed.
