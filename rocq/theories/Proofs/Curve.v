(** * Curves (C52, C53) *)

From Coq Require Import String List ZArith Bool Reals Lra Lia.
From Verif Require Import Cglm.
From Verif.Spec Require Import Linear Geometry ScalarSpec Curve.
From Verif.Proofs Require Import RTac Util Loop.
Import ListNotations.
Local Open Scope R_scope.

Lemma C52_bezier_ok : forall s p0 c0 c1 p1,
  computes RS glm_bezier [Val (VF s); Val (VF p0); Val (VF c0); Val (VF c1); Val (VF p1)] (VF (bernstein p0 c0 c1 p1 s)) [].
Proof. intros. symr. rprep. unfold bernstein. cells fieldl. Qed.
Lemma C52_hermite_ok : forall s p0 t0 t1 p1,
  computes RS glm_hermite [Val (VF s); Val (VF p0); Val (VF t0); Val (VF t1); Val (VF p1)] (VF (hermite p0 t0 t1 p1 s)) [].
Proof. intros. symr. rprep. unfold hermite. cells fieldl. Qed.
Lemma cubic_derive : forall k0 k1 k2 k3 x (f : R -> R) l, (forall s, f s = k0 + k1 * s + k2 * s ^ 2 + k3 * s ^ 3) -> l = k1 + 2 * k2 * x + 3 * k3 * x ^ 2 ->
  derivable_pt_lim f x l.
Proof.
  intros k0 k1 k2 k3 x f l E ->.
  assert (D : derivable_pt_lim (plus_fct (plus_fct (plus_fct (fct_cte k0) (mult_real_fct k1 id)) (mult_real_fct k2 (fun s => s ^ 2))) (mult_real_fct k3 (fun s => s ^ 3))) x
    (0 + k1 * 1 + k2 * (INR 2 * x ^ 1) + k3 * (INR 3 * x ^ 2))).
  { repeat apply derivable_pt_lim_plus; try apply derivable_pt_lim_scal; try apply derivable_pt_lim_const; try apply derivable_pt_lim_id.
    - apply (derivable_pt_lim_pow x 2). - apply (derivable_pt_lim_pow x 3). }
  intros e He. destruct (D e He) as (d & Hd). exists d. intros h H1 H2. specialize (Hd h H1 H2).
  rewrite !E. replace (k1 + 2 * k2 * x + 3 * k3 * x ^ 2) with (0 + k1 * 1 + k2 * (INR 2 * x ^ 1) + k3 * (INR 3 * x ^ 2)) by (simpl; ring). exact Hd.
Qed.
(** both curves pass through their end points with the intended tangents *)
Lemma C52_ends_ok : forall a b c d,
  bernstein a b c d 0 = a /\ bernstein a b c d 1 = d /\
  derivable_pt_lim (bernstein a b c d) 0 (3 * (b - a)) /\ derivable_pt_lim (bernstein a b c d) 1 (3 * (d - c)) /\
  hermite a b c d 0 = a /\ hermite a b c d 1 = d /\
  derivable_pt_lim (hermite a b c d) 0 b /\ derivable_pt_lim (hermite a b c d) 1 c.
Proof.
  intros. unfold bernstein, hermite. repeat split; try ring.
  - apply (cubic_derive a (3 * (b - a)) (3 * (a - 2 * b + c)) (d - 3 * c + 3 * b - a)); intros; ring.
  - apply (cubic_derive a (3 * (b - a)) (3 * (a - 2 * b + c)) (d - 3 * c + 3 * b - a)); intros; ring.
  - apply (cubic_derive a b (3 * d - 3 * a - 2 * b - c) (2 * a - 2 * d + b + c)); intros; ring.
  - apply (cubic_derive a b (3 * d - 3 * a - 2 * b - c) (2 * a - 2 * d + b + c)); intros; ring.
Qed.
Lemma C52_smc_ok : forall s M c, length M = 16%nat -> length c = 4%nat ->
  computes RS glm_smc [Val (VF s); In (fl M); In (fl c)] (VF (rdot [s ^ 3; s ^ 2; s; 1] (mvec 4 4 M c))) [].
Proof. intros. unlists. symr. rprep. cells fieldl. Qed.
(** with the library's two basis matrices it is the curve itself *)
Lemma C52_bases_ok : forall s a b c d,
  rdot [s ^ 3; s ^ 2; s; 1] (mvec 4 4 bezier_mat [a; b; c; d]) = bernstein a b c d s /\
  rdot [s ^ 3; s ^ 2; s; 1] (mvec 4 4 hermite_mat [a; b; c; d]) = hermite a c d b s.
Proof. intros. split; unfold bezier_mat, hermite_mat, bernstein, hermite; lcbv; ring. Qed.

(** ** C53 *)
Section DeCasteljau.
Local Open Scope string_scope.
Definition cj_body : stmt :=
  match glm_decasteljau with
  | Fun _ _ (SSeq _ (SSeq _ (SSeq _ (SSeq _ (SSeq (SFor _ _ _ b) _))))) => b
  | _ => SSkip end.
Definition cj_env (prm p0 c0 c1 p1 u v : R) (a b c d e f i : value R) : env R :=
  [("prm", VF prm); ("p0", VF p0); ("c0", VF c0); ("c1", VF c1); ("p1", VF p1); ("u", VF u); ("v", VF v);
   ("a", a); ("b", b); ("c", c); ("d", d); ("e", e); ("f", f); ("i", i)].
Lemma call_clamp : forall x m, call RS glm_clamp_zo [VF x] m = Ok (VF (clamped 0 1 x), m).
Proof.
  intros. refine (C44_clamp_zo_ok x m [(0%nat, 0%Z)] _). split; [repeat constructor|].
  intros [|i] [|j]; simpl; intros; try congruence; try (destruct i; discriminate). destruct j; discriminate.
Qed.
Lemma cj_step : forall prm p0 c0 c1 p1 u v a b c d e f i m,
  exec RS cj_body (cj_env prm p0 c0 c1 p1 u v a b c d e f (VI i)) m =
  let a := (p0 + c0) * (1/2) in let b := (c0 + c1) * (1/2) in let c := (c1 + p1) * (1/2) in
  let d := (a + b) * (1/2) in let e := (b + c) * (1/2) in let f := (d + e) * (1/2) in
  if Rltb (Rabs (f - prm)) (1/1000000000) then
    Ok (FRet (VF (clamped 0 1 ((u + v) * (1/2)))),
        cj_env prm p0 c0 c1 p1 u v (VF a) (VF b) (VF c) (VF d) (VF e) (VF f) (VI i), m)
  else if Rltb f prm then Ok (FNext, cj_env prm f e c p1 ((u + v) * (1/2)) v (VF a) (VF b) (VF c) (VF d) (VF e) (VF f) (VI i), m)
  else Ok (FNext, cj_env prm p0 a d f u ((u + v) * (1/2)) (VF a) (VF b) (VF c) (VF d) (VF e) (VF f) (VI i), m).
Proof.
  intros. cbv zeta. unfold cj_env, cj_body, glm_decasteljau. pose proof call_clamp as H. revert H. generalize glm_clamp_zo. intros g H.
  cbn -[Rltb Rplus Rmult Rabs Rminus Rdiv IZR R_lit]. fold (call RS).
  change (R_lit 1 2) with (1/2). change (R_lit 1 1000000000) with (1/1000000000).
  destruct (Rltb (Rabs _) _); cbn -[Rltb Rplus Rmult Rabs Rminus Rdiv IZR R_lit call]; [rewrite H; reflexivity|].
  destruct (Rltb _ _); reflexivity.
Qed.

Variables prm q0 k0 k1 q1 : R.
Let B := bernstein q0 k0 k1 q1.
(** the control points kept by the loop describe the part of the curve between u and v, and the target lies between its ends *)
Definition cj_inv (n : nat) (p0 c0 c1 p1 u v : R) : Prop :=
  0 <= u /\ v <= 1 /\ v - u = (/ 2) ^ n /\ (forall x, bernstein p0 c0 c1 p1 x = B (u + (v - u) * x)) /\ p0 < prm <= p1.
Lemma half_pos : forall n, 0 < (/ 2) ^ n.
Proof. intros. apply pow_lt. lra. Qed.
Lemma half_curve : forall p0 c0 c1 p1 x,
  let a := (p0 + c0) * (1/2) in let b := (c0 + c1) * (1/2) in let c := (c1 + p1) * (1/2) in
  let d := (a + b) * (1/2) in let e := (b + c) * (1/2) in let f := (d + e) * (1/2) in
  f = bernstein p0 c0 c1 p1 (1/2) /\ bernstein f e c p1 x = bernstein p0 c0 c1 p1 (1/2 + 1/2 * x) /\ bernstein p0 a d f x = bernstein p0 c0 c1 p1 (1/2 * x).
Proof. intros. unfold f, e, d, c, b, a, bernstein. repeat split; field. Qed.
Lemma cj_loop : forall n k i p0 c0 c1 p1 u v a b c d e f iv, cj_inv k p0 c0 c1 p1 u v ->
  (exists r, 0 <= r <= 1 /\ Rabs (B r - prm) < 1/1000000000 /\ exists r', forall m, forloop RS "i" cj_body n i (cj_env prm p0 c0 c1 p1 u v a b c d e f iv) m = Ok (FRet (VF r), r', m)) \/
  (exists p0' c0' c1' p1' u' v' a' b' c' d' e' f' i', cj_inv (k + n) p0' c0' c1' p1' u' v' /\
    forall m, forloop RS "i" cj_body n i (cj_env prm p0 c0 c1 p1 u v a b c d e f iv) m = Ok (FNext, cj_env prm p0' c0' c1' p1' u' v' a' b' c' d' e' f' i', m)).
Proof.
  induction n; intros k i p0 c0 c1 p1 u v a b c d e f iv I.
  - right. rewrite Nat.add_0_r. repeat eexists; try apply I.
  - assert (St : forall m, forloop RS "i" cj_body (Datatypes.S n) i (cj_env prm p0 c0 c1 p1 u v a b c d e f iv) m =
      do (fl, r1, m1) <- exec RS cj_body (cj_env prm p0 c0 c1 p1 u v a b c d e f (VI i)) m;
      match fl with FNext => forloop RS "i" cj_body n (i + 1) r1 m1 | FRet v => Ok (FRet v, r1, m1) end) by reflexivity.
    setoid_rewrite St. clear St. setoid_rewrite cj_step. cbv zeta.
    destruct I as (Hu & Hv & Hd & HB & Hp). pose proof (half_pos k) as P.
    pose proof (half_curve p0 c0 c1 p1) as HC. cbv zeta in HC.
    set (a0 := (p0 + c0) * (1/2)) in *. set (b0 := (c0 + c1) * (1/2)) in *. set (cc := (c1 + p1) * (1/2)) in *.
    set (dd := (a0 + b0) * (1/2)) in *. set (ee := (b0 + cc) * (1/2)) in *. set (ff := (dd + ee) * (1/2)) in *.
    assert (F : ff = B ((u + v) * (1/2))). { destruct (HC 0) as (-> & _). rewrite HB. f_equal. field. }
    destruct (Rltb (Rabs (ff - prm)) (1/1000000000)) eqn:E; cbn [rbind].
    + left. apply Rltb_true in E. exists ((u + v) * (1/2)). split; [lra|]. rewrite <- F. split; [exact E|].
      eexists. intros m. unfold clamped. assert (Rltb ((u+v)*(1/2)) 0 = false) by (apply Rltb_false; lra). 
      repeat f_equal. rmm. rifs; lra.
    + destruct (Rltb ff prm) eqn:L; cbn [rbind].
      * apply Rltb_true in L. replace (k + Datatypes.S n)%nat with (Datatypes.S k + n)%nat by lia. apply IHn.
        split; [lra|]. split; [lra|]. split; [simpl; lra|]. split; [|lra].
        intros x. destruct (HC x) as (_ & -> & _). rewrite HB. f_equal. field.
      * apply Rltb_false in L. replace (k + Datatypes.S n)%nat with (Datatypes.S k + n)%nat by lia. apply IHn.
        split; [lra|]. split; [lra|]. split; [simpl; lra|]. split; [|lra].
        intros x. destruct (HC x) as (_ & _ & ->). rewrite HB. f_equal. field.
Qed.
Lemma B_continuous : continuity B.
Proof. unfold B, bernstein. reg. Qed.
Lemma cj_end : forall n p0 c0 c1 p1 u v, cj_inv n p0 c0 c1 p1 u v ->
  0 <= (u + v) * (1/2) <= 1 /\ exists s, 0 <= s <= 1 /\ B s = prm /\ Rabs ((u + v) * (1/2) - s) <= (/ 2) ^ (n + 1).
Proof.
  intros n p0 c0 c1 p1 u v (Hu & Hv & Hd & HB & Hp). pose proof (half_pos n). split; [lra|].
  assert (E0 : p0 = B u). { rewrite <- (Rplus_0_r u), <- (Rmult_0_r (v - u)), <- HB. unfold bernstein. ring. }
  assert (E1 : p1 = B v). { replace v with (u + (v - u) * 1) by ring. rewrite <- HB. unfold bernstein. ring. }
  destruct (IVT_cor (fun x => B x - prm) u v) as (s & Hs & E).
  - apply continuity_minus; [apply B_continuous|apply continuity_const; intros ? ?; reflexivity].
  - lra.
  - rewrite <- E0, <- E1. nra.
  - exists s. split; [lra|]. split; [lra|]. rewrite pow_add. simpl. apply Rabs_le. lra.
Qed.
End DeCasteljau.

Ltac cj_start := unfold glm_decasteljau; rewrite call_fun; cbn [bind_params bind_locals rbind app]; rewrite exec_seq, exec_if;
  cbn -[Rltb Rplus Rmult Rabs Rminus Rdiv IZR R_lit exec forloop firstn].
(** the solver always returns a parameter in [0, 1]; outside the special cases at the two ends it is a parameter whose
    curve value is within 1e-9 of the target, or after 1000 halvings one that lies within 2^-1001 of an exact solution *)
Lemma C53_decasteljau_ok : forall prm p0 c0 c1 p1, exists r,
  computes RS glm_decasteljau [Val (VF prm); Val (VF p0); Val (VF c0); Val (VF c1); Val (VF p1)] (VF r) [] /\ 0 <= r <= 1 /\
  (prm - p0 < 1/100000000000000000000 -> r = 0) /\
  (1/100000000000000000000 <= prm - p0 -> p1 - prm < 1/100000000000000000000 -> r = 1) /\
  (1/100000000000000000000 <= prm - p0 -> 1/100000000000000000000 <= p1 - prm ->
     Rabs (bernstein p0 c0 c1 p1 r - prm) < 1/1000000000 \/
     exists s, 0 <= s <= 1 /\ bernstein p0 c0 c1 p1 s = prm /\ Rabs (r - s) <= (/ 2) ^ 1001).
Proof.
  intros prm p0 c0 c1 p1.
  set (small := 1/100000000000000000000).
  assert (X : exists r, (forall m, call RS glm_decasteljau [VF prm; VF p0; VF c0; VF c1; VF p1] m = Ok (VF r, m)) /\ 0 <= r <= 1 /\
    (prm - p0 < small -> r = 0) /\ (small <= prm - p0 -> p1 - prm < small -> r = 1) /\
    (small <= prm - p0 -> small <= p1 - prm -> Rabs (bernstein p0 c0 c1 p1 r - prm) < 1/1000000000 \/
     exists s, 0 <= s <= 1 /\ bernstein p0 c0 c1 p1 s = prm /\ Rabs (r - s) <= (/ 2) ^ 1001)).
  { destruct (Rltb (prm - p0) small) eqn:E0; [|destruct (Rltb (p1 - prm) small) eqn:E1].
    - exists 0. split; [|apply Rltb_true in E0; repeat split; lra]. intros m. 
      change small with (R_lit 1 100000000000000000000) in E0.
      cj_start. rewrite E0. rewrite exec_ret. cbn [rbind eval]. rewrite firstn_all. reflexivity.
    - exists 1. split; [|apply Rltb_true in E1; apply Rltb_false in E0; repeat split; lra].
      intros m. change small with (R_lit 1 100000000000000000000) in E0, E1.
      cj_start. rewrite E0. rewrite exec_skip. cbn [rbind]. rewrite exec_seq, exec_if. cbn -[Rltb Rplus Rmult Rabs Rminus Rdiv IZR R_lit exec forloop firstn].
      rewrite E1. rewrite exec_ret. cbn [rbind eval]. rewrite firstn_all. reflexivity.
    - apply Rltb_false in E0. apply Rltb_false in E1.
      assert (I : cj_inv prm p0 c0 c1 p1 0 p0 c0 c1 p1 0 1).
      { unfold small in *. repeat split; simpl; try lra. intros. f_equal. ring. }
      pose proof (cj_loop prm p0 c0 c1 p1 1000 0 0 p0 c0 c1 p1 0 1 VU VU VU VU VU VU VU I) as L.
      assert (St : forall m, call RS glm_decasteljau [VF prm; VF p0; VF c0; VF c1; VF p1] m =
        do (fl, _, m3) <- (do (fl, r1, m1) <- forloop RS "i" cj_body 1000 0 (cj_env prm p0 c0 c1 p1 0 1 VU VU VU VU VU VU VU) m;
           match fl with FNext => do (v, m2) <- eval RS (glm_clamp_zo$(((EV "u" + EV "v") * EF 1 2))%mc) r1 m1; Ok (FRet v, r1, m2) | FRet v => Ok (FRet v, r1, m1) end);
        let m4 := firstn (length m) m3 in match fl with FNext => Ok (VVoid, m4) | FRet v => Ok (v, m4) end).
      { intros m. apply Rltb_false in E0. apply Rltb_false in E1. change small with (R_lit 1 100000000000000000000) in E0, E1.
        cj_start. rewrite E0. rewrite exec_skip. cbn [rbind]. rewrite exec_seq, exec_if. cbn -[Rltb Rplus Rmult Rabs Rminus Rdiv IZR R_lit exec forloop firstn].
        rewrite E1. rewrite exec_skip. cbn [rbind]. rewrite exec_seq, exec_set. cbn -[Rltb Rplus Rmult Rabs Rminus Rdiv IZR R_lit exec forloop firstn].
        rewrite exec_seq, exec_set. cbn -[Rltb Rplus Rmult Rabs Rminus Rdiv IZR R_lit exec forloop firstn].
        rewrite exec_seq, exec_for. reflexivity. }
      pose proof (cj_end prm p0 c0 c1 p1) as En.
      destruct L as [(r & Hr & Hb & r' & L)|(p0' & c0' & c1' & p1' & u' & v' & a' & b' & c' & d' & e' & f' & i' & I' & L)].
      + exists r. split; [|split; [exact Hr|]; split; [lra|]; split; [lra|]; auto].
        intros m. rewrite St, L. cbn [rbind]. rewrite firstn_all. reflexivity.
      + destruct (En _ _ _ _ _ _ _ I') as (Hr & s & Hs & Hb & Hd). exists ((u' + v') * (1/2)).
        split; [|split; [exact Hr|]; split; [lra|]; split; [lra|]]; [|intros _ _; right; exists s; split; [exact Hs|]; split; [exact Hb|]; replace 1001%nat with (0 + 1000 + 1)%nat by lia; exact Hd].
        intros m. rewrite St, L. clear -Hr. cbn [rbind]. pose proof call_clamp as H. revert H. generalize glm_clamp_zo. intros g H.
        cbn -[Rltb Rplus Rmult Rabs Rminus Rdiv IZR R_lit firstn]. fold (call RS). rewrite H. cbn [rbind]. rewrite firstn_all.
        change (R_lit 1 2) with (1/2). unfold clamped. rifs; try reflexivity; exfalso; lra. }
  destruct X as (r & C & D). exists r. split; [|exact D]. intros m ps L. destruct L as [P _]. unfold placed in P.
  repeat match goal with H : Forall2 _ _ _ |- _ => inversion H; clear H; subst end. exact (C m).
Qed.

(** the two special cases and the general one do occur *)
Lemma C53_decasteljau_ex : 1/100000000000000000000 <= 1/4 - 0 /\ 1/100000000000000000000 <= 1 - 1/4 /\
  bernstein 0 (1/3) (2/3) 1 (1/4) = 1/4 /\ 0 - 0 < 1/100000000000000000000 /\ 1 - 1 < 1/100000000000000000000.
Proof. unfold bernstein. repeat split; lra. Qed.
