(** * Ranges and monotonicity of scalar functions in single precision (C76) *)

From Coq Require Import String List ZArith Bool Reals Lra Lia Psatz Floats.SpecFloat.
From Flocq Require Import Core.
From Verif Require Import MiniC Sym SymSound Contract SymCall SymTac Tac Cglm B32.
From Verif.Spec Require Import Float32 Ranges.
From Verif.Proofs Require Import Flo Ieee IeeeId ApproxSound.
Import ListNotations.
(* props: From Coq Require Import Reals Floats.SpecFloat. *)
(* props: From Verif Require Import B32. *)
(* props: From Verif.Spec Require Import Float32 Ranges. *)
Local Open Scope R_scope.

Notation fmul := (SFmul prec emax).
Notation fadd := (SFadd prec emax).
Notation fsub := (SFsub prec emax).
Notation fdiv := (SFdiv prec emax).
Notation fsqrt := (SFsqrt prec emax).

(** ** Constants *)
Definition fixp (r : R) : Prop := rnd r = r /\ Rabs r < big.
Lemma fix_b : forall x r, number x -> rval x = r -> fixp r.
Proof. intros x r [V F] <-. split; [apply rnd_id; auto|apply value_big; auto]. Qed.
Ltac vnum := cbn [rval powerRZ Z.opp Pos.to_nat Pos.iter_op Init.Nat.add pow Pos.iter Z.pow_pos]; cbv [powerRZ Pos.to_nat Pos.iter_op Init.Nat.add pow]; try lra.
Lemma fix_0 : fixp 0. Proof. apply (fix_b b0); [repeat split|reflexivity]. Qed.
Lemma fix_lit : forall n d, number (b_lit n d) -> forall r, rval (b_lit n d) = r -> fixp r.
Proof. intros. eapply fix_b; eauto. Qed.
Ltac vlit := match goal with |- rval ?x = _ => let v := eval vm_compute in x in change x with v; vnum end.
Lemma v_0 : rval (b_lit 0 1) = 0. Proof. vlit. Qed.
Lemma v_1 : rval (b_lit 1 1) = 1. Proof. vlit. Qed.
Lemma v_2 : rval (b_lit 2 1) = 2. Proof. vlit. Qed.
Lemma v_3 : rval (b_lit 3 1) = 3. Proof. vlit. Qed.
Lemma v_4 : rval (b_lit 4 1) = 4. Proof. vlit. Qed.
Lemma v_8 : rval (b_lit 8 1) = 8. Proof. vlit. Qed.
Lemma v_16 : rval (b_lit 16 1) = 16. Proof. vlit. Qed.
Lemma v_h : rval (b_lit 1 2) = 1 / 2. Proof. vlit. Qed.
Lemma v_q : rval (b_lit 1 4) = 1 / 4. Proof. vlit. Qed.
Lemma v_m1 : rval (b_lit (-1) 1) = -1. Proof. vlit. Qed.
Lemma v_m2 : rval (b_lit (-2) 1) = -2. Proof. vlit. Qed.
Lemma v_m8 : rval (b_lit (-8) 1) = -8. Proof. vlit. Qed.
Lemma v_mh : rval (b_lit (-1) 2) = - (1 / 2). Proof. vlit. Qed.
Lemma f_1 : fixp 1. Proof. apply (fix_lit 1 1); [repeat split|apply v_1]. Qed.
Lemma f_2 : fixp 2. Proof. apply (fix_lit 2 1); [repeat split|apply v_2]. Qed.
Lemma f_4 : fixp 4. Proof. apply (fix_lit 4 1); [repeat split|apply v_4]. Qed.
Lemma f_h : fixp (1 / 2). Proof. apply (fix_lit 1 2); [repeat split|apply v_h]. Qed.
Lemma f_q : fixp (1 / 4). Proof. apply (fix_lit 1 4); [repeat split|apply v_q]. Qed.
Lemma f_m1 : fixp (-1). Proof. apply (fix_lit (-1) 1); [repeat split|apply v_m1]. Qed.
Lemma f_m2 : fixp (-2). Proof. apply (fix_lit (-2) 1); [repeat split|apply v_m2]. Qed.
Lemma f_mh : fixp (- (1 / 2)). Proof. apply (fix_lit (-1) 2); [repeat split|apply v_mh]. Qed.
Create HintDb fx.
#[local] Hint Resolve fix_0 f_1 f_2 f_4 f_h f_q f_m1 f_m2 f_mh : fx.
#[local] Hint Rewrite v_0 v_1 v_2 v_3 v_4 v_8 v_16 v_h v_q v_m1 v_m2 v_m8 v_mh : fv.

(** ** One operation with a result in a range *)
Lemma rnd_in : forall a b r, fixp a -> fixp b -> a <= r <= b -> a <= rnd r <= b /\ Rabs (rnd r) < big.
Proof.
  intros a b r [A1 A2] [B1 B2] [L H]. apply rnd_le in L, H. rewrite A1 in L. rewrite B1 in H. split; [lra|].
  apply Rabs_def2 in A2, B2. apply Rabs_def1; lra.
Qed.
Lemma mul_r : forall a b x y, fixp a -> fixp b -> number x -> number y -> a <= rval x * rval y <= b -> between a b (fmul x y) /\ rval (fmul x y) = rnd (rval x * rval y).
Proof.
  intros a b x y A B X Y H. destruct (rnd_in _ _ _ A B H) as [K L]. destruct (mul_rnd x y X Y) as [F1 F2]. specialize (F2 L). specialize (F1 F2).
  split; auto. split; [split; auto; apply mul_valid; [apply X|apply Y]|]. rewrite F1. auto.
Qed.
Lemma add_r : forall a b x y, fixp a -> fixp b -> number x -> number y -> a <= rval x + rval y <= b -> between a b (fadd x y) /\ rval (fadd x y) = rnd (rval x + rval y).
Proof.
  intros a b x y A B X Y H. destruct (rnd_in _ _ _ A B H) as [K L]. destruct (add_rnd x y X Y) as [F1 F2]. specialize (F2 L). specialize (F1 F2).
  split; auto. split; [split; auto; apply add_valid; [apply X|apply Y]|]. rewrite F1. auto.
Qed.
Lemma sub_r : forall a b x y, fixp a -> fixp b -> number x -> number y -> a <= rval x - rval y <= b -> between a b (fsub x y) /\ rval (fsub x y) = rnd (rval x - rval y).
Proof.
  intros a b x y A B X Y H. destruct (rnd_in _ _ _ A B H) as [K L]. destruct (sub_rnd x y X Y) as [F1 F2]. specialize (F2 L). specialize (F1 F2).
  split; auto. split; [split; auto; apply sub_valid; [apply X|apply Y]|]. rewrite F1. auto.
Qed.
Lemma sqrt_r : forall x, between 0 1 x -> between 0 1 (fsqrt x) /\ rval (fsqrt x) = rnd (sqrt (rval x)).
Proof.
  intros x [X [L H]]. destruct (sqrt_rnd x X L) as [F E]. split; auto. split; [split; auto; apply sqrt_valid; apply X|]. rewrite E.
  apply (rnd_in 0 1); auto with fx. split; [apply sqrt_pos|]. rewrite <- sqrt_1. apply sqrt_le_1_alt. auto.
Qed.

(** ** Monotone functions *)
Definition ord (up : bool) (x y : R) : Prop := if up then x <= y else y <= x.
Section Mono.
Variable D : b32 -> Prop.
Definition mono (up : bool) (a b : R) (g : b32 -> b32) : Prop :=
  (forall t, D t -> between a b (g t)) /\ forall s t, D s -> D t -> rval s <= rval t -> ord up (rval (g s)) (rval (g t)).
Lemma mono_const : forall up n d, number (b_lit n d) -> mono up (rval (b_lit n d)) (rval (b_lit n d)) (fun _ => b_lit n d).
Proof. intros up n d N. split; [intros; split; auto; lra|]. intros. destruct up; simpl; lra. Qed.
Lemma ord_rnd : forall up x y, ord up x y -> ord up (rnd x) (rnd y).
Proof. intros [] x y H; apply rnd_le; exact H. Qed.
Lemma mono_mul : forall up u1 a1 b1 u2 a2 b2 a b f g, mono u1 a1 b1 f -> mono u2 a2 b2 g -> fixp a -> fixp b ->
  (forall x y, a1 <= x <= b1 -> a2 <= y <= b2 -> a <= x * y <= b) ->
  (forall x y x' y', a1 <= x <= b1 -> a2 <= y <= b2 -> a1 <= x' <= b1 -> a2 <= y' <= b2 -> ord u1 x x' -> ord u2 y y' -> ord up (x * y) (x' * y')) ->
  mono up a b (fun t => fmul (f t) (g t)).
Proof.
  intros up u1 a1 b1 u2 a2 b2 a b f g [F1 F2] [G1 G2] A B HR HM.
  assert (E : forall t, D t -> between a b (fmul (f t) (g t)) /\ rval (fmul (f t) (g t)) = rnd (rval (f t) * rval (g t))).
  { intros t H. apply mul_r; auto; [apply F1|apply G1|apply HR; [apply F1|apply G1]]; auto. }
  split; [intros t H; apply E; auto|]. intros s t Hs Ht L. destruct (E s Hs) as [_ ->], (E t Ht) as [_ ->]. apply ord_rnd. apply HM; auto; [apply F1|apply G1|apply F1|apply G1]; auto.
Qed.
Lemma mono_add : forall up a1 b1 a2 b2 a b f g, mono up a1 b1 f -> mono up a2 b2 g -> fixp a -> fixp b -> a <= a1 + a2 -> b1 + b2 <= b ->
  mono up a b (fun t => fadd (f t) (g t)).
Proof.
  intros up a1 b1 a2 b2 a b f g [F1 F2] [G1 G2] A B HA HB.
  assert (E : forall t, D t -> between a b (fadd (f t) (g t)) /\ rval (fadd (f t) (g t)) = rnd (rval (f t) + rval (g t))).
  { intros t H. destruct (F1 t H) as [NF RF], (G1 t H) as [NG RG]. apply add_r; auto; lra. }
  split; [intros t H; apply E; auto|]. intros s t Hs Ht L. destruct (E s Hs) as [_ ->], (E t Ht) as [_ ->]. apply ord_rnd.
  specialize (F2 s t Hs Ht L). specialize (G2 s t Hs Ht L). destruct up; simpl in *; lra.
Qed.
Lemma mono_sub : forall up a1 b1 a2 b2 a b f g, mono up a1 b1 f -> mono (negb up) a2 b2 g -> fixp a -> fixp b -> a <= a1 - b2 -> b1 - a2 <= b ->
  mono up a b (fun t => fsub (f t) (g t)).
Proof.
  intros up a1 b1 a2 b2 a b f g [F1 F2] [G1 G2] A B HA HB.
  assert (E : forall t, D t -> between a b (fsub (f t) (g t)) /\ rval (fsub (f t) (g t)) = rnd (rval (f t) - rval (g t))).
  { intros t H. destruct (F1 t H) as [NF RF], (G1 t H) as [NG RG]. apply sub_r; auto; lra. }
  split; [intros t H; apply E; auto|]. intros s t Hs Ht L. destruct (E s Hs) as [_ ->], (E t Ht) as [_ ->]. apply ord_rnd.
  specialize (F2 s t Hs Ht L). specialize (G2 s t Hs Ht L). destruct up; simpl in *; lra.
Qed.
Lemma mono_sqrt : forall up f, mono up 0 1 f -> mono up 0 1 (fun t => fsqrt (f t)).
Proof.
  intros up f [F1 F2]. split; [intros t H; apply sqrt_r; auto|]. intros s t Hs Ht L.
  destruct (sqrt_r _ (F1 s Hs)) as [_ ->], (sqrt_r _ (F1 t Ht)) as [_ ->]. apply ord_rnd. specialize (F2 s t Hs Ht L). destruct up; simpl in *; apply sqrt_le_1_alt; auto.
Qed.
End Mono.
Lemma mono_id : forall a b, mono (between a b) true a b (fun t => t).
Proof. intros a b. split; auto. Qed.
Lemma between_unit : forall a b t, 0 <= a -> b <= 1 -> between a b t -> between 0 1 t.
Proof. intros a b t A B [N H]. split; auto; lra. Qed.

(** the two halves of a function with a branch at 1/2 *)
Lemma mono_join : forall g1 g2, mono (between 0 (1 / 2)) true 0 (1 / 2) g1 -> mono (between (1 / 2) 1) true (1 / 2) 1 g2 ->
  mono (between 0 1) true 0 1 (fun t => if SFltb t (b_lit 1 2) then g1 t else g2 t).
Proof.
  intros g1 g2 [F1 F2] [G1 G2].
  assert (LT : forall t, between 0 1 t -> if SFltb t (b_lit 1 2) then between 0 (1 / 2) t else between (1 / 2) 1 t).
  { intros t [N H]. pose proof (lt_value t (b_lit 1 2) N ltac:(split; reflexivity)) as E. rewrite v_h in E. destruct (SFltb t (b_lit 1 2)).
    - destruct E as [E _]. specialize (E eq_refl). split; auto; lra.
    - split; auto. destruct (Rlt_le_dec (rval t) (1 / 2)) as [K|K]; [|lra]. apply E in K. discriminate. }
  split.
  - intros t H. pose proof (LT t H). destruct (SFltb t (b_lit 1 2)); [destruct (F1 t)|destruct (G1 t)]; auto; split; auto; lra.
  - intros s t Hs Ht L. pose proof (LT s Hs) as Ls. pose proof (LT t Ht) as Lt. destruct (SFltb s (b_lit 1 2)) eqn:Es, (SFltb t (b_lit 1 2)) eqn:Et; auto.
    + destruct (F1 s), (G1 t); auto. simpl. lra.
    + exfalso. apply (lt_value t (b_lit 1 2)) in Et; [|apply Lt|split; reflexivity]. rewrite v_h in Et.
      assert (K : rval s < rval (b_lit 1 2)) by (rewrite v_h; lra). apply lt_value in K; [congruence|apply Ls|split; reflexivity].
Qed.
Lemma mono_lit : forall up D n d r, number (b_lit n d) -> rval (b_lit n d) = r -> mono D up r r (fun _ => b_lit n d).
Proof. intros up D n d r N <-. apply mono_const. auto. Qed.
Ltac nl := repeat match goal with |- forall _, _ => intro end; simpl ord in *; repeat match goal with |- _ /\ _ => split end; nra.
Ltac arg := first [eassumption | apply mono_id | first [eapply (mono_lit true) | eapply (mono_lit false)]; [split; reflexivity|first [apply v_0|apply v_1|apply v_2|apply v_3|apply v_4|apply v_8|apply v_16|apply v_h|apply v_m1|apply v_m2|apply v_m8|apply v_mh]]].
Ltac opm := first [eapply mono_mul; [arg|arg|auto with fx|auto with fx|nl|nl] | eapply mono_add; [arg|arg|auto with fx|auto with fx|lra|lra] | eapply mono_sub; [arg|arg|auto with fx|auto with fx|lra|lra]].
Tactic Notation "have" constr(D) constr(up) constr(a) constr(b) constr(f) := let H := fresh in assert (H : mono D up a b f) by opm.

(** ** Easing functions *)
Lemma quad_in : mono (between 0 1) true 0 1 (fun t => fmul t t).
Proof. opm. Qed.
Lemma cubic_in : mono (between 0 1) true 0 1 (fun t => fmul (fmul t t) t).
Proof. have (between 0 1) true 0 1 (fun t => fmul t t). opm. Qed.
Lemma quart_in : mono (between 0 1) true 0 1 (fun t => fmul (fmul t t) (fmul t t)).
Proof. have (between 0 1) true 0 1 (fun t => fmul t t). opm. Qed.
Lemma quint_in : mono (between 0 1) true 0 1 (fun t => fmul (fmul (fmul t t) (fmul t t)) t).
Proof. pose proof quart_in. opm. Qed.
Notation c1 := (b_lit 1 1).
Notation c2 := (b_lit 2 1).
Notation ch := (b_lit 1 2).
Lemma less_one : mono (between 0 1) true (-1) 0 (fun t => fsub t c1).
Proof. opm. Qed.
Lemma cubic_out : mono (between 0 1) true 0 1 (fun t => fadd (fmul (fmul (fsub t c1) (fsub t c1)) (fsub t c1)) c1).
Proof. pose proof less_one. have (between 0 1) false 0 1 (fun t => fmul (fsub t c1) (fsub t c1)).
  have (between 0 1) true (-1) 0 (fun t => fmul (fmul (fsub t c1) (fsub t c1)) (fsub t c1)). opm. Qed.
Lemma quart_out : mono (between 0 1) true 0 1 (fun t => fadd (fmul (fmul (fmul (fsub t c1) (fsub t c1)) (fsub t c1)) (fsub c1 t)) c1).
Proof. pose proof less_one. have (between 0 1) false 0 1 (fun t => fmul (fsub t c1) (fsub t c1)).
  have (between 0 1) true (-1) 0 (fun t => fmul (fmul (fsub t c1) (fsub t c1)) (fsub t c1)).
  have (between 0 1) false 0 1 (fun t => fsub c1 t).
  have (between 0 1) true (-1) 0 (fun t => fmul (fmul (fmul (fsub t c1) (fsub t c1)) (fsub t c1)) (fsub c1 t)). opm. Qed.
Lemma quint_out : mono (between 0 1) true 0 1 (fun t => fadd (fmul (fmul (fmul (fsub t c1) (fsub t c1)) (fmul (fsub t c1) (fsub t c1))) (fsub t c1)) c1).
Proof. pose proof less_one. have (between 0 1) false 0 1 (fun t => fmul (fsub t c1) (fsub t c1)).
  have (between 0 1) false 0 1 (fun t => fmul (fmul (fsub t c1) (fsub t c1)) (fmul (fsub t c1) (fsub t c1))).
  have (between 0 1) true (-1) 0 (fun t => fmul (fmul (fmul (fsub t c1) (fsub t c1)) (fmul (fsub t c1) (fsub t c1))) (fsub t c1)). opm. Qed.
Definition cubic_lo t := fmul (fmul (fmul (b_lit 4 1) t) t) t.
Definition cubic_hi t := fadd (fmul (fmul (fmul ch (fsub (fmul c2 t) c2)) (fsub (fmul c2 t) c2)) (fsub (fmul c2 t) c2)) c1.
Notation lo_half := (between 0 (1 / 2)).
Notation hi_half := (between (1 / 2) 1).
Lemma cubic_lo_ok : mono lo_half true 0 (1 / 2) cubic_lo.
Proof. have lo_half true 0 2 (fun t => fmul (b_lit 4 1) t). have lo_half true 0 1 (fun t => fmul (fmul (b_lit 4 1) t) t). unfold cubic_lo. opm. Qed.
Lemma twice_less : mono hi_half true (-1) 0 (fun t => fsub (fmul c2 t) c2).
Proof. have hi_half true 1 2 (fun t => fmul c2 t). opm. Qed.
Lemma cubic_hi_ok : mono hi_half true (1 / 2) 1 cubic_hi.
Proof. pose proof twice_less. have hi_half true (- (1 / 2)) 0 (fun t => fmul ch (fsub (fmul c2 t) c2)).
  have hi_half false 0 (1 / 2) (fun t => fmul (fmul ch (fsub (fmul c2 t) c2)) (fsub (fmul c2 t) c2)).
  have hi_half true (- (1 / 2)) 0 (fun t => fmul (fmul (fmul ch (fsub (fmul c2 t) c2)) (fsub (fmul c2 t) c2)) (fsub (fmul c2 t) c2)). unfold cubic_hi. opm. Qed.
Definition quart_lo t := fmul (fmul (b_lit 8 1) (fmul t t)) (fmul t t).
Definition quart_hi t := fadd (fmul (fmul (b_lit (-8) 1) (fmul (fsub t c1) (fsub t c1))) (fmul (fsub t c1) (fsub t c1))) c1.
Lemma quart_lo_ok : mono lo_half true 0 (1 / 2) quart_lo.
Proof. have lo_half true 0 (1 / 4) (fun t => fmul t t). have lo_half true 0 2 (fun t => fmul (b_lit 8 1) (fmul t t)). unfold quart_lo. opm. Qed.
Lemma quart_hi_ok : mono hi_half true (1 / 2) 1 quart_hi.
Proof. have hi_half true (- (1 / 2)) 0 (fun t => fsub t c1). have hi_half false 0 (1 / 4) (fun t => fmul (fsub t c1) (fsub t c1)).
  have hi_half true (-2) 0 (fun t => fmul (b_lit (-8) 1) (fmul (fsub t c1) (fsub t c1))).
  have hi_half true (- (1 / 2)) 0 (fun t => fmul (fmul (b_lit (-8) 1) (fmul (fsub t c1) (fsub t c1))) (fmul (fsub t c1) (fsub t c1))). unfold quart_hi. opm. Qed.
Definition quint_lo t := fmul (fmul (fmul (b_lit 16 1) (fmul t t)) (fmul t t)) t.
Definition quint_hi t := let f := fsub (fmul c2 t) c2 in fadd (fmul (fmul (fmul ch (fmul f f)) (fmul f f)) f) c1.
Lemma quint_lo_ok : mono lo_half true 0 (1 / 2) quint_lo.
Proof. have lo_half true 0 (1 / 4) (fun t => fmul t t). have lo_half true 0 4 (fun t => fmul (b_lit 16 1) (fmul t t)).
  have lo_half true 0 1 (fun t => fmul (fmul (b_lit 16 1) (fmul t t)) (fmul t t)). unfold quint_lo. opm. Qed.
Lemma quint_hi_ok : mono hi_half true (1 / 2) 1 quint_hi.
Proof. pose proof twice_less. have hi_half false 0 1 (fun t => fmul (fsub (fmul c2 t) c2) (fsub (fmul c2 t) c2)).
  have hi_half false 0 (1 / 2) (fun t => fmul ch (fmul (fsub (fmul c2 t) c2) (fsub (fmul c2 t) c2))).
  have hi_half false 0 (1 / 2) (fun t => fmul (fmul ch (fmul (fsub (fmul c2 t) c2) (fsub (fmul c2 t) c2))) (fmul (fsub (fmul c2 t) c2) (fsub (fmul c2 t) c2))).
  have hi_half true (- (1 / 2)) 0 (fun t => fmul (fmul (fmul ch (fmul (fsub (fmul c2 t) c2) (fsub (fmul c2 t) c2))) (fmul (fsub (fmul c2 t) c2) (fsub (fmul c2 t) c2))) (fsub (fmul c2 t) c2)).
  unfold quint_hi. cbv zeta. opm. Qed.
Lemma circ_in : mono (between 0 1) true 0 1 (fun t => fsub c1 (fsqrt (fsub c1 (fmul t t)))).
Proof. have (between 0 1) true 0 1 (fun t => fmul t t). have (between 0 1) false 0 1 (fun t => fsub c1 (fmul t t)).
  assert (mono (between 0 1) false 0 1 (fun t => fsqrt (fsub c1 (fmul t t)))) by (apply mono_sqrt; assumption). opm. Qed.

(** ** Functions whose range depends on the last bit *)
Lemma fix_big : forall n e, (Z.abs n <= 2 ^ 24)%Z -> (-149 <= e)%Z -> (e <= 103 \/ e = 104 /\ Z.abs n < 2 ^ 24)%Z -> fixp (IZR n * bpow radix2 e).
Proof.
  intros n e Hn He He2. assert (A : Rabs (IZR n) <= 16777216) by (rewrite <- abs_IZR; apply IZR_le; exact Hn). split.
  - apply round_generic; [apply valid_rnd_N|]. change fx with (FLT_exp (-149) 24). apply generic_format_FLT.
    destruct (Z.eq_dec (Z.abs n) (2 ^ 24)) as [E|E].
    + assert (n = 2 ^ 24 \/ n = - 2 ^ 24)%Z as [->| ->] by lia.
      * apply (FLT_spec radix2 (-149) 24 _ (Defs.Float radix2 (2 ^ 23) (e + 1))); [unfold F2R; cbn [Fnum Fexp]|reflexivity|cbn [Fexp]; lia].
        rewrite bpow_plus. change (bpow radix2 1) with 2. change (IZR (2 ^ 24)) with 16777216. change (IZR (2 ^ 23)) with 8388608. ring.
      * apply (FLT_spec radix2 (-149) 24 _ (Defs.Float radix2 (- 2 ^ 23) (e + 1))); [unfold F2R; cbn [Fnum Fexp]|reflexivity|cbn [Fexp]; lia].
        rewrite bpow_plus. change (bpow radix2 1) with 2. change (IZR (- 2 ^ 24)) with (-16777216). change (IZR (- 2 ^ 23)) with (-8388608). ring.
    + apply (FLT_spec radix2 (-149) 24 _ (Defs.Float radix2 n e)); cbn [Fnum Fexp]; [reflexivity|change (Z.abs n < 2 ^ 24)%Z; lia|lia].
  - rewrite Rabs_mult, (Rabs_pos_eq (bpow radix2 e)) by apply bpow_ge_0.
    assert (BB : big = bpow radix2 24 * bpow radix2 104) by (rewrite <- bpow_plus; reflexivity). rewrite BB. change (bpow radix2 24) with 16777216.
    destruct He2 as [He2|[-> He2]].
    + assert (K : bpow radix2 e <= bpow radix2 103) by (apply bpow_le; lia). assert (K2 : bpow radix2 103 < bpow radix2 104) by (apply bpow_lt; lia). pose proof (bpow_gt_0 radix2 e). pose proof (Rabs_pos (IZR n)). nra.
    + apply Rmult_lt_compat_r; [apply bpow_gt_0|]. rewrite <- abs_IZR. apply IZR_lt. exact He2.
Qed.
Lemma fix_grid : forall n e, (Z.abs n <= 2 ^ 24)%Z -> (-149 <= e <= 100)%Z -> fixp (IZR n * bpow radix2 e).
Proof. intros. apply fix_big; lia. Qed.
Lemma grid_hi : forall t, hi_half t -> exists k, (0 <= k <= 2 ^ 23)%Z /\ rval t = 1 - IZR k * bpow radix2 (-24).
Proof.
  intros t [[V F] H]. pose proof (format_value t V) as G. change fx with (FLT_exp (-149) 24) in G. apply FLT_format_generic in G; [|reflexivity].
  destruct G as [[n e] E1 E2 E3]. cbn [Fnum Fexp] in *. unfold F2R in E1. cbn [Fnum Fexp] in E1. change (Z.abs n < 2 ^ 24)%Z in E2.
  assert (Ee : (-24 <= e)%Z).
  { destruct (Z.le_gt_cases (-24) e); auto. exfalso. assert (bpow radix2 e <= bpow radix2 (-25)) by (apply bpow_le; lia). assert (IZR n <= 16777215) by (apply IZR_le; lia).
    change (bpow radix2 (-25)) with (/ 33554432) in *. pose proof (bpow_gt_0 radix2 e). rewrite E1 in H. nra. }
  assert (E : rval t = IZR (n * 2 ^ (e + 24)) * bpow radix2 (-24)).
  { rewrite E1, mult_IZR. change 2%Z with (radix_val radix2) at 1. rewrite IZR_Zpower by lia. rewrite Rmult_assoc, <- bpow_plus. f_equal. f_equal. lia. }
  set (k := (n * 2 ^ (e + 24))%Z) in *. clearbody k. clear E1 E2 E3 Ee. exists (2 ^ 24 - k)%Z. rewrite E in *. change (bpow radix2 (-24)) with (/ 16777216) in *. rewrite minus_IZR. change (IZR (2 ^ 24)) with 16777216. split; [|lra].
  assert (8388608 <= IZR k <= 16777216) as [A B] by lra. change 8388608 with (IZR (2 ^ 23)) in A. change 16777216 with (IZR (2 ^ 24)) in B. apply le_IZR in A, B. lia.
Qed.
Lemma tie : forall x y z, number x -> number y -> fadd x y = z -> number z -> rnd (rval x + rval y) = rval z.
Proof. intros x y z X Y <- Z. symmetry. apply add_rnd; auto. apply Z. Qed.
Lemma up_1 : forall r, r <= 1 + / 16777216 -> rnd r <= 1.
Proof.
  intros r H. apply rnd_le in H. pose proof (tie b1 (S754_finite false 8388608 (-47)) b1 ltac:(split; reflexivity) ltac:(split; reflexivity) eq_refl ltac:(split; reflexivity)) as T.
  rewrite value_b1 in T. replace (rval (S754_finite false 8388608 (-47))) with (/ 16777216) in T by vnum. lra.
Qed.
Lemma up_2 : forall r, r <= 2 + / 8388608 -> rnd r <= 2.
Proof.
  intros r H. apply rnd_le in H. pose proof (tie c2 (S754_finite false 8388608 (-46)) c2 ltac:(split; reflexivity) ltac:(split; reflexivity) eq_refl ltac:(split; reflexivity)) as T.
  rewrite v_2 in T. replace (rval (S754_finite false 8388608 (-46))) with (/ 8388608) in T by vnum. lra.
Qed.
Lemma rnd_opp : forall r, rnd (- r) = - rnd r.
Proof. intros r. apply round_NE_opp. Qed.
Lemma hu0 : forall r, Rabs r <= 1 -> Rabs (rnd r - r) <= / 33554432.
Proof. intros r H. pose proof (half_ulp r 0 ltac:(simpl; exact H) ltac:(lia)) as K. replace (powerRZ 2 (0 - 25)) with (/ 33554432) in K; [exact K|]. change (0 - 25)%Z with (-25)%Z. vnum. Qed.
Lemma hu1 : forall r, Rabs r <= 2 -> Rabs (rnd r - r) <= / 16777216.
Proof. intros r H. pose proof (half_ulp r 1 ltac:(simpl; rewrite Rmult_1_r; exact H) ltac:(lia)) as K. replace (powerRZ 2 (1 - 25)) with (/ 16777216) in K; [exact K|]. change (1 - 25)%Z with (-24)%Z. vnum. Qed.
Lemma num_lit : forall n d, inb32 (b_lit n d) = true -> finite (b_lit n d) = true -> number (b_lit n d).
Proof. split; auto. Qed.
Ltac num := split; reflexivity.
Lemma split_half : forall t, between 0 1 t -> between 0 (1 / 2) t \/ hi_half t.
Proof. intros t [N H]. destruct (Rle_lt_dec (rval t) (1 / 2)); [left|right]; split; auto; lra. Qed.
Definition smooth t := fmul (fmul t t) (fsub (b_lit 3 1) (fmul c2 t)).
Lemma smooth_ok : forall t, between 0 1 t -> between 0 1 (smooth t).
Proof.
  intros t H. unfold smooth. destruct (split_half t H) as [L|L].
  - destruct L as [N B]. destruct (mul_r 0 (1 / 4) t t) as [[N1 B1] E1]; auto with fx; [nra|].
    destruct (mul_r 0 1 c2 t) as [[N2 B2] E2]; auto with fx; [num|rewrite v_2; lra|].
    destruct (sub_r 0 4 (b_lit 3 1) (fmul c2 t)) as [[N3 B3] E3]; auto with fx; [num|rewrite v_3; lra|].
    apply mul_r; auto with fx. nra.
  - destruct (grid_hi t L) as (k & Hk & E). destruct L as [N B].
    destruct (mul_r 0 1 t t) as [[N1 B1] E1]; auto with fx; [nra|].
    pose proof (hu0 (rval t * rval t) ltac:(rewrite Rabs_pos_eq; nra)) as U. rewrite <- E1 in U.
    assert (F2 : rval (fmul c2 t) = 2 * rval t /\ number (fmul c2 t)).
    { destruct (mul_r 1 2 c2 t) as [[N2 B2] E2]; auto with fx; [num|rewrite v_2; lra|]. split; auto. rewrite E2, v_2.
      replace (2 * rval t) with (IZR (2 ^ 24 - k) * bpow radix2 (-23)); [apply fix_grid; lia|]. rewrite minus_IZR, E. change (IZR (2 ^ 24)) with 16777216. change (bpow radix2 (-23)) with (/ 8388608). change (bpow radix2 (-24)) with (/ 16777216). lra. }
    destruct F2 as [F2 N2].
    assert (F3 : rval (fsub (b_lit 3 1) (fmul c2 t)) = 3 - 2 * rval t /\ number (fsub (b_lit 3 1) (fmul c2 t))).
    { destruct (sub_r 1 2 (b_lit 3 1) (fmul c2 t)) as [[N3 B3] E3]; auto with fx; [num|rewrite v_3, F2; lra|]. split; auto. rewrite E3, v_3, F2.
      replace (3 - 2 * rval t) with (IZR (2 ^ 23 + k) * bpow radix2 (-23)); [apply fix_grid; lia|]. rewrite plus_IZR, E. change (IZR (2 ^ 23)) with 8388608. change (bpow radix2 (-23)) with (/ 8388608). change (bpow radix2 (-24)) with (/ 16777216). lra. }
    destruct F3 as [F3 N3].
    destruct (mul_r 0 2 (fmul t t) (fsub (b_lit 3 1) (fmul c2 t))) as [[N4 B4] E4]; auto with fx; [rewrite F3; nra|].
    split; auto. split; [lra|]. rewrite E4. apply up_1. rewrite F3. apply Rabs_le_inv in U. set (a := rval (fmul t t)) in *. clearbody a. set (x := rval t) in *. clearbody x.
    assert (0 <= (1 - x) * (1 - x)) by nra. assert (a * (3 - 2 * x) <= (x * x + / 33554432) * (3 - 2 * x)) by (apply Rmult_le_compat_r; lra).
    assert ((x * x) * (3 - 2 * x) <= 1) by nra. lra.
Qed.
Definition quad_out t := SFopp (fmul t (fsub t c2)).
Lemma quad_out_ok : forall t, between 0 1 t -> between 0 1 (quad_out t).
Proof.
  intros t [N B]. unfold quad_out. destruct (sub_r (-2) (-1) t c2) as [[N1 B1] E1]; auto with fx; [num|rewrite v_2; lra|].
  pose proof (hu1 (rval t - rval c2) ltac:(rewrite v_2; apply Rabs_le; lra)) as U. rewrite <- E1, v_2 in U. apply Rabs_le_inv in U.
  destruct (mul_r (-2) 0 t (fsub t c2)) as [[N2 B2] E2]; auto with fx; [nra|].
  split; [split; [apply opp_valid; apply N2|rewrite opp_finite; apply N2]|]. rewrite opp_value. split; [lra|]. rewrite E2, <- rnd_opp. apply up_1.
  set (y := rval (fsub t c2)) in *. clearbody y. nra.
Qed.
Definition circ_out t := fsqrt (fmul (fsub c2 t) t).
Lemma circ_out_ok : forall t, between 0 1 t -> between 0 1 (circ_out t).
Proof.
  intros t [N B]. unfold circ_out. apply sqrt_r. destruct (sub_r 1 2 c2 t) as [[N1 B1] E1]; auto with fx; [num|rewrite v_2; lra|].
  pose proof (hu1 (rval c2 - rval t) ltac:(rewrite v_2; apply Rabs_le; lra)) as U. rewrite <- E1, v_2 in U. apply Rabs_le_inv in U.
  destruct (mul_r 0 2 (fsub c2 t) t) as [[N2 B2] E2]; auto with fx; [nra|].
  split; auto. split; [lra|]. rewrite E2. apply up_1. set (y := rval (fsub c2 t)) in *. clearbody y. nra.
Qed.
Definition quad_lo t := fmul c2 (fmul t t).
Definition quad_hi t := fsub (fadd (fmul (b_lit (-2) 1) (fmul t t)) (fmul (b_lit 4 1) t)) c1.
Lemma quad_lo_ok : mono lo_half true 0 (1 / 2) quad_lo.
Proof. have lo_half true 0 (1 / 4) (fun t => fmul t t). unfold quad_lo. opm. Qed.
Lemma quad_hi_ok : forall t, hi_half t -> between 0 1 (quad_hi t).
Proof.
  intros t L. unfold quad_hi. destruct (grid_hi t L) as (k & Hk & E). destruct L as [N B].
  destruct (mul_r 0 1 t t) as [[N1 B1] E1]; auto with fx; [nra|].
  pose proof (hu0 (rval t * rval t) ltac:(rewrite Rabs_pos_eq; nra)) as U. rewrite <- E1 in U. apply Rabs_le_inv in U.
  destruct (mul_r (-2) 0 (b_lit (-2) 1) (fmul t t)) as [[N2 B2] E2]; auto with fx; [num|rewrite v_m2; lra|].
  pose proof (hu1 (rval (b_lit (-2) 1) * rval (fmul t t)) ltac:(rewrite v_m2; apply Rabs_le; lra)) as U2. rewrite <- E2, v_m2 in U2. apply Rabs_le_inv in U2.
  assert (F3 : rval (fmul (b_lit 4 1) t) = 4 * rval t /\ number (fmul (b_lit 4 1) t)).
  { destruct (mul_r 2 4 (b_lit 4 1) t) as [[N3 B3] E3]; auto with fx; [num|rewrite v_4; lra|]. split; auto. rewrite E3, v_4.
    replace (4 * rval t) with (IZR (2 ^ 24 - k) * bpow radix2 (-22)); [apply fix_grid; lia|]. rewrite minus_IZR, E. change (IZR (2 ^ 24)) with 16777216. change (bpow radix2 (-22)) with (/ 4194304). change (bpow radix2 (-24)) with (/ 16777216). lra. }
  destruct F3 as [F3 N3]. set (x := rval t) in *. set (a := rval (fmul t t)) in *. set (b := rval (fmul (b_lit (-2) 1) (fmul t t))) in *.
  assert (H : 1 <= b + 4 * x <= 2 + / 8388608) by nra.
  destruct (add_r 1 4 (fmul (b_lit (-2) 1) (fmul t t)) (fmul (b_lit 4 1) t)) as [[N4 B4] E4]; auto with fx; [fold b; rewrite F3; lra|].
  assert (B5 : rval (fadd (fmul (b_lit (-2) 1) (fmul t t)) (fmul (b_lit 4 1) t)) <= 2) by (rewrite E4; apply up_2; fold b; rewrite F3; lra).
  apply sub_r; auto with fx; [num|]. rewrite v_1. lra.
Qed.
Definition circ_lo t := fmul ch (fsub c1 (fsqrt (fsub c1 (fmul (b_lit 4 1) (fmul t t))))).
Definition circ_hi t := fmul ch (fadd (fsqrt (fmul (SFopp (fsub (fmul c2 t) (b_lit 3 1))) (fsub (fmul c2 t) c1))) c1).
Lemma circ_lo_ok : mono lo_half true 0 (1 / 2) circ_lo.
Proof.
  have lo_half true 0 (1 / 4) (fun t => fmul t t). have lo_half true 0 1 (fun t => fmul (b_lit 4 1) (fmul t t)).
  have lo_half false 0 1 (fun t => fsub c1 (fmul (b_lit 4 1) (fmul t t))).
  assert (mono lo_half false 0 1 (fun t => fsqrt (fsub c1 (fmul (b_lit 4 1) (fmul t t))))) by (apply mono_sqrt; assumption).
  have lo_half true 0 1 (fun t => fsub c1 (fsqrt (fsub c1 (fmul (b_lit 4 1) (fmul t t))))). unfold circ_lo. opm.
Qed.
Lemma circ_mid : mono hi_half true 0 1 (fun t => fmul (SFopp (fsub (fmul c2 t) (b_lit 3 1))) (fsub (fmul c2 t) c1)).
Proof.
  assert (G : forall t, hi_half t -> between 0 1 (fmul (SFopp (fsub (fmul c2 t) (b_lit 3 1))) (fsub (fmul c2 t) c1)) /\
    rval (fmul (SFopp (fsub (fmul c2 t) (b_lit 3 1))) (fsub (fmul c2 t) c1)) = rnd ((3 - 2 * rval t) * (2 * rval t - 1))).
  { intros t L. destruct (grid_hi t L) as (k & Hk & E). destruct L as [N B]. change (bpow radix2 (-24)) with (/ 16777216) in E.
    assert (F2 : rval (fmul c2 t) = 2 * rval t /\ number (fmul c2 t)).
    { destruct (mul_r 1 2 c2 t) as [[N2 B2] E2]; auto with fx; [num|rewrite v_2; lra|]. split; auto. rewrite E2, v_2.
      replace (2 * rval t) with (IZR (2 ^ 24 - k) * bpow radix2 (-23)); [apply fix_grid; lia|]. rewrite minus_IZR, E. change (IZR (2 ^ 24)) with 16777216. change (bpow radix2 (-23)) with (/ 8388608). lra. }
    destruct F2 as [F2 N2].
    assert (F3 : rval (fsub (fmul c2 t) (b_lit 3 1)) = 2 * rval t - 3 /\ number (fsub (fmul c2 t) (b_lit 3 1))).
    { destruct (sub_r (-2) (-1) (fmul c2 t) (b_lit 3 1)) as [[N3 B3] E3]; auto with fx; [num|rewrite v_3, F2; lra|]. split; auto. rewrite E3, v_3, F2.
      replace (2 * rval t - 3) with (IZR (- (2 ^ 23 + k)) * bpow radix2 (-23)); [apply fix_grid; lia|]. rewrite opp_IZR, plus_IZR, E. change (IZR (2 ^ 23)) with 8388608. change (bpow radix2 (-23)) with (/ 8388608). lra. }
    destruct F3 as [F3 N3].
    assert (F4 : rval (fsub (fmul c2 t) c1) = 2 * rval t - 1 /\ number (fsub (fmul c2 t) c1)).
    { destruct (sub_r 0 1 (fmul c2 t) c1) as [[N4 B4] E4]; auto with fx; [num|rewrite v_1, F2; lra|]. split; auto. rewrite E4, v_1, F2.
      replace (2 * rval t - 1) with (IZR (2 ^ 23 - k) * bpow radix2 (-23)); [apply fix_grid; lia|]. rewrite minus_IZR, E. change (IZR (2 ^ 23)) with 8388608. change (bpow radix2 (-23)) with (/ 8388608). lra. }
    destruct F4 as [F4 N4].
    destruct (mul_r 0 1 (SFopp (fsub (fmul c2 t) (b_lit 3 1))) (fsub (fmul c2 t) c1)) as [B5 E5]; auto with fx.
    - split; [apply opp_valid; apply N3|rewrite opp_finite; apply N3].
    - rewrite opp_value, F3, F4. nra.
    - split; auto. rewrite E5, opp_value, F3, F4. f_equal. ring. }
  split; [intros t H; apply G; auto|]. intros s t Hs Ht L. destruct (G s Hs) as [_ ->], (G t Ht) as [_ ->]. apply rnd_le.
  destruct Hs as [_ Hs], Ht as [_ Ht]. nra.
Qed.
Lemma circ_hi_ok : mono hi_half true (1 / 2) 1 circ_hi.
Proof.
  pose proof (mono_sqrt _ _ _ circ_mid) as H. cbv beta in H.
  have hi_half true 1 2 (fun t => fadd (fsqrt (fmul (SFopp (fsub (fmul c2 t) (b_lit 3 1))) (fsub (fmul c2 t) c1))) c1). unfold circ_hi. opm.
Qed.

(** ** Clamping *)
Definition maxf (x y : b32) : b32 := if SFltb y x then x else y.
Definition clampf (lo hi x : b32) : b32 := if SFltb (maxf x lo) hi then maxf x lo else hi.
Lemma clampf_val : forall lo hi x, number lo -> number hi -> number x -> rval lo <= rval hi -> number (clampf lo hi x) /\ rval (clampf lo hi x) = Rmax (rval lo) (Rmin (rval x) (rval hi)).
Proof.
  intros lo hi x NL NH NX LH. assert (M : number (maxf x lo) /\ rval (maxf x lo) = Rmax (rval x) (rval lo)).
  { unfold maxf. pose proof (lt_value lo x NL NX) as E. destruct (SFltb lo x); split; auto.
    - destruct E as [E _]. specialize (E eq_refl). rewrite Rmax_left; lra.
    - rewrite Rmax_right; auto. destruct (Rle_lt_dec (rval x) (rval lo)); auto. apply E in r. discriminate. }
  destruct M as [NM M]. unfold clampf. pose proof (lt_value (maxf x lo) hi NM NH) as E. destruct (SFltb (maxf x lo) hi).
  - destruct E as [E _]. specialize (E eq_refl). split; auto. rewrite M in *. unfold Rmax, Rmin in *. repeat destruct Rle_dec; lra.
  - assert (K : rval hi <= rval (maxf x lo)) by (destruct (Rlt_le_dec (rval (maxf x lo)) (rval hi)) as [K|K]; auto; apply E in K; discriminate).
    split; auto. rewrite M in *. unfold Rmax, Rmin in *. repeat destruct Rle_dec; lra.
Qed.
Lemma clampf_ok : forall lo hi x, number lo -> number hi -> inb32 x = true -> rval lo <= rval hi -> between (rval lo) (rval hi) (clampf lo hi x).
Proof.
  intros lo hi x NL NH V LH. destruct (finite x) eqn:F.
  - destruct (clampf_val lo hi x NL NH ltac:(split; auto) LH) as [N E]. split; auto. rewrite E. unfold Rmax, Rmin. repeat destruct Rle_dec; lra.
  - assert (P : clampf lo hi x = lo \/ clampf lo hi x = hi).
    { unfold clampf, maxf. destruct x as [s|s| |s m e]; try discriminate F.
      - destruct s.
        + replace (SFltb lo (S754_infinity true)) with false; [destruct (SFltb lo hi); auto|]. destruct NL as [_ NL]. destruct lo as [[]|[]| |[] ? ?]; try discriminate NL; reflexivity.
        + replace (SFltb lo (S754_infinity false)) with true; [|destruct NL as [_ NL]; destruct lo as [[]|[]| |[] ? ?]; try discriminate NL; reflexivity].
          replace (SFltb (S754_infinity false) hi) with false; auto. destruct NH as [_ NH]. destruct hi as [[]|[]| |[] ? ?]; try discriminate NH; reflexivity.
      - rewrite (lt_nan_r lo S754_nan eq_refl). destruct (SFltb lo hi); auto. }
    destruct P as [-> | ->]; split; auto; lra.
Qed.
Lemma clampf_mono : forall lo hi x y, number lo -> number hi -> number x -> number y -> rval lo <= rval hi -> rval x <= rval y -> rval (clampf lo hi x) <= rval (clampf lo hi y).
Proof.
  intros lo hi x y NL NH NX NY LH L. destruct (clampf_val lo hi x NL NH NX LH) as [_ ->], (clampf_val lo hi y NL NH NY LH) as [_ ->].
  unfold Rmax, Rmin. repeat destruct Rle_dec; lra.
Qed.

(** ** The functions of the library *)
Lemma unit_of : forall f g, (forall l t, computes (B32 l) f [Val (VF t)] (VF (g t)) []) -> mono (between 0 1) true 0 1 g -> keeps_unit f /\ keeps_order f.
Proof. intros f g C [H1 H2]. split; exists g; split; auto. Qed.
(** these functions take numbers from 0 to 1 to numbers from 0 to 1 and never decrease *)
Lemma C76_ease_order_ok : Forall (fun f => keeps_unit f /\ keeps_order f)
  [glm_ease_linear; glm_ease_quad_in; glm_ease_cubic_in; glm_ease_quart_in; glm_ease_quint_in; glm_ease_circ_in;
   glm_ease_cubic_out; glm_ease_quart_out; glm_ease_quint_out;
   glm_ease_cubic_inout; glm_ease_quart_inout; glm_ease_quint_inout; glm_ease_circ_inout; glm_clamp_zo].
Proof.
  repeat (apply Forall_cons; [|]); try apply Forall_nil.
  - eapply unit_of; [|apply mono_id]. intros; brun.
  - eapply unit_of; [|apply quad_in]. intros; brun.
  - eapply unit_of; [|apply cubic_in]. intros; brun.
  - eapply unit_of; [|apply quart_in]. intros; brun.
  - eapply unit_of; [|apply quint_in]. intros; brun.
  - eapply unit_of; [|apply circ_in]. intros; brun.
  - eapply unit_of; [|apply cubic_out]. intros; brun.
  - eapply unit_of; [|apply quart_out]. intros; brun.
  - eapply unit_of; [|apply quint_out]. intros; brun.
  - eapply unit_of; [|apply (mono_join _ _ cubic_lo_ok cubic_hi_ok)]. intros; brun.
  - eapply unit_of; [|apply (mono_join _ _ quart_lo_ok quart_hi_ok)]. intros; brun.
  - eapply unit_of; [|apply (mono_join _ _ quint_lo_ok quint_hi_ok)]. intros; brun.
  - eapply unit_of; [|apply (mono_join _ _ circ_lo_ok circ_hi_ok)]. intros; brun.
  - destruct (unit_of glm_clamp_zo (clampf (b_lit 0 1) c1)) as [U1 U2].
    + intros; unfold clampf, maxf; brun.
    + split; [intros t H; rewrite <- v_0 at 1; rewrite <- v_1; apply clampf_ok; try num; [apply H|rewrite v_0, v_1; lra]|].
      intros s t Hs Ht L. apply clampf_mono; try num; [apply Hs|apply Ht|rewrite v_0, v_1; lra|exact L].
    + split; auto.
Qed.
Lemma C76_ease_order_ex : between 0 1 (b_lit 1 10) /\ between 0 1 (b_lit 1 3) /\ rval (b_lit 1 10) <= rval (b_lit 1 3).
Proof.
  assert (A : rval (b_lit 1 10) = 13421773 / 134217728) by vlit. assert (B : rval (b_lit 1 3) = 11184811 / 33554432) by vlit.
  rewrite A, B. repeat split; try rewrite A; try rewrite B; lra.
Qed.
(** these stay from 0 to 1 as well, although some of them decrease here and there *)
Lemma C76_ease_range_ok : Forall keeps_unit [glm_ease_quad_out; glm_ease_quad_inout; glm_ease_circ_out; glm_smooth].
Proof.
  repeat (apply Forall_cons; [|]); try apply Forall_nil.
  - exists quad_out. split; [intros; unfold quad_out; brun|apply quad_out_ok].
  - exists (fun t => if SFltb t ch then quad_lo t else quad_hi t). split; [intros; unfold quad_lo, quad_hi; brun|].
    intros t [N H]. pose proof (lt_value t ch N ltac:(num)) as E. rewrite v_h in E. destruct (SFltb t ch).
    + destruct E as [E _]. specialize (E eq_refl). destruct quad_lo_ok as [Q _]. destruct (Q t) as [M [B1 B2]]; [split; auto; lra|]. split; auto; lra.
    + apply quad_hi_ok. split; auto. destruct (Rlt_le_dec (rval t) (1 / 2)) as [K|K]; [|lra]. apply E in K. discriminate.
  - exists circ_out. split; [intros; unfold circ_out; brun|apply circ_out_ok].
  - exists smooth. split; [intros; unfold smooth; brun|apply smooth_ok].
Qed.
(** glm_smooth and glm_ease_quad_out decrease from these floats to the next *)
Lemma C76_smooth_order_refuted_ok : exists s t x y, between 0 1 s /\ between 0 1 t /\ rval s < rval t /\ rval y < rval x /\
  forall l, computes (B32 l) glm_smooth [Val (VF s)] (VF x) [] /\ computes (B32 l) glm_smooth [Val (VF t)] (VF y) [].
Proof.
  exists (S754_finite false 16757359 (-24)), (S754_finite false 16757360 (-24)), (S754_finite false 16777146 (-24)), (S754_finite false 16777145 (-24)).
  repeat split; try (vnum; fail); intros; brun; vm_compute; reflexivity.
Qed.
Lemma C76_quad_out_order_refuted_ok : exists s t x y, between 0 1 s /\ between 0 1 t /\ rval s < rval t /\ rval y < rval x /\
  forall l, computes (B32 l) glm_ease_quad_out [Val (VF s)] (VF x) [] /\ computes (B32 l) glm_ease_quad_out [Val (VF t)] (VF y) [].
Proof.
  exists (S754_finite false 16757217 (-24)), (S754_finite false 16757218 (-24)), (S754_finite false 16777193 (-24)), (S754_finite false 16777192 (-24)).
  repeat split; try (vnum; fail); intros; brun; vm_compute; reflexivity.
Qed.
(** glm_ease_bounce_out exceeds 1 at the float nearest to 4/11 *)
Lemma C76_bounce_range_refuted_ok : exists t x, between 0 1 t /\ 1 < rval x /\ forall l, computes (B32 l) glm_ease_bounce_out [Val (VF t)] (VF x) [].
Proof.
  exists (S754_finite false 12201612 (-25)), (S754_finite false 8388610 (-23)).
  repeat split; try (vnum; fail); intros; brun; vm_compute; reflexivity.
Qed.
(** all of these start at 0 and end at 1 *)
Lemma C76_ends_ok : Forall keeps_ends
  [glm_ease_linear; glm_ease_quad_in; glm_ease_cubic_in; glm_ease_quart_in; glm_ease_quint_in; glm_ease_circ_in;
   glm_ease_quad_out; glm_ease_cubic_out; glm_ease_quart_out; glm_ease_quint_out; glm_ease_circ_out;
   glm_ease_quad_inout; glm_ease_cubic_inout; glm_ease_quart_inout; glm_ease_quint_inout; glm_ease_circ_inout; glm_smooth; glm_clamp_zo].
Proof.
  repeat (apply Forall_cons; [|]); try apply Forall_nil; intros l; eexists; eexists; (split; [brun|split; [brun|split; vm_compute; reflexivity]]).
Qed.

(** ** Clamped functions *)
(** for every binary32 value, NaN and infinities included, glm_clamp stays within the bounds *)
Lemma C76_clamp_ok : forall l lo hi x, number lo -> number hi -> rval lo <= rval hi -> inb32 x = true ->
  exists r, computes (B32 l) glm_clamp [Val (VF x); Val (VF lo); Val (VF hi)] (VF r) [] /\ between (rval lo) (rval hi) r /\
    (number x -> rval r = Rmax (rval lo) (Rmin (rval x) (rval hi))).
Proof.
  intros l lo hi x NL NH LH V. exists (clampf lo hi x). split; [unfold clampf, maxf; brun|]. split; [apply clampf_ok; auto|]. intros N. apply clampf_val; auto.
Qed.
Lemma C76_clamp_ex : number (b_lit (-1) 1) /\ number (b_lit 5 2) /\ rval (b_lit (-1) 1) <= rval (b_lit 5 2) /\ inb32 nan = true /\ inb32 (S754_infinity false) = true.
Proof. repeat split. rewrite v_m1. replace (rval (b_lit 5 2)) with (5 / 2) by (symmetry; vlit). lra. Qed.
(** for all binary32 values, NaN and infinities and equal edges included *)
Lemma C76_smoothstep_ok : forall l a b x, inb32 a = true -> inb32 b = true -> inb32 x = true ->
  (exists r, computes (B32 l) glm_smoothstep [Val (VF a); Val (VF b); Val (VF x)] (VF r) [] /\ between 0 1 r) /\
  (exists r, computes (B32 l) glm_percentc [Val (VF a); Val (VF b); Val (VF x)] (VF r) [] /\ between 0 1 r).
Proof.
  assert (C : forall x, inb32 x = true -> between 0 1 (clampf (b_lit 0 1) c1 x)).
  { intros x V. rewrite <- v_0 at 1. rewrite <- v_1. apply clampf_ok; try num; auto. rewrite v_0, v_1. lra. }
  intros l a b x Va Vb Vx. split.
  - exists (smooth (clampf (b_lit 0 1) c1 (fdiv (fsub x a) (fsub b a)))). split; [unfold smooth, clampf, maxf; brun|].
    apply smooth_ok, C. apply div_valid; apply sub_valid; auto.
  - exists (clampf (b_lit 0 1) c1 (if SFeqb (fsub b a) (b_lit 0 1) then c1 else fdiv (fsub x a) (fsub b a))). split; [unfold clampf, maxf; brun|].
    apply C. destruct (SFeqb _ _); [reflexivity|]. apply div_valid; apply sub_valid; auto.
Qed.
Lemma C76_smoothstep_ex : inb32 nan = true /\ inb32 b1 = true /\ inb32 (S754_infinity true) = true.
Proof. repeat split. Qed.

(** ** Interpolation *)
(** glm_lerp of numbers a <= b (or b <= a) does not decrease (or increase) with the parameter from 0 to 1,
    so it starts at [a] and never passes its value at 1, which is [b] up to rounding;
    glm_lerpc does so for every binary32 parameter *)
Lemma C76_lerp_ok : forall a b, number a -> number b -> Rabs (rval a) <= powerRZ 2 126 -> Rabs (rval b) <= powerRZ 2 126 ->
  exists g : b32 -> b32, (forall l t, computes (B32 l) glm_lerp [Val (VF a); Val (VF b); Val (VF t)] (VF (g t)) []) /\
    (forall t, between 0 1 t -> number (g t)) /\ rval (g b0) = rval a /\ Rabs (rval (g b1) - rval b) <= 3 * u * (Rabs (rval a) + Rabs (rval b)) /\
    (rval a <= rval b -> forall s t, between 0 1 s -> between 0 1 t -> rval s <= rval t -> rval a <= rval (g s) <= rval (g t) /\ rval (g t) <= rval (g b1)) /\
    (rval b <= rval a -> forall s t, between 0 1 s -> between 0 1 t -> rval s <= rval t -> rval (g b1) <= rval (g t) /\ rval (g t) <= rval (g s) <= rval a) /\
    (forall l t, inb32 t = true -> exists t', between 0 1 t' /\ computes (B32 l) glm_lerpc [Val (VF a); Val (VF b); Val (VF t)] (VF (g t')) []).
Proof.
  intros a b Na Nb Ma Mb.
  assert (FX : fixp (2 * powerRZ 2 126) /\ fixp (- (2 * powerRZ 2 126)) /\ fixp (3 * powerRZ 2 126) /\ fixp (- (3 * powerRZ 2 126))).
  { change (powerRZ 2 126) with (powerRZ (IZR radix2) 126). rewrite <- bpow_powerRZ.
    replace (2 * bpow radix2 126) with (IZR (2 ^ 24) * bpow radix2 103) by (change 126%Z with (23 + 103)%Z; rewrite bpow_plus; change (bpow radix2 23) with 8388608; change (IZR (2 ^ 24)) with 16777216; ring).
    replace (3 * bpow radix2 126) with (IZR (3 * 2 ^ 22) * bpow radix2 104) by (change 126%Z with (22 + 104)%Z; rewrite bpow_plus; change (bpow radix2 22) with 4194304; change (IZR (3 * 2 ^ 22)) with 12582912; ring).
    rewrite 2!Ropp_mult_distr_l, <- !opp_IZR. repeat split; try apply fix_big; lia || idtac. }
  destruct FX as (X2 & Y2 & X3 & Y3). assert (P6 : 0 < powerRZ 2 126) by (apply powerRZ_lt; lra).
  set (M := powerRZ 2 126) in *. clearbody M. apply Rabs_le_inv in Ma, Mb. set (d := fsub b a).
  destruct (sub_r (- (2 * M)) (2 * M) b a) as [[Nd Bd] Ed]; auto; [lra|]. fold d in Nd, Bd, Ed.
  assert (E2 : forall t, between 0 1 t -> number (fmul t d) /\ rval (fmul t d) = rnd (rval t * rval d) /\ - (2 * M) <= rval (fmul t d) <= 2 * M).
  { intros t [Nt Bt]. destruct (mul_r (- (2 * M)) (2 * M) t d) as [[N B] E]; auto. nra. }
  set (g := fun t => fadd a (fmul t d)).
  assert (E3 : forall t, between 0 1 t -> number (g t) /\ rval (g t) = rnd (rval a + rnd (rval t * rval d))).
  { intros t H. destruct (E2 t H) as (N & E & B). destruct (add_r (- (3 * M)) (3 * M) a (fmul t d)) as [[N1 B1] E1]; auto; [lra|]. unfold g. rewrite E1, E. auto. }
  assert (Z0 : between 0 1 b0) by (split; [num|simpl; lra]). assert (Z1 : between 0 1 b1) by (split; [num|rewrite value_b1; lra]).
  assert (R0 : rnd 0 = 0) by apply fix_0.
  assert (Ra : rnd (rval a) = rval a) by (apply rnd_id; apply Na). assert (Rd : rnd (rval d) = rval d) by (apply rnd_id; apply Nd).
  assert (G0 : rval (g b0) = rval a) by (destruct (E3 b0 Z0) as [_ ->]; replace (rval b0 * rval d) with 0 by (simpl; ring); rewrite R0, Rplus_0_r; exact Ra).
  assert (G1 : rval (g b1) = rnd (rval a + rval d)) by (destruct (E3 b1 Z1) as [_ ->]; rewrite value_b1, Rmult_1_l, Rd; reflexivity).
  exists g. split; [intros; unfold g, d; brun|]. split; [intros t H; apply E3; auto|]. split; [exact G0|]. split; [|split; [|split]].
  - rewrite G1. destruct (err_add a d (proj1 Na) (proj1 Nd)) as (e1 & U1 & ->). rewrite Ed.
    assert (E : exists e2, Rabs e2 <= u /\ rnd (rval b - rval a) = (rval b - rval a) * (1 + e2)).
    { destruct (err_add b (SFopp a) (proj1 Nb) (opp_valid a (proj1 Na))) as (e2 & U2 & H2). exists e2. split; auto. rewrite opp_value in H2. exact H2. }
    destruct E as (e2 & U2 & ->). replace ((rval a + (rval b - rval a) * (1 + e2)) * (1 + e1) - rval b) with (rval b * e1 + (rval b - rval a) * (e2 * (1 + e1))) by ring.
    eapply Rle_trans; [apply Rabs_triang|]. rewrite !Rabs_mult.
    assert (Rabs (rval b - rval a) <= Rabs (rval a) + Rabs (rval b)) by (replace (rval b - rval a) with (rval b + - rval a) by ring; eapply Rle_trans; [apply Rabs_triang|]; rewrite Rabs_Ropp; lra).
    assert (Rabs (1 + e1) <= 2) by (eapply Rle_trans; [apply Rabs_triang|]; rewrite Rabs_R1; unfold u in *; lra).
    pose proof (Rabs_pos e1). pose proof (Rabs_pos e2). pose proof (Rabs_pos (1 + e1)). pose proof (Rabs_pos (rval a)). pose proof (Rabs_pos (rval b)). pose proof (Rabs_pos (rval b - rval a)).
    assert (Rabs (rval b) * Rabs e1 <= Rabs (rval b) * u) by (apply Rmult_le_compat_l; auto).
    assert (Rabs e2 * Rabs (1 + e1) <= u * 2) by (apply Rmult_le_compat; auto).
    assert (Rabs (rval b - rval a) * (Rabs e2 * Rabs (1 + e1)) <= (Rabs (rval a) + Rabs (rval b)) * (u * 2)) by (apply Rmult_le_compat; auto; apply Rmult_le_pos; auto).
    unfold u in *. lra.
  - intros L s t Hs Ht ST. destruct (E3 s Hs) as [_ Es], (E3 t Ht) as [_ Et]. assert (D0 : 0 <= rval d) by (rewrite Ed, <- R0; apply rnd_le; lra).
    destruct Hs as [_ Hs], Ht as [_ Ht]. rewrite G1. rewrite <- Ra at 1. rewrite Es, Et.
    assert (A1 : rnd (rval s * rval d) <= rnd (rval t * rval d)) by (apply rnd_le; nra). assert (A2 : rnd (rval t * rval d) <= rval d) by (rewrite <- Rd at 2; apply rnd_le; nra).
    assert (A3 : 0 <= rnd (rval s * rval d)) by (rewrite <- R0; apply rnd_le; nra).
    repeat split; apply rnd_le; lra.
  - intros L s t Hs Ht ST. destruct (E3 s Hs) as [_ Es], (E3 t Ht) as [_ Et]. assert (D0 : rval d <= 0) by (rewrite Ed, <- R0; apply rnd_le; lra).
    destruct Hs as [_ Hs], Ht as [_ Ht]. rewrite G1. rewrite <- Ra at 2. rewrite Es, Et.
    assert (A1 : rnd (rval t * rval d) <= rnd (rval s * rval d)) by (apply rnd_le; nra). assert (A2 : rval d <= rnd (rval t * rval d)) by (rewrite <- Rd at 1; apply rnd_le; nra).
    assert (A3 : rnd (rval s * rval d) <= 0) by (rewrite <- R0; apply rnd_le; nra).
    repeat split; apply rnd_le; lra.
  - intros l t V. exists (clampf (b_lit 0 1) c1 t). split; [|unfold g, d, clampf, maxf; brun].
    rewrite <- v_0 at 1. rewrite <- v_1. apply clampf_ok; try num; auto. rewrite v_0, v_1. lra.
Qed.
(** from 10 to 1/10 *)
Lemma C76_lerp_ex : number (b_lit 10 1) /\ number (b_lit 1 10) /\ Rabs (rval (b_lit 10 1)) <= powerRZ 2 126 /\ Rabs (rval (b_lit 1 10)) <= powerRZ 2 126 /\ rval (b_lit 1 10) <= rval (b_lit 10 1).
Proof.
  assert (P : 16 <= powerRZ 2 126) by (apply Rle_trans with (powerRZ 2 4); [simpl; lra|change 126%Z with (4 + 122)%Z; rewrite powerRZ_add by lra; assert (1 <= powerRZ 2 122) by (change (powerRZ 2 122) with (2 ^ 122); apply pow_R1_Rle; lra); simpl (powerRZ 2 4); nra]).
  assert (A : rval (b_lit 1 10) = 13421773 / 134217728) by vlit. assert (B : rval (b_lit 10 1) = 10) by vlit.
  rewrite A, B. repeat split; try (rewrite Rabs_pos_eq; lra); lra.
Qed.
(** the value at 1, and so values before it, may exceed both ends: -16777214, 1 *)
Lemma C76_lerp_range_refuted_ok : exists a b x, number a /\ number b /\ rval a <= rval b /\ rval b < rval x /\
  forall l, computes (B32 l) glm_lerp [Val (VF a); Val (VF b); Val (VF b1)] (VF x) [].
Proof.
  exists (S754_finite true 8388609 1), b1, c2.
  repeat split; try (rewrite ?v_2, ?value_b1; vnum; fail); intros; brun; vm_compute; reflexivity.
Qed.

(** ** Degrees and radians *)
Lemma rel_any : forall r z, inb32 z = true -> (finite z = true -> rval z = rnd r) -> (Rabs (rnd r) < big -> finite z = true) -> powerRZ 2 (-120) <= Rabs r -> Rabs r <= powerRZ 2 120 ->
  number z /\ exists d, Rabs d <= u /\ rval z = r * (1 + d).
Proof.
  intros r z V F1 F2 L H. destruct (err_rel r) as (d & D & E). { eapply Rle_trans; [|exact L]. change (powerRZ 2 (-120)) with (powerRZ (IZR radix2) (-120)). rewrite <- bpow_powerRZ. apply bpow_le. lia. }
  assert (B : Rabs (rnd r) < big).
  { rewrite E, Rabs_mult. assert (Rabs (1 + d) <= 2) by (eapply Rle_trans; [apply Rabs_triang|]; rewrite Rabs_R1; unfold u in *; lra).
    apply Rle_lt_trans with (powerRZ 2 120 * 2); [apply Rmult_le_compat; auto using Rabs_pos|]. change (powerRZ 2 120) with (powerRZ (IZR radix2) 120). rewrite <- bpow_powerRZ. change 2 with (bpow radix2 1). rewrite <- bpow_plus. apply bpow_lt. reflexivity. }
  specialize (F2 B). split; [split; auto|]. exists d. split; auto. rewrite F1; auto.
Qed.
Lemma rel_mul : forall x y, number x -> number y -> powerRZ 2 (-120) <= Rabs (rval x * rval y) -> Rabs (rval x * rval y) <= powerRZ 2 120 ->
  number (fmul x y) /\ exists d, Rabs d <= u /\ rval (fmul x y) = rval x * rval y * (1 + d).
Proof. intros x y X Y L H. destruct (mul_rnd x y X Y). apply rel_any; auto. apply mul_valid; [apply X|apply Y]. Qed.
Lemma rel_div : forall x y, number x -> number y -> rval y <> 0 -> powerRZ 2 (-120) <= Rabs (rval x / rval y) -> Rabs (rval x / rval y) <= powerRZ 2 120 ->
  number (fdiv x y) /\ exists d, Rabs d <= u /\ rval (fdiv x y) = rval x / rval y * (1 + d).
Proof. intros x y X Y NZ L H. destruct (div_rnd x y X Y NZ). apply rel_any; auto. apply div_valid; [apply X|apply Y]. Qed.
Lemma one_plus : forall d, Rabs d <= u -> 1 / 2 <= Rabs (1 + d) <= 2.
Proof. intros d D. unfold u in D. apply Rabs_le_inv in D. rewrite Rabs_pos_eq; lra. Qed.
Lemma grow : forall d e, Rabs d <= u -> Rabs e <= u -> Rabs ((1 + d) * (1 + e) - 1) <= 2 * u + u * u.
Proof. intros d e D E. replace ((1 + d) * (1 + e) - 1) with (d + e + d * e) by ring. eapply Rle_trans; [apply Rabs_triang|]. eapply Rle_trans; [apply Rplus_le_compat_r, Rabs_triang|]. rewrite Rabs_mult.
  assert (Rabs d * Rabs e <= u * u) by (apply Rmult_le_compat; auto using Rabs_pos). lra. Qed.
Lemma abs_prod : forall a b l1 h1 l2 h2, l1 <= Rabs a <= h1 -> l2 <= Rabs b <= h2 -> 0 <= l1 -> 0 <= l2 -> l1 * l2 <= Rabs (a * b) <= h1 * h2.
Proof. intros. rewrite Rabs_mult. pose proof (Rabs_pos a). pose proof (Rabs_pos b). split; apply Rmult_le_compat; lra. Qed.
Lemma round_trip : forall x a b, number x -> number a -> number b -> 1 <= rval a <= 256 -> 1 <= rval b <= 256 ->
  powerRZ 2 (-100) <= Rabs (rval x) -> Rabs (rval x) <= powerRZ 2 100 ->
  Rabs (rval (fdiv (fmul (fdiv (fmul x a) b) b) a) - rval x) <= 5 * u * Rabs (rval x) /\ number (fdiv (fmul (fdiv (fmul x a) b) b) a).
Proof.
  intros x a b Nx Na Nb Ha Hb L H.
  assert (P1 : powerRZ 2 (-120) = powerRZ 2 (-100) / 1048576) by (change (-120)%Z with (-100 + -20)%Z; rewrite powerRZ_add by lra; unfold Rdiv; f_equal; vnum).
  assert (P2 : powerRZ 2 120 = powerRZ 2 100 * 1048576) by (change (120)%Z with (100 + 20)%Z; rewrite powerRZ_add by lra; f_equal; vnum).
  assert (P3 : 0 < powerRZ 2 (-100)) by (apply powerRZ_lt; lra).
  set (lo := powerRZ 2 (-100)) in *. set (hi := powerRZ 2 100) in *. clearbody lo hi.
  assert (Aa : Rabs (rval a) = rval a) by (apply Rabs_pos_eq; lra). assert (Ab : Rabs (rval b) = rval b) by (apply Rabs_pos_eq; lra).
  assert (Ia : / 256 <= Rabs (/ rval a) <= 1) by (rewrite Rabs_pos_eq by (apply Rlt_le, Rinv_0_lt_compat; lra); split; [apply Rinv_le; lra|rewrite <- Rinv_1; apply Rinv_le; lra]).
  assert (Ib : / 256 <= Rabs (/ rval b) <= 1) by (rewrite Rabs_pos_eq by (apply Rlt_le, Rinv_0_lt_compat; lra); split; [apply Rinv_le; lra|rewrite <- Rinv_1; apply Rinv_le; lra]).
  pose proof (abs_prod (rval x) (rval a) lo hi 1 256 ltac:(lra) ltac:(lra) ltac:(lra) ltac:(lra)) as Q1.
  destruct (rel_mul x a Nx Na) as (N1 & d1 & D1 & E1); [rewrite P1; lra|rewrite P2; lra|]. pose proof (one_plus d1 D1) as O1.
  pose proof (abs_prod _ _ _ _ _ _ Q1 O1 ltac:(lra) ltac:(lra)) as R1. rewrite <- E1 in R1.
  pose proof (abs_prod _ _ _ _ _ _ R1 Ib ltac:(lra) ltac:(lra)) as Q2. fold (rval (fmul x a) / rval b) in Q2.
  destruct (rel_div (fmul x a) b N1 Nb) as (N2 & d2 & D2 & E2); [lra|rewrite P1; lra|rewrite P2; lra|]. pose proof (one_plus d2 D2) as O2.
  assert (Q3' : rval (fdiv (fmul x a) b) * rval b = rval x * rval a * (1 + d1) * (1 + d2)) by (rewrite E2, E1; field; lra).
  pose proof (abs_prod _ _ _ _ _ _ Q1 O1 ltac:(lra) ltac:(lra)) as T1. pose proof (abs_prod _ _ _ _ _ _ T1 O2 ltac:(lra) ltac:(lra)) as T2. rewrite <- Q3' in T2.
  destruct (rel_mul (fdiv (fmul x a) b) b N2 Nb) as (N3 & d3 & D3 & E3); [rewrite P1; lra|rewrite P2; lra|]. pose proof (one_plus d3 D3) as O3.
  rewrite Q3' in E3.
  assert (Q4' : rval (fmul (fdiv (fmul x a) b) b) / rval a = rval x * (1 + d1) * (1 + d2) * (1 + d3)) by (rewrite E3; field; lra).
  pose proof (abs_prod _ _ _ _ _ _ (conj L H) O1 ltac:(lra) ltac:(lra)) as V1. pose proof (abs_prod _ _ _ _ _ _ V1 O2 ltac:(lra) ltac:(lra)) as V2. pose proof (abs_prod _ _ _ _ _ _ V2 O3 ltac:(lra) ltac:(lra)) as V3.
  rewrite <- Q4' in V3.
  destruct (rel_div (fmul (fdiv (fmul x a) b) b) a N3 Na) as (N4 & d4 & D4 & E4); [lra|rewrite P1; lra|rewrite P2; lra|].
  split; [|exact N4]. rewrite E4, Q4'.
  replace (rval x * (1 + d1) * (1 + d2) * (1 + d3) * (1 + d4) - rval x) with (rval x * ((1 + d1) * (1 + d2) * (1 + d3) * (1 + d4) - 1)) by ring.
  rewrite Rabs_mult, Rmult_comm. apply Rmult_le_compat_r; [apply Rabs_pos|].
  assert (S1 : Rabs ((1 + d1) * (1 + d2) - 1) <= 2 * u + u * u) by (apply grow; lra || auto).
  assert (S2 : Rabs ((1 + d3) * (1 + d4) - 1) <= 2 * u + u * u) by (apply grow; lra || auto).
  replace ((1 + d1) * (1 + d2) * (1 + d3) * (1 + d4)) with (((1 + d1) * (1 + d2)) * ((1 + d3) * (1 + d4))) by ring.
  revert S1 S2. generalize ((1 + d1) * (1 + d2)) ((1 + d3) * (1 + d4)). clear. intros A B S1 S2.
  replace (A * B - 1) with ((A - 1) + (B - 1) + (A - 1) * (B - 1)) by ring. eapply Rle_trans; [apply Rabs_triang|]. eapply Rle_trans; [apply Rplus_le_compat_r, Rabs_triang|]. rewrite Rabs_mult.
  assert (Rabs (A - 1) * Rabs (B - 1) <= (2 * u + u * u) * (2 * u + u * u)) by (apply Rmult_le_compat; auto using Rabs_pos). unfold u in *. lra.
Qed.
(** degrees to radians and back, or radians to degrees and back, is the same number within 5 units of 2^-24 *)
Lemma C76_degrees_ok : forall l x, number x -> powerRZ 2 (-100) <= Rabs (rval x) -> Rabs (rval x) <= powerRZ 2 100 ->
  (exists r y, computes (B32 l) glm_rad [Val (VF x)] (VF r) [] /\ computes (B32 l) glm_deg [Val (VF r)] (VF y) [] /\ number y /\ Rabs (rval y - rval x) <= 5 * u * Rabs (rval x)) /\
  (exists r y, computes (B32 l) glm_deg [Val (VF x)] (VF r) [] /\ computes (B32 l) glm_rad [Val (VF r)] (VF y) [] /\ number y /\ Rabs (rval y - rval x) <= 5 * u * Rabs (rval x)).
Proof.
  intros l x N L H.
  assert (P : number (b_pi 1 1) /\ 1 <= rval (b_pi 1 1) <= 256). { split; [num|]. replace (rval (b_pi 1 1)) with (13176795 / 4194304); [lra|]. symmetry. vlit. }
  assert (Q : number (b_lit 180 1) /\ 1 <= rval (b_lit 180 1) <= 256). { split; [num|]. replace (rval (b_lit 180 1)) with 180; [lra|]. symmetry. vlit. }
  destruct P as [P1 P2], Q as [Q1 Q2]. split.
  - destruct (round_trip x (b_pi 1 1) (b_lit 180 1)) as [E Y]; auto. eexists. eexists. split; [brun|]. split; [brun|]. split; [exact Y|exact E].
  - destruct (round_trip x (b_lit 180 1) (b_pi 1 1)) as [E Y]; auto. eexists. eexists. split; [brun|]. split; [brun|]. split; [exact Y|exact E].
Qed.
Lemma C76_degrees_ex : number (b_lit 57 1) /\ powerRZ 2 (-100) <= Rabs (rval (b_lit 57 1)) /\ Rabs (rval (b_lit 57 1)) <= powerRZ 2 100.
Proof.
  assert (B : rval (b_lit 57 1) = 57) by vlit. rewrite B, Rabs_pos_eq by lra. split; [num|].
  change (powerRZ 2 (-100)) with (powerRZ (IZR radix2) (-100)). change (powerRZ 2 100) with (powerRZ (IZR radix2) 100). rewrite <- !bpow_powerRZ.
  split; [apply Rle_trans with (bpow radix2 0); [apply bpow_le; lia|simpl; lra]|apply Rle_trans with (bpow radix2 10); [simpl; lra|apply bpow_le; lia]].
Qed.
