(** * Perlin noise (C54) *)
(* props: From Verif.Spec Require Import Linear Noise. *)

From Coq Require Import String List ZArith Bool Reals Lra Lia.
From Verif Require Import MiniC Sym SymSound Contract SymCall SymTac Tac RScalar Cglm.
From Verif.Spec Require Import Linear Noise.
From Verif.Proofs Require Import RTac.
Import ListNotations.
Local Open Scope R_scope.

(** ** the hash, on reals and on integers *)
Lemma div_one : forall x c, x * (1 / c) = x / c.
Proof. intros. unfold Rdiv. rewrite Rmult_1_l. reflexivity. Qed.
Lemma Int_part_unique : forall x z, IZR z <= x < IZR z + 1 -> Int_part x = z.
Proof.
  intros x z H. pose proof (base_Int_part x) as [A B]. assert (Int_part x < z + 1)%Z by (apply lt_IZR; rewrite plus_IZR; lra).
  assert (z < Int_part x + 1)%Z by (apply lt_IZR; rewrite plus_IZR; lra). lia.
Qed.
Lemma floor_quot : forall a b, (0 < b)%Z -> Int_part (IZR a / IZR b) = (a / b)%Z.
Proof.
  intros a b B. apply Int_part_unique. assert (0 < IZR b) by (apply IZR_lt; auto). pose proof (Z.div_mod a b ltac:(lia)) as D. pose proof (Z.mod_pos_bound a b B) as M.
  split.
  - apply (Rmult_le_reg_r (IZR b)); auto. unfold Rdiv. rewrite Rmult_assoc, Rinv_l, Rmult_1_r, <- mult_IZR by lra. apply IZR_le. lia.
  - apply (Rmult_lt_reg_r (IZR b)); auto. unfold Rdiv. rewrite Rmult_assoc, Rinv_l, Rmult_1_r by lra. change 1 with (IZR 1). rewrite <- plus_IZR, <- mult_IZR. apply IZR_lt. lia.
Qed.
Lemma perm_raw : forall z, (IZR z * 34 + 1) * IZR z - Rfloor ((IZR z * 34 + 1) * IZR z / 289) * 289 = IZR (hash z).
Proof.
  intros z. unfold Rfloor. replace ((IZR z * 34 + 1) * IZR z) with (IZR ((34 * z + 1) * z)) by (rewrite mult_IZR, plus_IZR, mult_IZR; ring).
  rewrite floor_quot by lia. unfold hash. rewrite <- mult_IZR, <- minus_IZR. f_equal. rewrite Z.mod_eq by lia. ring.
Qed.
Lemma trunc_quot : forall a, Rtrunc (IZR a / 289) = IZR (Z.quot a 289).
Proof.
  intros a. unfold Rtrunc, Rfloor. destruct (Rltb (IZR a / 289) 0) eqn:E.
  - apply Rltb_true in E. assert (a < 0)%Z by (apply lt_IZR; lra). replace (- (IZR a / 289)) with (IZR (- a) / 289) by (rewrite opp_IZR; field).
    rewrite floor_quot by lia. rewrite <- opp_IZR. f_equal. rewrite <- (Z.opp_involutive a) at 2. rewrite Z.quot_opp_l by lia. rewrite Z.quot_div_nonneg by lia. reflexivity.
  - apply Rltb_false in E. assert (0 <= a)%Z by (apply le_IZR; lra). rewrite floor_quot by lia. rewrite Z.quot_div_nonneg by lia. reflexivity.
Qed.
Lemma fmod_raw : forall a, IZR a - 289 * Rtrunc (IZR a / 289) = IZR (Z.rem a 289).
Proof. intros. rewrite trunc_quot, <- mult_IZR, <- minus_IZR. f_equal. rewrite Z.rem_eq by lia. reflexivity. Qed.
Lemma fmod0 : forall x, Rfloor x - 289 * Rtrunc (Rfloor x / 289) = IZR (Z.rem (Int_part x + 0) 289).
Proof. intros. rewrite Z.add_0_r. apply fmod_raw. Qed.
Lemma fmod1 : forall x, Rfloor x + 1 - 289 * Rtrunc ((Rfloor x + 1) / 289) = IZR (Z.rem (Int_part x + 1) 289).
Proof. intros. unfold Rfloor. rewrite <- plus_IZR. apply fmod_raw. Qed.
Lemma hash_cong : forall a b k, (a = b + 289 * k)%Z -> hash a = hash b.
Proof.
  intros a b k ->. unfold hash. replace ((34 * (b + 289 * k) + 1) * (b + 289 * k))%Z with ((34 * b + 1) * b + (34 * k * (b + 289 * k) + (34 * b + 1) * k) * 289)%Z by ring.
  apply Z_mod_plus_full.
Qed.
Lemma hash_rem : forall h a, hash (h + Z.rem a 289) = hash (h + a).
Proof. intros. apply (hash_cong _ _ (- Z.quot a 289)). rewrite Z.rem_eq by lia. ring. Qed.
Lemma hash_rem0 : forall a, hash (Z.rem a 289) = hash (0 + a).
Proof. intros. rewrite <- (hash_rem 0 a). reflexivity. Qed.
Lemma step_raw : forall x, (if Rltb x 0 then 0 else 1) = right_of x.
Proof. intros. unfold Rltb, right_of. destruct (Rlt_dec x 0); reflexivity. Qed.
Lemma stepr_raw : forall x, (if Rltb 0 x then 0 else 1) = above x.
Proof. intros. unfold Rltb, above. destruct (Rlt_dec 0 x); reflexivity. Qed.
Lemma fade_raw : forall t, t * t * t * (t * (t * 6 - 15) + 10) = fade t.
Proof. intros. unfold fade. ring. Qed.
Lemma fract_raw : forall x, Rmin (x - Rfloor x) (16777215 / 16777216) = fract x.
Proof. reflexivity. Qed.
(** the fade of a fraction stays in the unit interval, so clamping it changes nothing *)
Lemma fract_range : forall x, 0 <= fract x <= 1.
Proof. intros x. unfold fract. pose proof (base_Int_part x) as [A B]. split; [apply Rmin_glb; lra|]. eapply Rle_trans; [apply Rmin_r|lra]. Qed.
Lemma fade_range : forall t, 0 <= t <= 1 -> 0 <= fade t <= 1.
Proof.
  intros t [A B]. unfold fade. split.
  - replace (6 * t ^ 5 - 15 * t ^ 4 + 10 * t ^ 3) with (t * (t * t) * (6 * ((t - 5 / 4) * (t - 5 / 4)) + 5 / 8)) by (field; lra).
    assert (0 <= (t - 5 / 4) * (t - 5 / 4)) by apply Rle_0_sqr. repeat apply Rmult_le_pos; lra.
  - replace (6 * t ^ 5 - 15 * t ^ 4 + 10 * t ^ 3) with (1 - (1 - t) * ((1 - t) * (1 - t)) * (6 * (t * t) + 3 * t + 1)) by ring.
    assert (0 <= (1 - t) * ((1 - t) * (1 - t)) * (6 * (t * t) + 3 * t + 1)); [|lra]. assert (0 <= t * t) by nra. repeat apply Rmult_le_pos; lra.
Qed.
Lemma clamp_raw : forall x, (if Rltb (if Rltb 0 (fade (fract x)) then fade (fract x) else 0) 1 then if Rltb 0 (fade (fract x)) then fade (fract x) else 0 else 1) = fade (fract x).
Proof.
  intros. pose proof (fade_range _ (fract_range x)). unfold Rltb. set (a := fade (fract x)) in *. destruct (Rlt_dec 0 a); destruct (Rlt_dec _ 1); lra.
Qed.
Lemma taylor_lit : 42686736047657 / 50000000000000 = 85373472095314 / 100000000000000.
Proof. lra. Qed.
Definition len (g : list R) : R := 179284291400159 / 100000000000000 - rdot g g * (85373472095314 / 100000000000000).
Definition ix (n : nat) (g : list R) : R := nth n g 0.

Ltac hashgo E := lazymatch type of E with context [_ * 34 + 1] =>
  rewrite ?div_one, ?fmod0, ?fmod1 in E; rewrite <- ?plus_IZR in E; rewrite ?perm_raw, ?hash_rem0, ?hash_rem in E | _ => idtac end.
Ltac rawgo E := rewrite ?div_one in E; rewrite ?step_raw, ?stepr_raw, ?fract_raw, ?fade_raw, ?taylor_lit in E.
Ltac one folds := match goal with |- forall t : _, t = _ -> _ => let t := fresh "t" in let E := fresh "E" in intros t E; hashgo E; rawgo E; folds E; subst t end.
Ltac fold2 E := repeat match type of E with
  | context [fract (IZR ?h / 41) * 2 - 1 - Rfloor (fract (IZR ?h / 41) * 2 - 1 + 1 / 2)] => change (fract (IZR h / 41) * 2 - 1 - Rfloor (fract (IZR h / 41) * 2 - 1 + 1 / 2)) with (ix 0 (grad2 h)) in E
  | context [Rabs (fract (IZR ?h / 41) * 2 - 1) - 1 / 2] => change (Rabs (fract (IZR h / 41) * 2 - 1) - 1 / 2) with (ix 1 (grad2 h)) in E
  | context [179284291400159 / 100000000000000 - (ix 0 (grad2 ?h) * ix 0 (grad2 ?h) + _) * (85373472095314 / 100000000000000)] =>
      change (179284291400159 / 100000000000000 - (ix 0 (grad2 h) * ix 0 (grad2 h) + ix 1 (grad2 h) * ix 1 (grad2 h)) * (85373472095314 / 100000000000000)) with (len (grad2 h)) in E
  end.
(** the gradients in three and four dimensions, piece by piece *)
Definition x3 (h : Z) := fract (IZR h / 7).
Definition y3 (h : Z) := fract (Rfloor (IZR h / 7) / 7) - 1 / 2.
Definition x4 (h : Z) := fract (IZR h / 7) - 1 / 2.
Definition y4 (h : Z) := fract (Rfloor (IZR h / 7) / 7) - 1 / 2.
Definition z4 (h : Z) := fract (Rfloor (Rfloor (IZR h / 7) / 7) / 6) - 1 / 2.
Ltac fold3 E := repeat match type of E with
  | context [fract (Rfloor (IZR ?h / 7) / 7) - 1 / 2] => change (fract (Rfloor (IZR h / 7) / 7) - 1 / 2) with (y3 h) in E
  | context [fract (IZR ?h / 7)] => change (fract (IZR h / 7)) with (x3 h) in E
  | context [1 / 2 - Rabs (x3 ?h) - Rabs (y3 ?h)] => change (1 / 2 - Rabs (x3 h) - Rabs (y3 h)) with (ix 2 (grad3 h)) in E
  | context [x3 ?h - above (ix 2 (grad3 ?h)) * (right_of (x3 ?h) - 1 / 2)] => change (x3 h - above (ix 2 (grad3 h)) * (right_of (x3 h) - 1 / 2)) with (ix 0 (grad3 h)) in E
  | context [y3 ?h - above (ix 2 (grad3 ?h)) * (right_of (y3 ?h) - 1 / 2)] => change (y3 h - above (ix 2 (grad3 h)) * (right_of (y3 h) - 1 / 2)) with (ix 1 (grad3 h)) in E
  | context [179284291400159 / 100000000000000 - (ix 0 (grad3 ?h) * ix 0 (grad3 ?h) + ix 1 (grad3 ?h) * ix 1 (grad3 ?h) + _) * (85373472095314 / 100000000000000)] =>
      change (179284291400159 / 100000000000000 - (ix 0 (grad3 h) * ix 0 (grad3 h) + ix 1 (grad3 h) * ix 1 (grad3 h) + ix 2 (grad3 h) * ix 2 (grad3 h)) * (85373472095314 / 100000000000000)) with (len (grad3 h)) in E
  end.
Ltac fold4 E := repeat match type of E with
  | context [fract (Rfloor (Rfloor (IZR ?h / 7) / 7) / 6) - 1 / 2] => change (fract (Rfloor (Rfloor (IZR h / 7) / 7) / 6) - 1 / 2) with (z4 h) in E
  | context [fract (Rfloor (IZR ?h / 7) / 7) - 1 / 2] => change (fract (Rfloor (IZR h / 7) / 7) - 1 / 2) with (y4 h) in E
  | context [fract (IZR ?h / 7) - 1 / 2] => change (fract (IZR h / 7) - 1 / 2) with (x4 h) in E
  | context [3 / 4 - Rabs (x4 ?h) - Rabs (z4 ?h) - Rabs (y4 ?h)] => change (3 / 4 - Rabs (x4 h) - Rabs (z4 h) - Rabs (y4 h)) with (ix 3 (grad4 h)) in E
  | context [x4 ?h - above (ix 3 (grad4 ?h)) * (right_of (x4 ?h) - 1 / 2)] => change (x4 h - above (ix 3 (grad4 h)) * (right_of (x4 h) - 1 / 2)) with (ix 0 (grad4 h)) in E
  | context [y4 ?h - above (ix 3 (grad4 ?h)) * (right_of (y4 ?h) - 1 / 2)] => change (y4 h - above (ix 3 (grad4 h)) * (right_of (y4 h) - 1 / 2)) with (ix 1 (grad4 h)) in E
  | context [179284291400159 / 100000000000000 - (ix 0 (grad4 ?h) * ix 0 (grad4 ?h) + ix 1 (grad4 ?h) * ix 1 (grad4 ?h) + z4 ?h * z4 ?h + _) * (85373472095314 / 100000000000000)] =>
      change (179284291400159 / 100000000000000 - (ix 0 (grad4 h) * ix 0 (grad4 h) + ix 1 (grad4 h) * ix 1 (grad4 h) + z4 h * z4 h + ix 3 (grad4 h) * ix 3 (grad4 h)) * (85373472095314 / 100000000000000)) with (len (grad4 h)) in E
  end.
Ltac final folds := match goal with |- VF ?x = VF ?y => let q := fresh "q" in let E := fresh "E" in remember x as q eqn:E; rawgo E; rewrite ?clamp_raw in E; folds E; subst q end.
Ltac guards := repeat match goal with |- negb (Reqb _ 0) = true /\ _ => split; [apply negb_true_iff; apply Reqb_false; lra|] end.


Lemma infl2 : forall x y i j, influence grad2 [x; y] [i; j] = let h := hash (hash (0 + (Int_part x + i)) + (Int_part y + j)) in
  ix 0 (grad2 h) * len (grad2 h) * (fract x - IZR i) + ix 1 (grad2 h) * len (grad2 h) * (fract y - IZR j).
Proof. intros. reflexivity. Qed.
Lemma infl3 : forall x y z i j k, influence grad3 [x; y; z] [i; j; k] = let h := hash (hash (hash (0 + (Int_part x + i)) + (Int_part y + j)) + (Int_part z + k)) in
  ix 0 (grad3 h) * len (grad3 h) * (fract x - IZR i) + ix 1 (grad3 h) * len (grad3 h) * (fract y - IZR j) + ix 2 (grad3 h) * len (grad3 h) * (fract z - IZR k).
Proof. intros. reflexivity. Qed.
Lemma infl4 : forall x y z w i j k l, influence grad4 [x; y; z; w] [i; j; k; l] = let h := hash (hash (hash (hash (0 + (Int_part x + i)) + (Int_part y + j)) + (Int_part z + k)) + (Int_part w + l)) in
  ix 0 (grad4 h) * len (grad4 h) * (fract x - IZR i) + ix 1 (grad4 h) * len (grad4 h) * (fract y - IZR j) + z4 h * len (grad4 h) * (fract z - IZR k) + ix 3 (grad4 h) * len (grad4 h) * (fract w - IZR l).
Proof. intros. reflexivity. Qed.
Ltac prep folds := intros; sym_with 12%nat; rcbv; repeat one folds; guards; split; [reflexivity|]; split; [|reflexivity]; final folds.
Ltac spec := apply f_equal; unfold perlin; cbn [map blend].

Lemma value2 : forall x y, computes RS glm_perlin_vec2 [In (fl [x; y])] (VF (perlin grad2 (23 / 10) [x; y])) [].
Proof.
  prep fold2. spec. rewrite !infl2. cbv zeta. rewrite !Rminus_0_r. unfold mix. ring.
Qed.
Lemma value3 : forall x y z, computes RS glm_perlin_vec3 [In (fl [x; y; z])] (VF (perlin grad3 (11 / 5) [x; y; z])) [].
Proof.
  prep fold3. spec. rewrite !infl3. cbv zeta. rewrite !Rminus_0_r. unfold mix. reflexivity.
Qed.
Lemma value4 : forall x y z w, computes RS glm_perlin_vec4 [In (fl [x; y; z; w])] (VF (perlin grad4 (11 / 5) [x; y; z; w])) [].
Proof.
  prep fold4. spec. rewrite !infl4; cbv zeta; rewrite !Rminus_0_r; unfold mix. reflexivity.
Qed.

(** ** C54: the value, the lattice and the period *)
Lemma Int_part_shift : forall x k, Int_part (x + IZR k) = (Int_part x + k)%Z.
Proof. intros. pose proof (base_Int_part x). apply Int_part_unique. rewrite plus_IZR. lra. Qed.
Lemma fract_shift : forall x k, fract (x + IZR k) = fract x.
Proof. intros. unfold fract. rewrite Int_part_shift, plus_IZR. f_equal. ring. Qed.
Lemma fract_int : forall k, fract (IZR k) = 0.
Proof.
  intros. unfold fract. rewrite (Int_part_unique (IZR k) k) by lra. rewrite Rmin_left; lra.
Qed.
Lemma fade0 : fade 0 = 0.
Proof. unfold fade. ring. Qed.
Lemma mix0 : forall a b, mix a b 0 = a.
Proof. intros. unfold mix. ring. Qed.
Lemma hash_shift : forall h x k i, hash (h + (Int_part x + 289 * k + i)) = hash (h + (Int_part x + i)).
Proof. intros. apply (hash_cong _ _ k). ring. Qed.
Lemma period_pt : forall x k, Int_part (x + 289 * IZR k) = (Int_part x + 289 * k)%Z.
Proof. intros. replace (289 * IZR k) with (IZR (289 * k)) by apply mult_IZR. apply Int_part_shift. Qed.
Lemma period_fr : forall x k, fract (x + 289 * IZR k) = fract x.
Proof. intros. replace (289 * IZR k) with (IZR (289 * k)) by apply mult_IZR. apply fract_shift. Qed.
Lemma period2 : forall x y a b i j, influence grad2 [x + 289 * IZR a; y + 289 * IZR b] [i; j] = influence grad2 [x; y] [i; j].
Proof. intros. rewrite !infl2. cbv zeta. rewrite !period_pt, !period_fr, !hash_shift. reflexivity. Qed.
Lemma period3 : forall x y z a b c i j k, influence grad3 [x + 289 * IZR a; y + 289 * IZR b; z + 289 * IZR c] [i; j; k] = influence grad3 [x; y; z] [i; j; k].
Proof. intros. rewrite !infl3. cbv zeta. rewrite !period_pt, !period_fr, !hash_shift. reflexivity. Qed.
Lemma period4 : forall x y z w a b c d i j k l,
  influence grad4 [x + 289 * IZR a; y + 289 * IZR b; z + 289 * IZR c; w + 289 * IZR d] [i; j; k; l] = influence grad4 [x; y; z; w] [i; j; k; l].
Proof. intros. rewrite !infl4. cbv zeta. rewrite !period_pt, !period_fr, !hash_shift. reflexivity. Qed.

(** the value of the noise functions *)
Lemma C54_value_ok : forall x y z w,
  computes RS glm_perlin_vec2 [In (fl [x; y])] (VF (perlin grad2 (23 / 10) [x; y])) [] /\
  computes RS glm_perlin_vec3 [In (fl [x; y; z])] (VF (perlin grad3 (11 / 5) [x; y; z])) [] /\
  computes RS glm_perlin_vec4 [In (fl [x; y; z; w])] (VF (perlin grad4 (11 / 5) [x; y; z; w])) [].
Proof. intros. split; [apply value2|split; [apply value3|apply value4]]. Qed.

Lemma C54_lattice_ok : forall i j k l : Z,
  computes RS glm_perlin_vec2 [In (fl [IZR i; IZR j])] (VF 0) [] /\
  computes RS glm_perlin_vec3 [In (fl [IZR i; IZR j; IZR k])] (VF 0) [] /\
  computes RS glm_perlin_vec4 [In (fl [IZR i; IZR j; IZR k; IZR l])] (VF 0) [].
Proof.
  intros. split; [|split].
  - replace 0 with (perlin grad2 (23 / 10) [IZR i; IZR j]); [apply value2|]. unfold perlin. cbn [map blend]. rewrite !fract_int, fade0, !mix0, infl2. cbv zeta. rewrite !fract_int. ring.
  - replace 0 with (perlin grad3 (11 / 5) [IZR i; IZR j; IZR k]); [apply value3|]. unfold perlin. cbn [map blend]. rewrite !fract_int, fade0, !mix0, infl3. cbv zeta. rewrite !fract_int. ring.
  - replace 0 with (perlin grad4 (11 / 5) [IZR i; IZR j; IZR k; IZR l]); [apply value4|]. unfold perlin. cbn [map blend]. rewrite !fract_int, fade0, !mix0, infl4. cbv zeta. rewrite !fract_int. ring.
Qed.

Lemma C54_periodic_ok : forall x y z w (a b c d : Z),
  (exists v, computes RS glm_perlin_vec2 [In (fl [x; y])] v [] /\
             computes RS glm_perlin_vec2 [In (fl [x + 289 * IZR a; y + 289 * IZR b])] v []) /\
  (exists v, computes RS glm_perlin_vec3 [In (fl [x; y; z])] v [] /\
             computes RS glm_perlin_vec3 [In (fl [x + 289 * IZR a; y + 289 * IZR b; z + 289 * IZR c])] v []) /\
  (exists v, computes RS glm_perlin_vec4 [In (fl [x; y; z; w])] v [] /\
             computes RS glm_perlin_vec4 [In (fl [x + 289 * IZR a; y + 289 * IZR b; z + 289 * IZR c; w + 289 * IZR d])] v []).
Proof.
  intros. split; [|split].
  - exists (VF (perlin grad2 (23 / 10) [x; y])). split; [apply value2|].
    replace (perlin grad2 (23 / 10) [x; y]) with (perlin grad2 (23 / 10) [x + 289 * IZR a; y + 289 * IZR b]); [apply value2|].
    unfold perlin. cbn [map blend]. rewrite !period2, !period_fr. reflexivity.
  - exists (VF (perlin grad3 (11 / 5) [x; y; z])). split; [apply value3|].
    replace (perlin grad3 (11 / 5) [x; y; z]) with (perlin grad3 (11 / 5) [x + 289 * IZR a; y + 289 * IZR b; z + 289 * IZR c]); [apply value3|].
    unfold perlin. cbn [map blend]. rewrite !period3, !period_fr. reflexivity.
  - exists (VF (perlin grad4 (11 / 5) [x; y; z; w])). split; [apply value4|].
    replace (perlin grad4 (11 / 5) [x; y; z; w]) with (perlin grad4 (11 / 5) [x + 289 * IZR a; y + 289 * IZR b; z + 289 * IZR c; w + 289 * IZR d]); [apply value4|].
    unfold perlin. cbn [map blend]. rewrite !period4, !period_fr. reflexivity.
Qed.

(** the noise is not constant: at the centre of the cell at the origin it is not zero *)
Lemma fract_small : forall x, 0 <= x <= 1 / 2 -> fract x = x.
Proof. intros x H. unfold fract. rewrite (Int_part_unique x 0) by (simpl; lra). rewrite Rmin_left; simpl; lra. Qed.
Lemma hash_at : forall z r, ((34 * z + 1) * z) mod 289 = r -> hash z = r.
Proof. intros; assumption. Qed.
Lemma grad2_0 : grad2 0 = [0; 1 / 2].
Proof.
  unfold grad2. cbv zeta. replace (0 / 41) with 0 by lra. rewrite fract_small by lra. replace (0 * 2 - 1) with (-1) by lra.
  rewrite (Int_part_unique (-1 + 1 / 2) (-1)) by lra. rewrite Rabs_left by lra. apply f_equal2; [lra|]. apply f_equal2; [lra|reflexivity].
Qed.
Lemma grad2_69 : grad2 69 = [15 / 41; - (11 / 82)].
Proof.
  unfold grad2. cbv zeta. assert (F : fract (69 / 41) = 28 / 41).
  { unfold fract. rewrite (Int_part_unique (69 / 41) 1) by lra. rewrite Rmin_left; lra. }
  rewrite F. replace (28 / 41 * 2 - 1) with (15 / 41) by lra. rewrite (Int_part_unique (15 / 41 + 1 / 2) 0) by lra. rewrite Rabs_right by lra. apply f_equal2; [lra|]. apply f_equal2; [lra|reflexivity].
Qed.
Lemma nonzero_half : perlin grad2 (23 / 10) [1 / 2; 0] <> 0.
Proof.
  unfold perlin. cbn [map blend]. rewrite (fract_small (1 / 2)), (fract_small 0), fade0, !mix0, !infl2 by lra. cbv zeta.
  rewrite (Int_part_unique (1 / 2) 0), (Int_part_unique 0 0), (fract_small (1 / 2)), (fract_small 0) by lra.
  change (hash (hash (0 + (0 + 0)) + (0 + 0))) with 0%Z. change (hash (hash (0 + (0 + 1)) + (0 + 0))) with 69%Z.
  rewrite grad2_0, grad2_69. unfold ix, len, mix, fade, rdot. cbn. lra.
Qed.
Lemma C54_value_ex : exists v, v <> 0 /\ computes RS glm_perlin_vec2 [In (fl [1 / 2; 0])] (VF v) [].
Proof. exists (perlin grad2 (23 / 10) [1 / 2; 0]). split; [exact nonzero_half|apply value2]. Qed.
(** a negative lattice point, and a point in a cell of negative coordinates moved into one of positive coordinates *)
Lemma C54_lattice_ex : computes RS glm_perlin_vec3 [In (fl [-3; 290; 0])] (VF 0) [].
Proof. exact (proj1 (proj2 (C54_lattice_ok (-3) 290 0 0))). Qed.
Lemma C54_periodic_ex : exists v, v <> 0 /\ computes RS glm_perlin_vec2 [In (fl [- (577 / 2); 0])] (VF v) [].
Proof.
  exists (perlin grad2 (23 / 10) [1 / 2; 0]). split; [exact nonzero_half|].
  replace (perlin grad2 (23 / 10) [1 / 2; 0]) with (perlin grad2 (23 / 10) [- (577 / 2); 0]); [apply value2|].
  replace (- (577 / 2)) with (1 / 2 + 289 * IZR (-1)) by lra. replace 0 with (0 + 289 * IZR 0) at 1 by lra.
  unfold perlin. cbn [map blend]. rewrite !period2, !period_fr. reflexivity.
Qed.
