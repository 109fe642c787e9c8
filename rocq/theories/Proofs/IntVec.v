(** * Integer vectors (C43) *)

From Coq Require Import String List ZArith Bool Reals Lra Lia.
From Verif Require Import Cglm.
From Verif.Spec Require Import Vec IntVec.
From Verif.Proofs Require Import Layout RExact.
Import ListNotations.
Local Open Scope Z_scope.

Lemma in_int_fits : forall z, in_int z = true <-> fits z.
Proof. intros z. unfold in_int, fits. rewrite andb_true_iff, !Z.leb_le. reflexivity. Qed.
Lemma in_int_not : forall z, in_int z = false <-> ~ fits z.
Proof. intros z. rewrite <- in_int_fits. destruct (in_int z); split; intros; congruence. Qed.

(** the error of the first component that is not defined *)
Fixpoint div_err (x y : list Z) : err :=
  match x, y with
  | a :: x', b :: y' => if b =? 0 then XDivZero else if in_int (Z.quot a b) then div_err x' y' else XOverflow
  | _, _ => XOverflow
  end.
Lemma div_err_ub : forall x y, arith_ub (div_err x y).
Proof.
  unfold arith_ub. induction x as [|a x IH]; intros [|b y]; simpl; auto. destruct (b =? 0); auto. destruct (in_int _); auto.
Qed.

Lemma zmax_code : forall a b, (if b <? a then a else b) = Z.max a b.
Proof. intros. destruct (Z.ltb_spec b a); lia. Qed.
Lemma zmin_code : forall a b, (if a <? b then a else b) = Z.min a b.
Proof. intros. destruct (Z.ltb_spec a b); lia. Qed.

Ltac iunf := cbv [all2 all3 i_ok i_val p_add p_sub p_mul p_div p_mod p_min p_max map2 map3 map repeat isum isum_ok fold_right combine fst snd
  iop_z il icmp div_err] in *.
Ltac iconj := repeat match goal with H : _ /\ _ |- _ => destruct H end.
Ltac ival := first [reflexivity | assumption | apply in_int_fits; assumption
  | apply negb_true_iff; apply Z.eqb_neq; assumption
  | match goal with |- context [?a <? ?b] => destruct (Z.ltb_spec a b); lia end
  | lia].
Ltac icells := repeat match goal with
  | |- cons _ _ = cons _ _ => apply f_equal2
  | |- CI _ = CI _ => f_equal
  | |- VI _ = VI _ => f_equal end; try ival.
Ltac iok := intros H; iunf; iconj; sym_with 100%nat; useeqs; iunf; rewrite ?zmin_code, ?zmax_code; rewrite ?Z.max_id, ?Z.min_id in *; gsplit; try reflexivity; icells.
Ltac iifs := repeat match goal with
  | |- context [if ?b then _ else _] => lazymatch b with context [if _ then _ else _] => fail | _ => let E := fresh "E" in destruct b eqn:E; try reflexivity end end.
Ltac ibad1 H := iunf; exfalso; apply H; repeat split; try exact I;
  first [apply in_int_fits; assumption | apply Z.eqb_neq; apply negb_true_iff; assumption | apply Z.eqb_neq; assumption | idtac].
Ltac ibad x := intros H; exists x; split; [first [left; reflexivity | apply div_err_ub]|]; symx_with 100%nat; useeqs; iunf; rewrite ?zmin_code, ?zmax_code; rewrite ?Z.max_id, ?Z.min_id in *; iifs; try discriminate; ibad1 H.
Ltac iboth x := split; [iok | ibad x].
Ltac ibin := intros ? ? ? ?; unlists; iboth XOverflow.
Ltac idiv := intros x y ? ?; unlists; match goal with |- exactly_if _ (all2 _ ?x ?y) _ _ _ _ => iboth (div_err x y) end.

Lemma C43_binary_ok : forall S : Scalar,
  int_binary S 2 glm_ivec2_add p_add /\ int_binary S 3 glm_ivec3_add p_add /\ int_binary S 4 glm_ivec4_add p_add /\
  int_binary S 2 glm_ivec2_sub p_sub /\ int_binary S 3 glm_ivec3_sub p_sub /\ int_binary S 4 glm_ivec4_sub p_sub /\
  int_binary S 2 glm_ivec2_mul p_mul /\ int_binary S 3 glm_ivec3_mul p_mul /\ int_binary S 4 glm_ivec4_mul p_mul.
Proof. intros S. repeat match goal with |- _ /\ _ => split end; ibin. Qed.
Lemma C43_div_ok : forall S : Scalar,
  int_binary S 2 glm_ivec2_div p_div /\ int_binary S 3 glm_ivec3_div p_div /\
  int_binary S 2 glm_ivec2_mod p_mod /\ int_binary S 3 glm_ivec3_mod p_mod.
Proof. intros S. repeat match goal with |- _ /\ _ => split end; idiv. Qed.
Lemma C43_minmax_ok : forall S : Scalar,
  int_binary S 2 glm_ivec2_minv p_min /\ int_binary S 3 glm_ivec3_minv p_min /\ int_binary S 4 glm_ivec4_minv p_min /\
  int_binary S 2 glm_ivec2_maxv p_max /\ int_binary S 3 glm_ivec3_maxv p_max /\ int_binary S 4 glm_ivec4_maxv p_max.
Proof. intros S. repeat match goal with |- _ /\ _ => split end; ibin. Qed.
Ltac isca := intros ? s ?; unlists; iboth XOverflow.
Lemma C43_scalar_ok : forall S : Scalar,
  int_scalar S 2 glm_ivec2_adds p_add /\ int_scalar S 3 glm_ivec3_adds p_add /\ int_scalar S 4 glm_ivec4_adds p_add /\
  int_scalar S 2 glm_ivec2_subs p_sub /\ int_scalar S 3 glm_ivec3_subs p_sub /\ int_scalar S 4 glm_ivec4_subs p_sub /\
  int_scalar S 2 glm_ivec2_scale p_mul /\ int_scalar S 3 glm_ivec3_scale p_mul /\ int_scalar S 4 glm_ivec4_scale p_mul.
Proof. intros S. repeat match goal with |- _ /\ _ => split end; isca. Qed.
Lemma C43_divs_ok : forall S : Scalar,
  int_scalar S 2 glm_ivec2_divs p_div /\ int_scalar S 3 glm_ivec3_divs p_div.
Proof.
  intros S. repeat match goal with |- _ /\ _ => split end; intros x s Lx; unlists; cbv [repeat];
    match goal with |- exactly_if _ (all2 _ ?x ?y) _ _ _ _ => iboth (div_err x y) end.
Qed.
Ltac iacc := intros ? ? ? ? ? ?; unlists; iboth XOverflow.
Ltac iaccs := intros ? s ? ? ?; unlists; iboth XOverflow.
Lemma C43_accumulate_ok : forall S : Scalar,
  int_accumulate S 2 glm_ivec2_addadd p_add p_add /\ int_accumulate S 3 glm_ivec3_addadd p_add p_add /\ int_accumulate S 4 glm_ivec4_addadd p_add p_add /\
  int_accumulate S 2 glm_ivec2_subadd p_sub p_add /\ int_accumulate S 3 glm_ivec3_subadd p_sub p_add /\ int_accumulate S 4 glm_ivec4_subadd p_sub p_add /\
  int_accumulate S 2 glm_ivec2_muladd p_mul p_add /\ int_accumulate S 3 glm_ivec3_muladd p_mul p_add /\ int_accumulate S 4 glm_ivec4_muladd p_mul p_add /\
  int_accumulate S 2 glm_ivec2_maxadd p_max p_add /\ int_accumulate S 3 glm_ivec3_maxadd p_max p_add /\ int_accumulate S 4 glm_ivec4_maxadd p_max p_add /\
  int_accumulate S 2 glm_ivec2_minadd p_min p_add /\ int_accumulate S 3 glm_ivec3_minadd p_min p_add /\ int_accumulate S 4 glm_ivec4_minadd p_min p_add.
Proof. intros S. repeat match goal with |- _ /\ _ => split end; iacc. Qed.
Lemma C43_accumulate_sub_ok : forall S : Scalar,
  int_accumulate S 2 glm_ivec2_subsub p_sub p_sub /\ int_accumulate S 3 glm_ivec3_subsub p_sub p_sub /\ int_accumulate S 4 glm_ivec4_subsub p_sub p_sub /\
  int_accumulate S 2 glm_ivec2_addsub p_add p_sub /\ int_accumulate S 3 glm_ivec3_addsub p_add p_sub /\ int_accumulate S 4 glm_ivec4_addsub p_add p_sub /\
  int_accumulate S 2 glm_ivec2_mulsub p_mul p_sub /\ int_accumulate S 3 glm_ivec3_mulsub p_mul p_sub /\ int_accumulate S 4 glm_ivec4_mulsub p_mul p_sub /\
  int_accumulate S 2 glm_ivec2_maxsub p_max p_sub /\ int_accumulate S 3 glm_ivec3_maxsub p_max p_sub /\ int_accumulate S 4 glm_ivec4_maxsub p_max p_sub /\
  int_accumulate S 2 glm_ivec2_minsub p_min p_sub /\ int_accumulate S 3 glm_ivec3_minsub p_min p_sub /\ int_accumulate S 4 glm_ivec4_minsub p_min p_sub.
Proof. intros S. repeat match goal with |- _ /\ _ => split end; iacc. Qed.
Lemma C43_accumulate_scalar_ok : forall S : Scalar,
  int_accumulate_scalar S 2 glm_ivec2_addadds p_add p_add /\ int_accumulate_scalar S 3 glm_ivec3_addadds p_add p_add /\ int_accumulate_scalar S 4 glm_ivec4_addadds p_add p_add /\
  int_accumulate_scalar S 2 glm_ivec2_subadds p_sub p_add /\ int_accumulate_scalar S 3 glm_ivec3_subadds p_sub p_add /\ int_accumulate_scalar S 4 glm_ivec4_subadds p_sub p_add /\
  int_accumulate_scalar S 2 glm_ivec2_muladds p_mul p_add /\ int_accumulate_scalar S 3 glm_ivec3_muladds p_mul p_add /\ int_accumulate_scalar S 4 glm_ivec4_muladds p_mul p_add /\
  int_accumulate_scalar S 2 glm_ivec2_subsubs p_sub p_sub /\ int_accumulate_scalar S 3 glm_ivec3_subsubs p_sub p_sub /\ int_accumulate_scalar S 4 glm_ivec4_subsubs p_sub p_sub /\
  int_accumulate_scalar S 2 glm_ivec2_addsubs p_add p_sub /\ int_accumulate_scalar S 3 glm_ivec3_addsubs p_add p_sub /\ int_accumulate_scalar S 4 glm_ivec4_addsubs p_add p_sub /\
  int_accumulate_scalar S 2 glm_ivec2_mulsubs p_mul p_sub /\ int_accumulate_scalar S 3 glm_ivec3_mulsubs p_mul p_sub /\ int_accumulate_scalar S 4 glm_ivec4_mulsubs p_mul p_sub.
Proof. intros S. repeat match goal with |- _ /\ _ => split end; iaccs. Qed.
(** copies, constants, clamping: defined for all values *)
Ltac iall := intros; unlists; sym_with 100%nat; useeqs; iunf; gsplit; try reflexivity; icells.
Lemma C43_total_ok : forall S : Scalar,
  iunary S 2 glm_ivec2_copy (fun a => a) /\ iunary S 3 glm_ivec3_copy (fun a => a) /\ iunary S 4 glm_ivec4_copy (fun a => a) /\
  iinplace S 2 glm_ivec2_zero (fun _ => 0) /\ iinplace S 3 glm_ivec3_zero (fun _ => 0) /\ iinplace S 4 glm_ivec4_zero (fun _ => 0) /\
  iinplace S 2 glm_ivec2_one (fun _ => 1) /\ iinplace S 3 glm_ivec3_one (fun _ => 1) /\ iinplace S 4 glm_ivec4_one (fun _ => 1) /\
  ifilled S 2 glm_ivec2_fill /\ ifilled S 3 glm_ivec3_fill /\
  iclamp S 2 glm_ivec2_clamp /\ iclamp S 3 glm_ivec3_clamp /\ iclamp S 4 glm_ivec4_clamp.
Proof.
  intros S. repeat match goal with |- _ /\ _ => split end; unfold iunary, iinplace, ifilled, iclamp; iall.
  all: repeat match goal with |- context [?a <? ?b] => destruct (Z.ltb_spec a b) end; lia.
Qed.
Lemma C43_abs_ok : forall S : Scalar, iabs S 2 glm_ivec2_abs /\ iabs S 3 glm_ivec3_abs /\ iabs S 4 glm_ivec4_abs.
Proof.
  intros S. repeat match goal with |- _ /\ _ => split end; intros x Lx; unlists; iboth XOverflow.
Qed.

(** sums of products, from left to right: every intermediate result must be representable *)
Ltac isumok := intros; unlists; cbv [map2 Z.add] in *; simpl; iboth XOverflow.
Lemma C43_dot_ok : forall S : Scalar,
  idot S 2 glm_ivec2_dot /\ idot S 3 glm_ivec3_dot /\ inorm2 S 3 glm_ivec3_norm2 /\
  idistance2 S 2 glm_ivec2_distance2 /\ idistance2 S 3 glm_ivec3_distance2 /\ idistance2 S 4 glm_ivec4_distance2.
Proof.
  intros S. repeat match goal with |- _ /\ _ => split end; unfold idot, inorm2, idistance2; intros; unlists; cbv zeta;
  (split; [intros H | intros H; exists XOverflow; split; [left; reflexivity|]]; [sym_with 100%nat | symx_with 100%nat]);
  iunf; rewrite ?Z.add_0_l in H.
  all: try (iifs; ibad1 H; fail). all: iconj; gsplit; try ival; f_equal; ring.
Qed.
Lemma C43_cross_ok : forall S x y, length x = 2%nat -> length y = 2%nat ->
  let p := nth 0 x 0 * nth 1 y 0 in let q := nth 1 x 0 * nth 0 y 0 in
  exactly_if S (fits p /\ fits q /\ fits (p - q)) glm_ivec2_cross [In (il x); In (il y)] (VI (p - q)) [].
Proof. intros. unlists. cbv [nth] in *. subst p q. iboth XOverflow. Qed.
(** comparisons: defined for all values *)
Lemma C43_eq_ok : forall S : Scalar,
  ieqv S 2 glm_ivec2_eqv /\ ieqv S 3 glm_ivec3_eqv /\ ieq S 2 glm_ivec2_eq /\ ieq S 3 glm_ivec3_eq.
Proof.
  intros S. repeat match goal with |- _ /\ _ => split end; unfold ieqv, ieq; intros; unlists; eexists; (split; [sym_with 100%nat; gsplit; reflexivity|]);
    iunf; repeat match goal with |- context [?a =? ?b] => destruct (Z.eqb_spec a b); simpl end; split; try congruence; intros E; try discriminate; injection E; intros; subst; congruence.
Qed.
(** conversions between dimensions *)
Lemma C43_convert_ok : forall (S : Scalar) a b c d,
  computes S glm_ivec2 [InA (il [a; b]); Out 2] VVoid [il [a; b]] /\
  computes S glm_ivec3 [In (il [a; b; c; d]); Out 3] VVoid [il [a; b; c]] /\
  computes S glm_ivec4 [In (il [a; b; c]); Val (VI d); Out 4] VVoid [il [a; b; c; d]].
Proof. intros. repeat match goal with |- _ /\ _ => split end; sym_with 100%nat; useeqs; gsplit; reflexivity. Qed.
Lemma sqrt_int_ok : forall z, 0 <= z -> s_ok1 RS OSqrt (s_ofZ RS z) = true.
Proof. intros z H. apply Rleb_true. apply IZR_le. exact H. Qed.
(** the distance is the real square root of the squared distance *)
Lemma C43_distance_ok : idistance 2 glm_ivec2_distance /\ idistance 3 glm_ivec3_distance /\ idistance 4 glm_ivec4_distance.
Proof.
  repeat match goal with |- _ /\ _ => split end; unfold idistance; intros; unlists; cbv zeta;
  (split; [intros H | intros H; exists XOverflow; split; [left; reflexivity|]]; [sym_with 100%nat | symx_with 100%nat]);
  iunf; rewrite ?Z.add_0_l in H;
  match goal with |- context [s_ok1 RS OSqrt (s_ofZ RS ?z)] =>
    rewrite (sqrt_int_ok z) by (repeat apply Z.add_nonneg_nonneg; apply Z.square_nonneg) end.
  all: try (iifs; ibad1 H; fail). all: iconj; gsplit; try ival. all: change (s_ofZ RS) with IZR; change (s_op1 RS OSqrt) with sqrt; do 3 f_equal; ring.
Qed.
(** scalars *)
Lemma shiftr_sign : forall v, fits v -> Z.shiftr v 31 = if v <? 0 then -1 else 0.
Proof.
  intros v [H H']. rewrite Z.shiftr_div_pow2 by lia. destruct (Z.ltb_spec v 0).
  - symmetry. apply Z.div_unique_pos with (v + 2 ^ 31); lia.
  - apply Z.div_small. lia.
Qed.
Lemma C43_sign_ok : forall (S : Scalar) v, fits v ->
  exactly_if S (v <> - 2 ^ 31) glm_sign [Val (VI v)] (VI (Z.sgn v)) [].
Proof.
  intros S v Hv. assert (Hw : v <> - 2 ^ 31 <-> fits (- v)) by (unfold fits in *; lia). split; [intros H | intros H; exists XOverflow; split; [left; reflexivity|]]; rewrite Hw in H; clear Hw.
  - sym_with 100%nat. iunf. change (shift_ok 31) with true. rewrite !shiftr_sign by assumption.
    gsplit; try ival. apply in_int_fits. unfold fits. destruct (v <? 0), (- v <? 0); lia.
    f_equal. destruct (Z.ltb_spec v 0); destruct (Z.ltb_spec (- v) 0); lia.
  - symx_with 100%nat. iunf. change (shift_ok 31) with true. apply in_int_not in H. rewrite H. reflexivity.
Qed.
Lemma C43_minmax1_ok : forall (S : Scalar) a b,
  computes S glm_imin [Val (VI a); Val (VI b)] (VI (Z.min a b)) [] /\ computes S glm_imax [Val (VI a); Val (VI b)] (VI (Z.max a b)) [].
Proof. intros. split; sym_with 100%nat; iunf; rewrite ?zmin_code, ?zmax_code; gsplit; reflexivity. Qed.


(** undefined although the mathematical value fits: an intermediate result does not *)
Lemma C43_dot_refuted_ok : exists x y, length x = 2%nat /\ length y = 2%nat /\ isum (map2 Z.mul x y) = 0 /\
  forall S : Scalar, exists e, arith_ub e /\ aborts S glm_ivec2_dot [In (il x); In (il y)] e.
Proof.
  exists [65536; 65536], [65536; -65536]. split; [reflexivity|]. split; [reflexivity|]. split; [reflexivity|]. intros S.
  destruct (C43_dot_ok S) as (D & _). apply (D [65536; 65536] [65536; -65536] eq_refl eq_refl). cbv -[Z.le Z.lt not]. lia.
Qed.
Lemma C43_div_ex : all2 (i_ok p_div) [7; -7; 1] [2; 2; -1] /\ map2 (i_val p_div) [7; -7; 1] [2; 2; -1] = [3; -3; -1] /\
  ~ all2 (i_ok p_div) [1; - 2 ^ 31; 1] [2; -1; -1] /\ ~ all2 (i_ok p_mod) [1; 1; 1] [2; 0; -1].
Proof. repeat match goal with |- _ /\ _ => split end; try reflexivity; cbv -[Z.le Z.lt not]; lia. Qed.
Lemma C43_abs_ex : ~ fits (Z.abs (- 2 ^ 31)) /\ fits (- 2 ^ 31).
Proof. cbv -[Z.le Z.lt not]. lia. Qed.
Lemma toZ_sqrt : forall z, 0 <= z -> s_toZ RS (sqrt (IZR z)) = Some (Z.sqrt z).
Proof.
  intros z H. destruct (Z.sqrt_spec z H) as [A B]. pose proof (Z.sqrt_nonneg z) as C.
  assert (P : (0 <= sqrt (IZR z))%R) by apply sqrt_pos.
  assert (L : (IZR (Z.sqrt z) <= sqrt (IZR z))%R).
  { rewrite <- (sqrt_square (IZR (Z.sqrt z))) by (apply IZR_le; exact C). apply sqrt_le_1_alt. rewrite <- mult_IZR. apply IZR_le. exact A. }
  assert (U : (sqrt (IZR z) < IZR (Z.sqrt z + 1))%R).
  { rewrite <- (sqrt_square (IZR (Z.sqrt z + 1))) by (apply IZR_le; lia). apply sqrt_lt_1_alt. split; [apply IZR_le; exact H|]. rewrite <- mult_IZR. apply IZR_lt. exact B. }
  simpl. rewrite (proj2 (Rltb_false _ _)) by exact P. f_equal. symmetry.
  destruct (base_Int_part (sqrt (IZR z))) as [D E]. assert (D' : Int_part (sqrt (IZR z)) < Z.sqrt z + 1) by (apply lt_IZR; lra).
  assert (E' : Z.sqrt z < Int_part (sqrt (IZR z)) + 1). { apply lt_IZR. rewrite plus_IZR. lra. } lia.
Qed.
Lemma norm3_call : forall p m r, call RS glm_ivec3_norm2 [VP (fst p) (snd p)] m = r ->
  match r with
  | Ok (VI z, m') => 0 <= z -> fits z -> call RS glm_ivec3_norm [VP (fst p) (snd p)] m = Ok (VI (Z.sqrt z), firstn (length m) m')
  | Ok _ => True
  | Err x => call RS glm_ivec3_norm [VP (fst p) (snd p)] m = Err x
  end.
Proof.
  intros [b o] m r. cbn [fst snd]. unfold glm_ivec3_norm. generalize glm_ivec3_norm2. intros f E. destruct r as [[[] m']|x]; auto.
  - intros Z0 Zf. unfold call at 1. cbn [exec eval evals]. fold (call RS). cbn -[call s_toZ]. change (T RS) with R in *. rewrite E. cbn -[call s_toZ].
    unfold fop1. cbn -[call s_toZ]. rewrite (proj2 (Rleb_true 0 (IZR z))) by (apply IZR_le; exact Z0). cbn -[call s_toZ].
    rewrite toZ_sqrt by exact Z0. cbn -[call]. unfold mkint. rewrite (proj2 (in_int_fits (Z.sqrt z))); [reflexivity|].
    pose proof (Z.sqrt_nonneg z). pose proof (Z.sqrt_le_lin z Z0). unfold fits in *. lia.
  - unfold call at 1. cbn [exec eval evals]. fold (call RS). cbn -[call s_toZ]. change (T RS) with R in *. rewrite E. reflexivity.
Qed.
(** the Euclidean norm, rounded towards zero *)
Lemma C43_norm_ok : forall x, length x = 3%nat ->
  exactly_if RS (isum_ok 0 (map2 Z.mul x x)) glm_ivec3_norm [In (il x)] (VI (Z.sqrt (isum (map2 Z.mul x x)))) [].
Proof.
  intros x Lx. destruct (C43_dot_ok RS) as (_ & _ & N & _). destruct (N x Lx) as [N1 N2].
  assert (P : forall (m : mem R) ps, layout m [In (il x)] ps -> exists p, ps = [p]).
  { intros m ps Hl. pose proof (lay_placed _ _ _ Hl) as F. inversion F as [|a p l l' _ F2]. inversion F2. subst. exists p. reflexivity. }
  split.
  - intros H m ps Hl. pose proof (N1 H m ps Hl) as C. destruct (P m ps Hl) as [p ->].
    apply norm3_call in C. cbn -[call upds glm_ivec3_norm isum Z.sqrt] in C |- *. rewrite C.
    + cbn. rewrite firstn_all. reflexivity.
    + unlists. cbn. repeat apply Z.add_nonneg_nonneg; try apply Z.square_nonneg; lia.
    + unlists. revert H. cbn. rewrite ?Z.add_0_r, ?Z.add_assoc. tauto.
  - intros H. destruct (N2 H) as (e & U & A). exists e. split; [exact U|]. intros m ps Hl. pose proof (A m ps Hl) as C. destruct (P m ps Hl) as [p ->].
    apply norm3_call in C. exact C.
Qed.
Lemma C43_norm_ex : isum_ok 0 (map2 Z.mul [2; 3; 6] [2; 3; 6]) /\ Z.sqrt (isum (map2 Z.mul [2; 3; 6] [2; 3; 6])) = 7.
Proof. split; [cbv -[Z.le Z.lt]; lia|reflexivity]. Qed.
