(** * Error bounds: cases that meet the hypotheses, and products of three matrices *)

From Coq Require Import String List ZArith Bool Lia Reals Lra Psatz Floats.SpecFloat.
From Flocq Require Import Core BinarySingleNaN.
From Verif Require Import MiniC Contract RScalar B32 Cglm Tac.
From Verif.Spec Require Import Float32 Types Linear Arrays Exact Approx ApproxLists.
From Verif.Proofs Require Import RTac Flo Chain ExactSound ApproxSound ExactAll ApproxAll.
Import ListNotations.
(* props: From Coq Require Import Reals Floats.SpecFloat. *)
(* props: From Verif Require Import B32. *)
(* props: From Verif.Spec Require Import Linear Float32 Types Exact Approx ApproxLists. *)
Local Open Scope R_scope.

(** sine and cosine, correctly rounded, are accurate enough *)
Definition fround (r : R) : b32 := SpecFloat.binary_normalize prec emax (ZnearestE (scaled_mantissa radix2 fx r)) (cexp radix2 fx r) false.
Lemma fround_ok : forall r, Rabs r <= 1 -> number (fround r) /\ Rabs (rval (fround r) - r) <= powerRZ 2 (-25).
Proof.
  intros r H. unfold fround. rewrite bn_equiv, value_B2R. unfold number. rewrite valid_B2SF, finite_B.
  pose proof (binary_normalize_correct prec emax Hprec Hmax mode_NE (ZnearestE (scaled_mantissa radix2 fx r)) (cexp radix2 fx r) false) as B.
  change (F2R (Defs.Float radix2 (ZnearestE (scaled_mantissa radix2 fx r)) (cexp radix2 fx r))) with (rnd r) in B.
  cbv zeta in B. change (round radix2 fx (round_mode mode_NE) (rnd r)) with (rnd (rnd r)) in B.
  assert (I : rnd (rnd r) = rnd r). { apply round_generic; [apply valid_rnd_N|]. apply generic_format_round; [apply fexp_correct; reflexivity|apply valid_rnd_N]. }
  rewrite I in B. pose proof (half_ulp r 0 ltac:(simpl; lra) ltac:(lia)) as U.
  rewrite Rlt_bool_true in B.
  - destruct B as (B1 & B2 & _). rewrite B1. repeat split; auto. 
  - apply Rle_lt_trans with 2.
    + replace (rnd r) with (r + (rnd r - r)) by ring. eapply Rle_trans; [apply Rabs_triang|].
      assert (powerRZ 2 (0 - 25) <= 1). { change 1 with (powerRZ 2 0). change 2 with (IZR radix2). rewrite <- !bpow_powerRZ. apply bpow_le. lia. } lra.
    + change 2 with (bpow radix2 1). apply bpow_lt. reflexivity.
Qed.
Lemma C73_accurate_ex : exists l, accurate l.
Proof.
  exists {| l1 := fun o x => match o with OSin => fround (sin (rval x)) | OCos => fround (cos (rval x)) | _ => x end; l2 := fun _ x _ => x |}.
  intros x _. cbn [l1].
  assert (L : powerRZ 2 (-25) <= powerRZ 2 (-24)) by (change 2 with (IZR radix2); rewrite <- !bpow_powerRZ; apply bpow_le; lia).
  pose proof (SIN_bound (rval x)). pose proof (COS_bound (rval x)).
  destruct (fround_ok (sin (rval x))) as [N1 E1]; [apply Rabs_le; lra|]. destruct (fround_ok (cos (rval x))) as [N2 E2]; [apply Rabs_le; lra|].
  repeat split; try apply N1; try apply N2; lra.
Qed.

Lemma p2neg : forall p, powerRZ 2 (Zneg p) = / IZR (2 ^ Zpos p).
Proof. intros p. change (Zneg p) with (- Zpos p)%Z. change 2 with (IZR radix2) at 1. rewrite <- bpow_powerRZ, bpow_opp. reflexivity. Qed.
(** the dot product of the floats nearest to 0.1, 1/3, 1/7 and 1, -1/5, 2/3 *)
Lemma C73_bounds_ex : List.In ((glm_vec3_dot, [Reads Flt 3; Reads Flt 3]), (11, 9437184, Some 207)%Z) error_bounds /\
  exists args rargs m rm pl, Forall2 fits [Reads Flt 3; Reads Flt 3] args /\ Forall2 (arg_near (powerRZ 2 (-20))) args rargs /\ Forall (arg_upto 1) rargs /\
    layout m args pl /\ layout rm rargs pl /\
    rargs = [InA (fl [1 / 10; 1 / 3; 1 / 7]); InA (fl [1; - 1 / 5; 2 / 3])].
Proof.
  split; [apply (nth_error_In error_bounds 300); reflexivity|].
  exists [InA (fl [b_lit 1 10; b_lit 1 3; b_lit 1 7]); InA (fl [b_lit 1 1; b_lit (-1) 5; b_lit 2 3])], [InA (fl [1 / 10; 1 / 3; 1 / 7]); InA (fl [1; - 1 / 5; 2 / 3])].
  exists [fl [b_lit 1 10; b_lit 1 3; b_lit 1 7]; fl [b_lit 1 1; b_lit (-1) 5; b_lit 2 3]], [fl [1 / 10; 1 / 3; 1 / 7]; fl [1; - 1 / 5; 2 / 3]], [(0%nat, 0%Z); (1%nat, 0%Z)].
  repeat match goal with |- _ /\ _ => split end; try reflexivity.
  - repeat (apply Forall2_cons; [eexists; split; [|reflexivity]; eexists; split; [|reflexivity]; reflexivity|]); apply Forall2_nil.
  - repeat (apply Forall2_cons; [|]); try apply Forall2_nil; cbn [arg_near fl map]; repeat (apply Forall2_cons; [|]); try apply Forall2_nil; cbn [cell_near];
      (split; [split; reflexivity|]); match goal with |- Rabs (rval ?x - _) <= _ => let v := eval vm_compute in x in change x with v end;
      cbn [rval]; rewrite ?p2neg; repeat match goal with |- context [IZR (2 ^ ?k)] => let v := eval vm_compute in (2 ^ k)%Z in change (2 ^ k)%Z with v end; apply Rabs_le; split; lra.
  - repeat (apply Forall_cons; [|]); try apply Forall_nil; cbn [arg_upto fl map]; repeat (apply Forall_cons; [|]); try apply Forall_nil; cbn [cell_upto]; apply Rabs_le; split; lra.
  - split; [repeat constructor|]. intros [|[|[|i]]] j a b p q _ A _ _ _ W; try discriminate A; injection A as <-; discriminate W.
  - split; [repeat constructor|]. intros [|[|[|i]]] j a b p q _ A _ _ _ W; try discriminate A; injection A as <-; discriminate W.
Qed.

(** ** A product of three matrices in both groupings *)

Lemma bound_mul : forall A B, length A = 16%nat -> length B = 16%nat -> Forall (fun r => Rabs r <= 1) A -> Forall (fun r => Rabs r <= 1) B -> Forall (fun r => Rabs r <= 4) (mmul 4 A B).
Proof.
  intros A B LA LB HA HB.
  assert (X : forall a b c d x y z w, Rabs a <= 1 -> Rabs b <= 1 -> Rabs c <= 1 -> Rabs d <= 1 -> Rabs x <= 1 -> Rabs y <= 1 -> Rabs z <= 1 -> Rabs w <= 1 -> Rabs (a * x + b * y + c * z + d * w) <= 4).
  { intros. assert (P : forall u v, Rabs u <= 1 -> Rabs v <= 1 -> Rabs (u * v) <= 1).
    { intros u v U V. rewrite Rabs_mult. pose proof (Rabs_pos u). pose proof (Rabs_pos v). nra. }
    pose proof (P a x). pose proof (P b y). pose proof (P c z). pose proof (P d w).
    eapply Rle_trans; [apply Rabs_triang|]. eapply Rle_trans; [apply Rplus_le_compat_r; apply Rabs_triang|]. eapply Rle_trans; [apply Rplus_le_compat_r, Rplus_le_compat_r; apply Rabs_triang|]. intuition lra. }
  unlists. repeat match goal with H : Forall _ (_ :: _) |- _ => inversion H; clear H; subst end.
  cbv [mmul mulg build flat_map seq map app ent nth Nat.mul Nat.add Rsum total fold_left].
  repeat (apply Forall_cons; [apply X; assumption|]). apply Forall_nil.
Qed.
Lemma weaken : forall d e M (x : list b32) y, d <= e -> Forall2 (within d) x y -> Forall (fun r => Rabs r <= 1) y -> 1 <= M -> Forall2 (within e) x y /\ Forall (fun r => Rabs r <= M) y.
Proof.
  intros d e M x y L H U HM. split.
  - clear U. induction H as [|a b x y [N E] H IH]; constructor; auto. split; auto. lra.
  - clear H. induction U; constructor; auto. lra.
Qed.
(** with numbers up to 1 both groupings of A B C are within 1025 units of 2^-25 of the exact product, so within
    2050 units of each other *)
Lemma C73_grouping_ok : forall l A B C, length A = 16%nat -> length B = 16%nat -> length C = 16%nat ->
  Forall (fun x => number x /\ Rabs (rval x) <= 1) A -> Forall (fun x => number x /\ Rabs (rval x) <= 1) B -> Forall (fun x => number x /\ Rabs (rval x) <= 1) C ->
  exists AB BC P Q,
    computes (B32 l) glm_mat4_mul [In (fl A); In (fl B); Out 16] VVoid [fl AB] /\
    computes (B32 l) glm_mat4_mul [In (fl B); In (fl C); Out 16] VVoid [fl BC] /\
    computes (B32 l) glm_mat4_mul [In (fl AB); In (fl C); Out 16] VVoid [fl P] /\
    computes (B32 l) glm_mat4_mul [In (fl A); In (fl BC); Out 16] VVoid [fl Q] /\
    Forall2 (within (1025 * powerRZ 2 (-25))) P (mmul 4 (map rval A) (mmul 4 (map rval B) (map rval C))) /\
    Forall2 (within (1025 * powerRZ 2 (-25))) Q (mmul 4 (map rval A) (mmul 4 (map rval B) (map rval C))) /\
    Forall2 (fun p q => Rabs (rval p - rval q) <= 2050 * powerRZ 2 (-25)) P Q.
Proof.
  intros l A B C LA LB LC HA HB HC.
  assert (W : forall X, Forall (fun x => number x /\ Rabs (rval x) <= 1) X -> Forall2 (within 0) X (map rval X) /\ Forall (fun r => Rabs r <= 1) (map rval X)).
  { induction 1 as [|x X [N U] H [I1 I2]]; cbn [map]; split; constructor; auto. split; auto. rewrite Rminus_diag_eq, Rabs_R0; auto; lra. }
  destruct (W A HA) as [WA UA], (W B HB) as [WB UB], (W C HC) as [WC UC]. clear W HA HB HC.
  assert (LRA : length (map rval A) = 16%nat) by (rewrite map_length; auto). assert (LRB : length (map rval B) = 16%nat) by (rewrite map_length; auto). assert (LRC : length (map rval C) = 16%nat) by (rewrite map_length; auto).
  set (RA := map rval A) in *. set (RB := map rval B) in *. set (RC := map rval C) in *. clearbody RA RB RC.
  assert (S1 : forall X Y RX RY, length X = 16%nat -> length Y = 16%nat -> Forall2 (within 0) X RX -> Forall2 (within 0) Y RY -> Forall (fun r => Rabs r <= 1) RX -> Forall (fun r => Rabs r <= 1) RY ->
    Forall2 (within (20 * powerRZ 2 (-25))) (fmul4 (B32 l) X Y) (mmul 4 RX RY)).
  { intros X Y RX RY. apply (mat_near 1 0 _ (EK (1 * unit) 0) (20 * 2 ^ 5)); [|apply bound25|vm_cast_no_check (eq_refl true)].
    intros. apply box; auto. rewrite Rmult_0_l. auto. }
  assert (S2 : forall X Y RX RY, length X = 16%nat -> length Y = 16%nat -> Forall2 (within (20 * powerRZ 2 (-25))) X RX -> Forall2 (within (20 * powerRZ 2 (-25))) Y RY ->
    Forall (fun r => Rabs r <= 4) RX -> Forall (fun r => Rabs r <= 4) RY -> Forall2 (within (1025 * powerRZ 2 (-25))) (fmul4 (B32 l) X Y) (mmul 4 RX RY)).
  { intros X Y RX RY. apply (mat_near 4 (20 * powerRZ 2 (-25)) _ (EK (4 * unit) (20 * 2 ^ 5)) (1025 * 2 ^ 5)); [|apply bound25|vm_cast_no_check (eq_refl true)].
    intros. apply box; auto. eapply Rle_trans; [eassumption|]. right. rewrite mult_IZR, <- p2Z, Rmult_assoc by lia. unfold sc. rewrite <- p2plus. reflexivity. }
  assert (P0 : 0 <= 20 * powerRZ 2 (-25)) by (pose proof (p2pos (-25)); lra).
  destruct (weaken 0 _ 4 _ _ P0 WA UA ltac:(lra)) as [WA' UA']. destruct (weaken 0 _ 4 _ _ P0 WC UC ltac:(lra)) as [WC' UC'].
  pose proof (S1 A B RA RB LA LB WA WB UA UB) as E1. pose proof (S1 B C RB RC LB LC WB WC UB UC) as E2.
  pose proof (S2 (fmul4 (B32 l) A B) C _ _ eq_refl LC E1 WC' (bound_mul _ _ LRA LRB UA UB) UC') as E3.
  pose proof (S2 A (fmul4 (B32 l) B C) _ _ LA eq_refl WA' E2 UA' (bound_mul _ _ LRB LRC UB UC)) as E4.
  assert (AS : mmul 4 (mmul 4 RA RB) RC = mmul 4 RA (mmul 4 RB RC)).
  { clear - LRA LRB LRC. unlists. cbv [mmul mulg build flat_map seq map app ent nth Nat.mul Nat.add Rsum total fold_left].
    repeat match goal with |- cons _ _ = cons _ _ => apply f_equal2 end; try reflexivity; ring. }
  rewrite AS in E3.
  exists (fmul4 (B32 l) A B), (fmul4 (B32 l) B C), (fmul4 (B32 l) (fmul4 (B32 l) A B) C), (fmul4 (B32 l) A (fmul4 (B32 l) B C)).
  split; [apply mul_in; auto|]. split; [apply mul_in; auto|]. split; [apply mul_in; auto|]. split; [apply mul_in; auto|].
  split; [exact E3|]. split; [exact E4|].
  revert E3 E4. generalize (fmul4 (B32 l) (fmul4 (B32 l) A B) C) (fmul4 (B32 l) A (fmul4 (B32 l) B C)) (mmul 4 RA (mmul 4 RB RC)). clear.
  intros P Q R1 H1. revert Q. induction H1 as [|p r P R1 [_ D1] H1 IH]; intros Q H2; inversion H2 as [|q ? Q' ? [_ D2] H3]; subst; constructor; auto.
  replace (rval p - rval q) with ((rval p - r) - (rval q - r)) by ring. eapply Rle_trans; [apply Rabs_triang|]. rewrite Rabs_Ropp. lra.
Qed.
Lemma C73_grouping_ex : Forall (fun x => number x /\ Rabs (rval x) <= 1) (map (fun k => b_lit k 16) [1; 2; 3; -4; 5; 6; -7; 8; 9; 10; 11; 12; -13; 14; 15; 16]%Z).
Proof.
  cbn [map]. repeat (apply Forall_cons; [|]); try apply Forall_nil; (split; [split; reflexivity|]);
    match goal with |- Rabs (rval ?x) <= _ => let v := eval vm_compute in x in change x with v end; cbn [rval]; rewrite ?p2neg;
    repeat match goal with |- context [IZR (2 ^ ?k)] => let v := eval vm_compute in (2 ^ k)%Z in change (2 ^ k)%Z with v end; apply Rabs_le; split; lra.
Qed.
