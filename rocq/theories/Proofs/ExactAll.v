(** * Functions that single precision computes without rounding *)

From Coq Require Import String List ZArith Bool Lia Reals Lra Floats.SpecFloat.
From Verif Require Import MiniC Contract RScalar B32 Cglm Sym SymCall SymTac Tac.
From Verif.Spec Require Import Float32 Types Linear Arrays Exact ExactLists.
From Verif.Proofs Require Import RTac Flo Layout Safe Chain ExactSound.
Import ListNotations.
(* props: From Coq Require Import Reals Floats.SpecFloat. *)
(* props: From Verif Require Import B32. *)
(* props: From Verif.Spec Require Import Linear Float32 Types Exact ExactLists. *)
Local Open Scope R_scope.

Lemma good_number : forall x, number x -> good Any x.
Proof. intros x H. split; simpl; auto. Qed.
Lemma good_integer : forall n x, integer n x -> good (Dy n 0) x.
Proof. intros n x [N (z & E & B)]. split; auto. exists z. split; auto. rewrite E. simpl. ring. Qed.

Lemma C69_select_ok : Forall (exact number) exact_always.
Proof.
  apply Forall_forall. intros d I. apply (exactb_ok 30%nat Any number good_number).
  assert (H : forallb (exactb 30%nat Any) exact_always = true) by (vm_cast_no_check (eq_refl true)).
  rewrite forallb_forall in H. apply H. exact I.
Qed.
Lemma C69_integers_ok : Forall (fun p => Forall (exact (integer (fst p))) (snd p)) exact_integers.
Proof.
  assert (H : forallb (fun p => forallb (exactb 30%nat (Dy (fst p) 0)) (snd p)) exact_integers = true) by (vm_cast_no_check (eq_refl true)).
  rewrite forallb_forall in H. apply Forall_forall. intros p I. specialize (H p I). rewrite forallb_forall in H.
  apply Forall_forall. intros d J. apply (exactb_ok 30%nat (Dy (fst p) 0) (integer (fst p)) (good_integer (fst p))). apply H. exact J.
Qed.

Lemma C69_select_values_ok : Forall (exact_values number) (map kept_apart exact_always).
Proof.
  apply Forall_forall. intros d I. apply (exactvb_ok 30%nat Any number good_number).
  assert (H : forallb (exactvb 30%nat Any) (map kept_apart exact_always) = true) by (vm_cast_no_check (eq_refl true)).
  rewrite forallb_forall in H. apply H. exact I.
Qed.
Lemma C69_integers_values_ok : Forall (fun p => Forall (exact_values (integer (fst p))) (map kept_apart (snd p))) exact_integers.
Proof.
  assert (H : forallb (fun p => forallb (exactvb 30%nat (Dy (fst p) 0)) (map kept_apart (snd p))) exact_integers = true) by (vm_cast_no_check (eq_refl true)).
  rewrite forallb_forall in H. apply Forall_forall. intros p I. specialize (H p I). rewrite forallb_forall in H.
  apply Forall_forall. intros d J. apply (exactvb_ok 30%nat (Dy (fst p) 0) (integer (fst p)) (good_integer (fst p))). apply H. exact J.
Qed.

(** ** Single-precision matrix products associate on small integers *)

Lemma mul_in : forall S A B, length A = 16%nat -> length B = 16%nat ->
  computes S glm_mat4_mul [In (fl A); In (fl B); Out 16] VVoid [fl (fmul4 S A B)].
Proof. intros. unlists. sym_with 100%nat; useeqs; gsplit; reflexivity. Qed.
Lemma real_fl : forall x : list b32, map real_cell (fl x) = fl (map rval x).
Proof. intros. unfold fl. rewrite !map_map. reflexivity. Qed.
Lemma fl_eq : forall F (a b : list F), fl a = fl b -> a = b.
Proof. induction a; destruct b; simpl; intros H; inversion H; f_equal; auto. Qed.
Lemma fits_in : forall (x : list b32), length x = 16%nat -> fits (Apart Flt 16) (In (fl x)).
Proof. intros x L. exists (fl x). split; auto. exists x. auto. Qed.
Lemma has_fl : forall P (x : list b32), Forall P x -> Forall (cell_has P) (fl x).
Proof. induction 1; simpl; constructor; auto. Qed.
Lemma mul_rval : forall l A B, length A = 16%nat -> length B = 16%nat -> Forall (integer 2047) A -> Forall (integer 2047) B ->
  Forall number (fmul4 (B32 l) A B) /\ map rval (fmul4 (B32 l) A B) = fmul4 RS (map rval A) (map rval B).
Proof.
  intros l A B LA LB IA IB.
  assert (X : exact_values (integer 2047) (glm_mat4_mul, [Apart Flt 16; Apart Flt 16; Writes 16])).
  { apply (exactvb_ok 30%nat (Dy 2047 0) (integer 2047) (good_integer 2047)). vm_cast_no_check (eq_refl true). }
  destruct (X l [In (fl A); In (fl B); Out 16]) as (v & outs & C1 & C2 & V & O & Le).
  { repeat constructor; auto using fits_in. }
  { repeat constructor; simpl; auto using has_fl. }
  destruct (computes_unique _ _ _ _ _ _ _ C1 (mul_in (B32 l) A B LA LB) Le eq_refl) as [_ ->].
  assert (C3 := mul_in RS (map rval A) (map rval B)). rewrite !map_length in C3. specialize (C3 LA LB).
  cbn [map real_arg] in C2. rewrite !real_fl in C2.
  destruct (computes_unique _ _ _ _ _ _ _ C2 C3 eq_refl eq_refl) as [_ E].
  split.
  - apply Forall_inv in O. revert O. generalize (fmul4 (B32 l) A B). induction l0; intros H; inversion H; constructor; auto.
  - apply fl_eq. apply (f_equal (fun x => nth 0 x [])) in E. exact E.
Qed.

Lemma four : forall a b c d a' b' c' d', integer 22 a -> integer 22 b -> integer 22 c -> integer 22 d ->
  integer 22 a' -> integer 22 b' -> integer 22 c' -> integer 22 d' ->
  exists z, rval a * rval a' + rval b * rval b' + rval c * rval c' + rval d * rval d' = IZR z /\ (Z.abs z <= 2047)%Z.
Proof.
  intros a b c d a' b' c' d' [_ (x1 & -> & B1)] [_ (x2 & -> & B2)] [_ (x3 & -> & B3)] [_ (x4 & -> & B4)]
    [_ (y1 & -> & D1)] [_ (y2 & -> & D2)] [_ (y3 & -> & D3)] [_ (y4 & -> & D4)].
  exists (x1 * y1 + x2 * y2 + x3 * y3 + x4 * y4)%Z. split; [rewrite !plus_IZR, !mult_IZR; reflexivity|].
  assert (P : forall x y, (Z.abs x <= 22 -> Z.abs y <= 22 -> Z.abs (x * y) <= 484)%Z).
  { intros x y Hx Hy. rewrite Z.abs_mul. pose proof (Z.mul_le_mono_nonneg (Z.abs x) 22 (Z.abs y) 22). lia. }
  pose proof (P _ _ B1 D1). pose proof (P _ _ B2 D2). pose proof (P _ _ B3 D3). pose proof (P _ _ B4 D4). lia.
Qed.
Ltac ints := repeat match goal with H : Forall (integer _) (_ :: _) |- _ => apply Forall_cons_iff in H; destruct H as [? ?] end.
Lemma mul_integer : forall l A B, length A = 16%nat -> length B = 16%nat -> Forall (integer 22) A -> Forall (integer 22) B ->
  Forall (integer 2047) (fmul4 (B32 l) A B).
Proof.
  intros l A B LA LB IA IB.
  assert (W : forall x, integer 22 x -> integer 2047 x) by (intros x [N (z & E & Bd)]; split; auto; exists z; split; auto; lia).
  destruct (mul_rval l A B LA LB) as [N E]; [eapply Forall_impl; [|exact IA]; auto|eapply Forall_impl; [|exact IB]; auto|].
  assert (Q : Forall (fun r => exists z, r = IZR z /\ (Z.abs z <= 2047)%Z) (fmul4 RS (map rval A) (map rval B))).
  { unlists. ints. cbn [map]. lcbv. repeat constructor; apply four; auto. }
  rewrite <- E in Q. revert N Q. generalize (fmul4 (B32 l) A B). induction l0; intros N Q; inversion N; inversion Q; subst; constructor; auto. split; auto.
Qed.
Lemma C69_assoc_ok : forall l A B C, length A = 16%nat -> length B = 16%nat -> length C = 16%nat ->
  Forall (integer 22) A -> Forall (integer 22) B -> Forall (integer 22) C ->
  exists AB BC P Q,
    computes (B32 l) glm_mat4_mul [In (fl A); In (fl B); Out 16] VVoid [fl AB] /\
    computes (B32 l) glm_mat4_mul [In (fl B); In (fl C); Out 16] VVoid [fl BC] /\
    computes (B32 l) glm_mat4_mul [In (fl AB); In (fl C); Out 16] VVoid [fl P] /\
    computes (B32 l) glm_mat4_mul [In (fl A); In (fl BC); Out 16] VVoid [fl Q] /\
    Forall number P /\ Forall number Q /\
    map rval P = map rval Q /\ map rval P = mmul 4 (map rval A) (mmul 4 (map rval B) (map rval C)).
Proof.
  intros l A B C LA LB LC IA IB IC.
  assert (W : forall x, Forall (integer 22) x -> Forall (integer 2047) x).
  { intros x H. eapply Forall_impl; [|exact H]. intros y [N (z & E & Bd)]. split; auto. exists z. split; auto. lia. }
  exists (fmul4 (B32 l) A B), (fmul4 (B32 l) B C), (fmul4 (B32 l) (fmul4 (B32 l) A B) C), (fmul4 (B32 l) A (fmul4 (B32 l) B C)).
  do 4 (split; [apply mul_in; auto|]).
  destruct (mul_rval l (fmul4 (B32 l) A B) C) as [N1 E1]; auto using mul_integer.
  destruct (mul_rval l A (fmul4 (B32 l) B C)) as [N2 E2]; auto using mul_integer.
  split; [exact N1|split; [exact N2|]]. rewrite E1, E2.
  rewrite (proj2 (mul_rval l A B LA LB (W _ IA) (W _ IB))), (proj2 (mul_rval l B C LB LC (W _ IB) (W _ IC))).
  rewrite !fmul4_real. assert (X : forall a b c, length a = 16%nat -> length b = 16%nat -> length c = 16%nat -> mmul 4 (mmul 4 a b) c = mmul 4 a (mmul 4 b c)).
  { clear. intros. unlists. cbv [mmul mulg Linear.build flat_map seq map app Rsum total fold_left ent nth Nat.mul Nat.add]. repeat (apply f_equal2; [ring|]). reflexivity. }
  rewrite X by (rewrite map_length; auto). auto.
Qed.

(** ** Cases *)

Definition mat1 (z : Z) : list b32 := bz z :: repeat (bz 0) 15.
(** without the bound products need not associate: here the first entries are 4097, 4097 and 3 *)
Lemma C69_assoc_refuted_ok : exists A B C AB BC P Q, forall l,
  length A = 16%nat /\ length B = 16%nat /\ length C = 16%nat /\ Forall (integer 4097) (A ++ B ++ C) /\
  computes (B32 l) glm_mat4_mul [In (fl A); In (fl B); Out 16] VVoid [fl AB] /\
  computes (B32 l) glm_mat4_mul [In (fl B); In (fl C); Out 16] VVoid [fl BC] /\
  computes (B32 l) glm_mat4_mul [In (fl AB); In (fl C); Out 16] VVoid [fl P] /\
  computes (B32 l) glm_mat4_mul [In (fl A); In (fl BC); Out 16] VVoid [fl Q] /\
  map rval P <> map rval Q.
Proof.
  exists (mat1 4097), (mat1 4097), (mat1 3), (mat1 16785408), (mat1 12291), (mat1 50356224), (mat1 50356228). intros l.
  do 3 (split; [reflexivity|]). split.
  { assert (Z0 : integer 4097 (bz 0)) by (split; [split; reflexivity|exists 0%Z; split; [reflexivity|lia]]).
    assert (Z1 : integer 4097 (bz 4097)). { split; [split; reflexivity|exists 4097%Z; split; [|lia]]. cbv [bz]. unfold rval. vm_compute binary_normalize. cbn [powerRZ]. simpl. lra. }
    assert (Z3 : integer 4097 (bz 3)). { split; [split; reflexivity|exists 3%Z; split; [|lia]]. unfold rval. vm_compute bz. simpl. lra. }
    unfold mat1. simpl repeat. simpl app. repeat (apply Forall_cons; [assumption|]). apply Forall_nil. }
  split; [|split; [|split; [|split]]].
  1-4: match goal with |- computes _ _ [In (fl ?a); In (fl ?b); _] _ [fl ?c] => replace c with (fmul4 (B32 l) a b) by (vm_compute; reflexivity); apply mul_in; reflexivity end.
  intros H. injection H. intros. revert H0.  unfold rval. vm_compute bz. simpl. lra.
Qed.
Lemma bz_integer : forall z n, (Z.abs z <= n)%Z -> inb32 (bz z) = true -> finite (bz z) = true -> rval (bz z) = IZR z -> integer n (bz z).
Proof. intros z n H1 H2 H3 H4. split; [split; auto|exists z; auto]. Qed.
Ltac bzi := apply bz_integer; [lia|reflexivity|reflexivity|unfold rval; vm_compute bz; simpl; lra].
(** beyond the bound a sum is rounded: 8388609 + 8388608 *)
Lemma C69_bound_refuted_ok : exists n d, n = 8388609%Z /\ d = (glm_vec2_add, [Apart Flt 2; Apart Flt 2; Writes 2]) /\
  ~ exact_values (integer n) d /\ ~ exact_values number d /\ exact_values (integer 8388607) d.
Proof.
  exists 8388609%Z, (glm_vec2_add, [Apart Flt 2; Apart Flt 2; Writes 2]). do 2 (split; [reflexivity|]).
  assert (X : forall P : b32 -> Prop, P (bz 8388609) -> P (bz 8388608) -> ~ exact_values P (glm_vec2_add, [Apart Flt 2; Apart Flt 2; Writes 2])).
  { intros P P1 P2 H. pose (l := {| l1 := fun _ x => x; l2 := fun _ x _ => x |}).
    destruct (H l [In (fl [bz 8388609; bz 8388609]); In (fl [bz 8388608; bz 8388608]); Out 2]) as (v & outs & C1 & C2 & _ & _ & Le).
    { apply Forall2_cons; [|apply Forall2_cons; [|apply Forall2_cons; [reflexivity|apply Forall2_nil]]]; eexists; (split; [|reflexivity]); eexists (_ :: _ :: []); split; reflexivity. }
    { apply Forall_cons; [|apply Forall_cons; [|apply Forall_cons; [exact I|apply Forall_nil]]]; apply has_fl; repeat (apply Forall_cons; [assumption|]); apply Forall_nil. }
    assert (G : forall S a b c d, computes S glm_vec2_add [In (fl [a; b]); In (fl [c; d]); Out 2] VVoid [fl [s_op2 S OAdd a c; s_op2 S OAdd b d]]).
    { intros. sym_with 30%nat; useeqs; gsplit; reflexivity. }
    destruct (computes_unique _ _ _ _ _ _ _ C1 (G (B32 l) _ _ _ _) Le eq_refl) as [_ ->].
    cbn [map real_arg] in C2. rewrite !real_fl in C2. cbn [map] in C2.
    destruct (computes_unique _ _ _ _ _ _ _ C2 (G RS _ _ _ _) eq_refl eq_refl) as [_ E].
    apply (f_equal (fun x => nth 0 x [])) in E. cbn [nth] in E. apply fl_eq in E. apply (f_equal (fun x => nth 0 x 0)) in E. revert E. clear.
    change (s_op2 (B32 l) OAdd (bz 8388609) (bz 8388608)) with (SFadd prec emax (bz 8388609) (bz 8388608)). cbn [nth].
    change (s_op2 RS OAdd) with Rplus. unfold rval. vm_compute SFadd. vm_compute bz. simpl. lra. }
  split; [|split].
  - apply X; bzi.
  - apply X; split; reflexivity.
  - apply (exactvb_ok 30%nat (Dy 8388607 0) (integer 8388607) (good_integer 8388607)). vm_cast_no_check (eq_refl true).
Qed.
Lemma C69_assoc_ex : Forall (integer 22) (map bz [2; -3; 5; 0; 7; 22; -22; 1; 0; 4; 6; -8; 9; 10; 3; 1]%Z).
Proof. cbn [map]. repeat (apply Forall_cons; [bzi|]). apply Forall_nil. Qed.
(** calls that meet the hypotheses *)
Lemma C69_select_ex : length exact_always = 504%nat /\
  nth_error exact_always 311 = Some (glm_vec3_maxv, [Reads Flt 3; Reads Flt 3; Writes 3]) /\
  Forall number [bz 3; S754_finite true 1 (-149); S754_finite false 16777215 104].
Proof. split; [reflexivity|split; [reflexivity|repeat (apply Forall_cons; [split; reflexivity|]); apply Forall_nil]]. Qed.
