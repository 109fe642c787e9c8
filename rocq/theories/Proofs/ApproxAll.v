(** * Error bounds of functions *)

From Coq Require Import String List ZArith Bool Lia Reals Lra Floats.SpecFloat.
From Verif Require Import MiniC Contract RScalar B32 Cglm Sym SymCall SymTac Tac.
From Verif.Spec Require Import Float32 Types Linear Arrays Exact Approx ApproxLists.
From Verif.Proofs Require Import RTac Flo Layout Safe Chain ExactSound ApproxSound ExactAll.
Import ListNotations.
(* props: From Coq Require Import Reals Floats.SpecFloat. *)
(* props: From Verif Require Import B32. *)
(* props: From Verif.Spec Require Import Linear Float32 Types Exact Approx ApproxLists. *)
Local Open Scope R_scope.

Lemma any_sincos : forall l, any_libm l -> sincos None l.
Proof. intros l _ t H. discriminate. Qed.
Lemma accurate_sincos : forall l, accurate l -> sincos (Some (2 ^ 6)%Z) l.
Proof.
  intros l H t E x N. assert (S : IZR t * sc = powerRZ 2 (-24)).
  { assert (t = (2 ^ 6)%Z) by congruence. subst t. unfold sc. rewrite <- p2Z by lia. rewrite <- p2plus. reflexivity. }
  rewrite S. apply H. auto.
Qed.
Lemma box : forall m dd x y, number x -> Rabs y <= IZR m -> Rabs (rval x - y) <= IZR dd * sc -> near (EK (m * unit) dd) x y.
Proof. intros m dd x y N H1 H2. split; auto. cbn [mg er]. rewrite sc_one. auto. Qed.
Lemma bound25 : forall e, IZR (e * 2 ^ 5) * sc <= IZR e * powerRZ 2 (-25).
Proof. intros. rewrite mult_IZR, <- p2Z, Rmult_assoc by lia. unfold sc. rewrite <- p2plus. right. reflexivity. Qed.
Lemma d20 : powerRZ 2 (-20) = IZR (2 ^ 10) * sc.
Proof. unfold sc. rewrite <- p2Z, <- p2plus by lia. reflexivity. Qed.
Definition cases (b : Z * Z * option Z) : list (ek * Z) :=
  let '(x, y, z) := b in
  (EK (1 * unit) 0, x * 2 ^ 5)%Z :: (EK (1000 * unit) 0, y * 2 ^ 5)%Z :: match z with Some w => [(EK (1 * unit) (2 ^ 10), w * 2 ^ 5)%Z] | None => [] end.
Section T.
Variables (tr : option Z) (L : libm -> Prop) (HL : forall l, L l -> sincos tr l).
Lemma table : forall T, forallb (fun q => approxb tr 30 (cases (snd q)) (fst q)) T = true ->
  Forall (fun q => let '(D, (x, y, z)) := q in
    approximates L 1 0 (IZR x * powerRZ 2 (-25)) D /\ approximates L 1000 0 (IZR y * powerRZ 2 (-25)) D /\
    match z with Some w => approximates L 1 (powerRZ 2 (-20)) (IZR w * powerRZ 2 (-25)) D | None => True end) T.
Proof.
  intros T H. rewrite forallb_forall in H. apply Forall_forall. intros [D [[x y] z]] I. specialize (H _ I). cbn [fst snd] in H. split; [|split].
  - eapply (approxb_ok tr 30%nat (cases (x, y, z)) L 1 0 _ (EK (1 * unit) 0)); eauto; [left; reflexivity| |apply bound25].
    intros. apply box; auto. rewrite Rmult_0_l. auto.
  - eapply (approxb_ok tr 30%nat (cases (x, y, z)) L 1000 0 _ (EK (1000 * unit) 0)); eauto; [right; left; reflexivity| |apply bound25].
    intros. apply box; auto. rewrite Rmult_0_l. auto.
  - destruct z as [w|]; auto. rewrite d20.
    eapply (approxb_ok tr 30%nat (cases (x, y, Some w)) L 1 _ _ (EK (1 * unit) (2 ^ 10))); eauto; [right; right; left; reflexivity| |apply bound25].
    intros. apply box; auto.
Qed.
End T.
Lemma C73_bounds_ok : Forall (fun q => let '(D, (x, y, z)) := q in
    approximates any_libm 1 0 (IZR x * powerRZ 2 (-25)) D /\ approximates any_libm 1000 0 (IZR y * powerRZ 2 (-25)) D /\
    match z with Some w => approximates any_libm 1 (powerRZ 2 (-20)) (IZR w * powerRZ 2 (-25)) D | None => True end) error_bounds.
Proof. apply (table None any_libm any_sincos). vm_cast_no_check (eq_refl true). Qed.
Lemma C73_trig_bounds_ok : Forall (fun q => let '(D, (x, y, z)) := q in
    approximates accurate 1 0 (IZR x * powerRZ 2 (-25)) D /\ approximates accurate 1000 0 (IZR y * powerRZ 2 (-25)) D /\
    match z with Some w => approximates accurate 1 (powerRZ 2 (-20)) (IZR w * powerRZ 2 (-25)) D | None => True end) trig_error_bounds.
Proof. apply (table (Some (2 ^ 6)%Z) accurate accurate_sincos). vm_cast_no_check (eq_refl true). Qed.

(** the same with the results as values that do not depend on the memory *)
Lemma tablev : forall tr (L : libm -> Prop) (HL : forall l, L l -> sincos tr l) T,
  forallb (fun q => approxvb tr 30 (cases (snd q)) (kept_apart (fst q))) T = true ->
  Forall (fun q => let '(D, (x, y, z)) := q in
    approximates_values L 1 0 (IZR x * powerRZ 2 (-25)) (kept_apart D) /\ approximates_values L 1000 0 (IZR y * powerRZ 2 (-25)) (kept_apart D) /\
    match z with Some w => approximates_values L 1 (powerRZ 2 (-20)) (IZR w * powerRZ 2 (-25)) (kept_apart D) | None => True end) T.
Proof.
  intros tr L HL T H. rewrite forallb_forall in H. apply Forall_forall. intros [D [[x y] z]] I. specialize (H _ I). cbn [fst snd] in H. split; [|split].
  - eapply (approxvb_ok tr 30%nat (cases (x, y, z)) L 1 0 _ (EK (1 * unit) 0)); eauto; [left; reflexivity| |apply bound25].
    intros. apply box; auto. rewrite Rmult_0_l. auto.
  - eapply (approxvb_ok tr 30%nat (cases (x, y, z)) L 1000 0 _ (EK (1000 * unit) 0)); eauto; [right; left; reflexivity| |apply bound25].
    intros. apply box; auto. rewrite Rmult_0_l. auto.
  - destruct z as [w|]; auto. rewrite d20.
    eapply (approxvb_ok tr 30%nat (cases (x, y, Some w)) L 1 _ _ (EK (1 * unit) (2 ^ 10))); eauto; [right; right; left; reflexivity| |apply bound25].
    intros. apply box; auto.
Qed.
Lemma C73_values_ok : Forall (fun q => let '(D, (x, y, z)) := q in
    approximates_values any_libm 1 0 (IZR x * powerRZ 2 (-25)) (kept_apart D) /\
    approximates_values any_libm 1000 0 (IZR y * powerRZ 2 (-25)) (kept_apart D) /\
    match z with Some w => approximates_values any_libm 1 (powerRZ 2 (-20)) (IZR w * powerRZ 2 (-25)) (kept_apart D) | None => True end) error_bounds.
Proof. apply (tablev None any_libm any_sincos). vm_cast_no_check (eq_refl true). Qed.
Lemma C73_trig_values_ok : Forall (fun q => let '(D, (x, y, z)) := q in
    approximates_values accurate 1 0 (IZR x * powerRZ 2 (-25)) (kept_apart D) /\
    approximates_values accurate 1000 0 (IZR y * powerRZ 2 (-25)) (kept_apart D) /\
    match z with Some w => approximates_values accurate 1 (powerRZ 2 (-20)) (IZR w * powerRZ 2 (-25)) (kept_apart D) | None => True end) trig_error_bounds.
Proof. apply (tablev (Some (2 ^ 6)%Z) accurate accurate_sincos). vm_cast_no_check (eq_refl true). Qed.

(** ** A product of three matrices in both groupings *)

Lemma near_cells : forall d (x : list b32) (y : list R), Forall2 (within d) x y -> Forall2 (cell_near d) (fl x) (fl y).
Proof. induction 1; cbn [fl map]; constructor; auto. Qed.
Lemma cells_near : forall d (x : list b32) (y : list R), Forall2 (cell_near d) (fl x) (fl y) -> Forall2 (within d) x y.
Proof. induction x; destruct y; cbn [fl map]; intros H; inversion H; subst; constructor; auto. Qed.
Lemma upto_cells : forall M (y : list R), Forall (fun r => Rabs r <= M) y -> Forall (cell_upto M) (fl y).
Proof. induction 1; cbn [fl map]; constructor; auto. Qed.
Lemma F2len : forall A B (P : A -> B -> Prop) x y, Forall2 P x y -> length y = length x.
Proof. induction 1; simpl; auto. Qed.
Lemma F2hd : forall A B (P : A -> B -> Prop) x y a b, Forall2 P (x :: a) (y :: b) -> P x y.
Proof. intros. inversion H. auto. Qed.
Lemma mat_near : forall M d e k0 lm, (forall x y, number x -> Rabs y <= M -> Rabs (rval x - y) <= d -> near k0 x y) -> IZR lm * sc <= e ->
  approxvb None 30 [(k0, lm)] (glm_mat4_mul, [Apart Flt 16; Apart Flt 16; Writes 16]) = true ->
  forall l A B RA RB, length A = 16%nat -> length B = 16%nat -> Forall2 (within d) A RA -> Forall2 (within d) B RB ->
  Forall (fun r => Rabs r <= M) RA -> Forall (fun r => Rabs r <= M) RB -> Forall2 (within e) (fmul4 (B32 l) A B) (mmul 4 RA RB).
Proof.
  intros M d e k0 lm HK HE H l A B RA RB LA LB NA NB UA UB.
  assert (X : approximates_values any_libm M d e (glm_mat4_mul, [Apart Flt 16; Apart Flt 16; Writes 16])).
  { eapply (approxvb_ok None 30%nat [(k0, lm)] any_libm M d e k0 lm); eauto using any_sincos. left. auto. }
  pose proof (F2len _ _ _ _ _ NA) as LRA. pose proof (F2len _ _ _ _ _ NB) as LRB. rewrite LA in LRA. rewrite LB in LRB.
  destruct (X l [In (fl A); In (fl B); Out 16] [In (fl RA); In (fl RB); Out 16] Logic.I) as (v & w & outs & routs & C1 & C2 & _ & O & Le).
  { repeat (apply Forall2_cons; [try (apply fits_in; auto)|]); [reflexivity|constructor]. }
  { repeat (apply Forall2_cons; [try (apply near_cells; auto)|]); [reflexivity|constructor]. }
  { repeat (apply Forall_cons; [try (apply upto_cells; auto)|]); [exact Logic.I|constructor]. }
  destruct (computes_unique _ _ _ _ _ _ _ C1 (mul_in (B32 l) A B LA LB) Le eq_refl) as [_ ->].
  assert (Le' : map (@length _) routs = [16%nat]).
  { inversion O as [|? ? ? ? O1 O2]; subst. inversion O2; subst. cbn [map]. f_equal. exact (F2len _ _ _ _ _ O1). }
  destruct (computes_unique _ _ _ _ _ _ _ C2 (mul_in RS RA RB LRA LRB) Le' eq_refl) as [_ ->].
  apply F2hd, cells_near in O. rewrite <- fmul4_real. exact O.
Qed.
