(** * Accuracy of matrix inverses in single precision (C79) *)

From Coq Require Import String List ZArith Bool Reals Lra Lia Psatz Floats.SpecFloat.
From Flocq Require Import Core.
From Verif Require Import MiniC Sym SymSound Contract SymCall SymTac Tac Cglm B32 RScalar.
From Verif.Spec Require Import Float32 Linear Inverse32.
From Verif.Proofs Require Import Flo Ieee IeeeId IeeeNorm ExactSound ApproxSound Layout RTac RExact Ranges Matrix MatInv.
From Verif.Proofs Require Tests32.
Import ListNotations.
(* props: From Coq Require Import Reals Floats.SpecFloat. *)
(* props: From Verif Require Import B32. *)
(* props: From Verif.Spec Require Import Float32 Linear Inverse32. *)
Local Open Scope R_scope.

Definition v25 : R := / 33554432.
Lemma v25_p : powerRZ 2 (-25) = v25.
Proof. unfold v25. change (-25)%Z with (Z.opp 25). rewrite powerRZ_neg', p2Z by lia. reflexivity. Qed.
(** [x] and [r] are at most [M] in magnitude and differ by at most [e] units of 2^-25 *)
Definition ap (M e : Z) (x : b32) (r : R) : Prop := number x /\ Rabs (rval x) <= IZR M /\ Rabs r <= IZR M /\ Rabs (rval x - r) <= IZR e * v25.
Definition hu (M : Z) : Z := (2 ^ Z.log2_up M)%Z.
Lemma ap_round : forall M e x y r, (1 <= M <= 1024)%Z -> inb32 x = true -> (finite x = true -> rval x = rnd y) -> (Rabs (rnd y) < big -> finite x = true) ->
  Rabs y <= IZR M -> Rabs r <= IZR M -> Rabs (y - r) <= IZR e * v25 -> ap M (e + hu M) x r.
Proof.
  intros M e x y r HM V F1 F2 Hy Hr He.
  assert (FM : fixp (IZR M)). { replace (IZR M) with (IZR M * bpow radix2 0) by (simpl; ring). apply fix_grid; lia. }
  assert (Y : Rabs (rnd y) <= IZR M). { rewrite Proofs.Tests32.rnd_abs. apply rnd_le in Hy. rewrite (proj1 FM) in Hy. exact Hy. }
  assert (F : finite x = true). { apply F2. eapply Rle_lt_trans; [exact Y|]. pose proof (proj2 FM). pose proof (Rle_abs (IZR M)). lra. }
  specialize (F1 F). split; [split; auto|]. rewrite F1. split; [exact Y|]. split; [exact Hr|].
  assert (L : (0 <= Z.log2_up M)%Z) by apply Z.log2_up_nonneg.
  assert (B : Rabs y <= powerRZ 2 (Z.log2_up M)). { rewrite p2Z by auto. eapply Rle_trans; [exact Hy|]. apply IZR_le. destruct (Z.eq_dec M 1) as [->|]; [simpl; lia|]. apply Z.log2_up_spec. lia. }
  pose proof (half_ulp y (Z.log2_up M) B ltac:(lia)) as H. rewrite plus_IZR. unfold hu. rewrite <- p2Z by auto.
  replace (powerRZ 2 (Z.log2_up M - 25)) with (powerRZ 2 (Z.log2_up M) * v25) in H by (rewrite <- v25_p, <- powerRZ_add by lra; reflexivity).
  replace (rnd y - r) with ((rnd y - y) + (y - r)) by ring. eapply Rle_trans; [apply Rabs_triang|]. lra.
Qed.
Lemma ap_in : forall x, number x -> Rabs (rval x) <= 1 -> ap 1 0 x (rval x).
Proof. intros x N H. split; auto. split; auto. split; auto. rewrite Rminus_diag_eq, Rabs_R0 by auto. lra. Qed.
Lemma ap_add : forall M N e f x y r s, (1 <= M + N <= 1024)%Z -> ap M e x r -> ap N f y s -> ap (M + N) (e + f + hu (M + N)) (fadd x y) (r + s).
Proof.
  intros M N e f x y r s K (Nx & X1 & X2 & X3) (Ny & Y1 & Y2 & Y3). destruct (add_rnd x y Nx Ny) as [F1 F2].
  apply (ap_round (M + N) (e + f) _ _ _ K (add_valid x y (proj1 Nx) (proj1 Ny)) F1 F2); rewrite plus_IZR.
  - eapply Rle_trans; [apply Rabs_triang|]. lra.
  - eapply Rle_trans; [apply Rabs_triang|]. lra.
  - replace (rval x + rval y - (r + s)) with ((rval x - r) + (rval y - s)) by ring. eapply Rle_trans; [apply Rabs_triang|]. lra.
Qed.
Lemma ap_sub : forall M N e f x y r s, (1 <= M + N <= 1024)%Z -> ap M e x r -> ap N f y s -> ap (M + N) (e + f + hu (M + N)) (fsub x y) (r - s).
Proof.
  intros M N e f x y r s K (Nx & X1 & X2 & X3) (Ny & Y1 & Y2 & Y3). destruct (sub_rnd x y Nx Ny) as [F1 F2].
  assert (T : forall a b, Rabs (a - b) <= Rabs a + Rabs b) by (intros a b; unfold Rminus; rewrite <- (Rabs_Ropp b); apply Rabs_triang).
  apply (ap_round (M + N) (e + f) _ _ _ K (sub_valid x y (proj1 Nx) (proj1 Ny)) F1 F2); rewrite plus_IZR.
  - eapply Rle_trans; [apply T|]. lra.
  - eapply Rle_trans; [apply T|]. lra.
  - replace (rval x - rval y - (r - s)) with ((rval x - r) - (rval y - s)) by ring. eapply Rle_trans; [apply T|]. lra.
Qed.
Lemma ap_mul : forall M N e f x y r s, (1 <= M * N <= 1024)%Z -> ap M e x r -> ap N f y s -> ap (M * N) (M * f + N * e + hu (M * N)) (fmul x y) (r * s).
Proof.
  intros M N e f x y r s K (Nx & X1 & X2 & X3) (Ny & Y1 & Y2 & Y3). destruct (mul_rnd x y Nx Ny) as [F1 F2].
  pose proof (Rabs_pos (rval x)). pose proof (Rabs_pos (rval y)). pose proof (Rabs_pos r). pose proof (Rabs_pos s). pose proof (Rabs_pos (rval x - r)). pose proof (Rabs_pos (rval y - s)).
  apply (ap_round (M * N) (M * f + N * e) _ _ _ K (mul_valid x y (proj1 Nx) (proj1 Ny)) F1 F2).
  - rewrite Rabs_mult, mult_IZR. apply Rmult_le_compat; auto.
  - rewrite Rabs_mult, mult_IZR. apply Rmult_le_compat; auto.
  - replace (rval x * rval y - r * s) with (rval x * (rval y - s) + s * (rval x - r)) by ring. eapply Rle_trans; [apply Rabs_triang|]. rewrite !Rabs_mult, plus_IZR, !mult_IZR.
    assert (Rabs (rval x) * Rabs (rval y - s) <= IZR M * (IZR f * v25)) by (apply Rmult_le_compat; auto).
    assert (Rabs s * Rabs (rval x - r) <= IZR N * (IZR e * v25)) by (apply Rmult_le_compat; auto). lra.
Qed.
Lemma ap_opp : forall M e x r, ap M e x r -> ap M e (SFopp x) (- r).
Proof.
  intros M e x r (N & A & B & C). split; [apply Proofs.Tests32.opp_number; auto|]. rewrite Proofs.Tests32.opp_value, !Rabs_Ropp. split; auto. split; auto.
  replace (- rval x - - r) with (- (rval x - r)) by ring. rewrite Rabs_Ropp. auto.
Qed.
(** the reciprocal of the determinant *)
Definition iv (z : R) (ed : Z) (x : b32) (r : R) : Prop :=
  number x /\ Rabs (rval x) <= 26 / 25 * z /\ Rabs r <= z /\ Rabs (rval x - r) <= (36 / 35 * (2 + IZR ed) + 1 / 1000) * v25 * (z * z).
Lemma big_v : 1000000 < big. Proof. unfold big. rewrite bpow_powerRZ. simpl (IZR radix2). rewrite p2Z by (unfold emax; lia). apply IZR_lt. reflexivity. Qed.
Lemma rnd_to : forall y, exists q t, Rabs q <= 2 * v25 /\ Rabs t <= v25 / 1000 /\ rnd y = y * (1 + q) + t.
Proof.
  intros y. destruct (err_any y) as (q & t & Hq & Ht & _ & E). exists q, t. pose proof eta_le as Et. split; [unfold u, v25 in *; lra|]. split; auto.
  eapply Rle_trans; [exact Ht|]. eapply Rle_trans; [exact Et|]. unfold v25. simpl (2 ^ 150)%Z. lra.
Qed.
Lemma iv_inv : forall d M ed y D, / 4096 <= d <= 1 -> (0 <= ed <= 224)%Z -> ap M ed y D -> d <= Rabs D -> iv (/ d) ed (fdiv (b_lit 1 1) y) (1 / D).
Proof.
  intros d M ed y D Hd He (N & A & B & C) HD. assert (D0 : D <> 0) by (intro E; rewrite E, Rabs_R0 in HD; lra).
  assert (He' : 0 <= IZR ed <= 224) by (split; apply IZR_le; lia). set (z := / d).
  assert (Hz : 1 <= z <= 4096). { unfold z. split; [rewrite <- Rinv_1|replace 4096 with (/ / 4096) by lra]; apply Rinv_le_contravar; lra. }
  assert (CD : Rabs (rval y - D) <= d / 36). { eapply Rle_trans; [exact C|]. unfold v25. lra. }
  assert (Y : 35 / 36 * d <= Rabs (rval y)). { pose proof (Rabs_triang (rval y) (D - rval y)) as T. replace (rval y + (D - rval y)) with D in T by ring. rewrite (Rabs_minus_sym D) in T. lra. }
  assert (Y0 : rval y <> 0) by (intro E; rewrite E, Rabs_R0 in Y; lra).
  assert (V1 : rval (b_lit 1 1) = 1) by (apply Proofs.Tests32.v_ints). assert (N1 : number (b_lit 1 1)) by (split; reflexivity).
  destruct (div_rnd (b_lit 1 1) y N1 N Y0) as [F1 F2]. rewrite V1 in F1, F2.
  destruct (rnd_to (1 / rval y)) as (q & t & Hq & Ht & E). set (i := 1 / rval y) in *.
  assert (I : Rabs i <= 36 / 35 * z). { unfold i. replace (1 / rval y) with (/ rval y) by lra. rewrite Rabs_inv. unfold z. replace (36 / 35 * / d) with (/ (35 / 36 * d)) by (field; lra). apply Rinv_le_contravar; lra. }
  assert (R1 : Rabs (1 / D) <= z). { replace (1 / D) with (/ D) by lra. rewrite Rabs_inv. unfold z. apply Rinv_le_contravar; lra. }
  assert (V : 0 < v25 < 1 / 1000000) by (unfold v25; lra).
  assert (IR : Rabs (i - 1 / D) <= IZR ed * v25 * (36 / 35 * z * z)).
  { replace (i - 1 / D) with ((rval y - D) * (- (i * (1 / D)))) by (unfold i; field; auto). rewrite Rabs_mult, Rabs_Ropp, Rabs_mult.
    apply Rmult_le_compat; auto using Rabs_pos. apply Rmult_le_pos; apply Rabs_pos. apply Rmult_le_compat; auto using Rabs_pos. }
  assert (Q : Rabs (i * q) <= 36 / 35 * z * (2 * v25)) by (rewrite Rabs_mult; apply Rmult_le_compat; auto using Rabs_pos).
  assert (X : Rabs (rnd i) <= 26 / 25 * z).
  { rewrite E. replace (i * (1 + q) + t) with (i + (i * q + t)) by ring. eapply Rle_trans; [apply Rabs_triang|]. pose proof (Rabs_triang (i * q) t). assert (z * v25 <= z / 1000000) by nra. lra. }
  assert (F : finite (fdiv (b_lit 1 1) y) = true). { apply F2. pose proof big_v. lra. }
  specialize (F1 F). split; [split; auto; apply div_valid; [apply N1|apply N]|]. rewrite F1. split; [exact X|]. split; [exact R1|].
  rewrite E. replace (i * (1 + q) + t - 1 / D) with ((i - 1 / D) + (i * q + t)) by ring. eapply Rle_trans; [apply Rabs_triang|]. pose proof (Rabs_triang (i * q) t).
  assert (Z2 : z <= z * z) by nra. assert (v25 * z <= v25 * (z * z)) by (apply Rmult_le_compat_l; lra). assert (v25 * 1 <= v25 * (z * z)) by (apply Rmult_le_compat_l; lra). lra.
Qed.
Lemma iv_opp : forall z ed x r, iv z ed x r -> iv z ed (SFopp x) (- r).
Proof.
  intros z e x r (N & A & B & C). split; [apply Proofs.Tests32.opp_number; auto|]. rewrite Proofs.Tests32.opp_value, !Rabs_Ropp. split; auto. split; auto.
  replace (- rval x - - r) with (- (rval x - r)) by ring. rewrite Rabs_Ropp. auto.
Qed.
Lemma iv_mul : forall z ed M ec x r y s K, 1 <= z <= 4096 -> (0 <= M <= 6)%Z -> (0 <= ec <= 100)%Z -> (0 <= ed <= 224)%Z -> iv z ed x r -> ap M ec y s ->
  IZR M * (36 / 35 * (2 + IZR ed) + 1 / 1000) + 21 / 10 * IZR M + IZR ec + 1 / 1000 <= K ->
  inb32 (fmul x y) = true /\ (Rabs (rnd (rval x * rval y)) < big) /\ Rabs (rnd (rval x * rval y) - r * s) <= K * v25 * (z * z).
Proof.
  intros z ed M ec x r y s K Hz HM Hc He (Nx & X1 & X2 & X3) (Ny & Y1 & Y2 & Y3) HK. split; [apply mul_valid; [apply Nx|apply Ny]|].
  assert (HM' : 0 <= IZR M <= 6) by (split; apply IZR_le; lia). assert (Hc' : 0 <= IZR ec <= 100) by (split; apply IZR_le; lia). assert (He' : 0 <= IZR ed <= 224) by (split; apply IZR_le; lia).
  assert (V : 0 < v25 < 1 / 1000000) by (unfold v25; lra).
  destruct (rnd_to (rval x * rval y)) as (q & t & Hq & Ht & E). rewrite E.
  assert (P : Rabs (rval x * rval y) <= 26 / 25 * z * IZR M) by (rewrite Rabs_mult; apply Rmult_le_compat; auto using Rabs_pos).
  assert (Q : Rabs (rval x * rval y * q) <= 26 / 25 * z * IZR M * (2 * v25)) by (rewrite Rabs_mult; apply Rmult_le_compat; auto using Rabs_pos).
  assert (zM : z * IZR M <= 4096 * 6) by (apply Rmult_le_compat; lra).
  assert (zM0 : 0 <= z * IZR M) by (apply Rmult_le_pos; lra).
  assert (A1 : Rabs ((rval x - r) * rval y) <= (36 / 35 * (2 + IZR ed) + 1 / 1000) * v25 * (z * z) * IZR M) by (rewrite Rabs_mult; apply Rmult_le_compat; auto using Rabs_pos).
  assert (A2 : Rabs (r * (rval y - s)) <= z * (IZR ec * v25)) by (rewrite Rabs_mult; apply Rmult_le_compat; auto using Rabs_pos).
  split.
  - replace (rval x * rval y * (1 + q) + t) with (rval x * rval y + (rval x * rval y * q + t)) by ring. eapply Rle_lt_trans; [apply Rabs_triang|]. pose proof (Rabs_triang (rval x * rval y * q) t). pose proof big_v.
    assert (z * IZR M * v25 <= z * IZR M * 1) by (apply Rmult_le_compat_l; lra). lra.
  - replace (rval x * rval y * (1 + q) + t - r * s) with (((rval x - r) * rval y + r * (rval y - s)) + (rval x * rval y * q + t)) by ring. eapply Rle_trans; [apply Rabs_triang|].
    pose proof (Rabs_triang (rval x * rval y * q) t). pose proof (Rabs_triang ((rval x - r) * rval y) (r * (rval y - s))).
    assert (W : z <= z * z) by nra. set (w := v25 * (z * z)). assert (W1 : v25 * z <= w) by (apply Rmult_le_compat_l; lra). assert (W2 : v25 <= w) by (rewrite <- (Rmult_1_r v25); apply Rmult_le_compat_l; lra).
    assert (W3 : IZR M * (v25 * z) <= IZR M * w) by (apply Rmult_le_compat_l; lra). assert (W4 : IZR ec * (v25 * z) <= IZR ec * w) by (apply Rmult_le_compat_l; lra).
    assert (W5 : (IZR M * (36 / 35 * (2 + IZR ed) + 1 / 1000) + 21 / 10 * IZR M + IZR ec + 1 / 1000) * w <= K * w) by (apply Rmult_le_compat_r; lra).
    assert (W6 : 0 <= IZR M * w) by (apply Rmult_le_pos; lra).
    replace (K * v25 * (z * z)) with (K * w) by (unfold w; ring). replace ((36 / 35 * (2 + IZR ed) + 1 / 1000) * v25 * (z * z) * IZR M) with (IZR M * (36 / 35 * (2 + IZR ed) + 1 / 1000) * w) in A1 by (unfold w; ring). lra.
Qed.
Lemma fl_same : forall (a b : list R), fl a = fl b -> a = b.
Proof. induction a as [|x a IH]; intros [|y b] H; try discriminate H; auto. cbn in H. injection H as -> H. f_equal. auto. Qed.
Lemma iv_l : forall z ed M ec x r y s K, iv z ed x r -> ap M ec y s -> 1 <= z <= 4096 -> (0 <= M <= 6)%Z -> (0 <= ec <= 100)%Z -> (0 <= ed <= 224)%Z ->
  IZR M * (36 / 35 * (2 + IZR ed) + 1 / 1000) + 21 / 10 * IZR M + IZR ec + 1 / 1000 <= K ->
  number (fmul x y) /\ Rabs (rval (fmul x y) - r * s) <= K * v25 * (z * z).
Proof.
  intros z ed M ec x r y s K I A Hz HM Hc He HK. destruct (iv_mul z ed M ec x r y s K Hz HM Hc He I A HK) as (V & B & E). destruct (mul_rnd x y (proj1 I) (proj1 A)) as [F1 F2].
  specialize (F2 B). specialize (F1 F2). split; [split; auto|]. rewrite F1. exact E.
Qed.
Lemma iv_r : forall z ed M ec x r y s K, ap M ec y s -> iv z ed x r -> 1 <= z <= 4096 -> (0 <= M <= 6)%Z -> (0 <= ec <= 100)%Z -> (0 <= ed <= 224)%Z ->
  IZR M * (36 / 35 * (2 + IZR ed) + 1 / 1000) + 21 / 10 * IZR M + IZR ec + 1 / 1000 <= K ->
  number (fmul y x) /\ Rabs (rval (fmul y x) - s * r) <= K * v25 * (z * z).
Proof.
  intros z ed M ec x r y s K A I Hz HM Hc He HK. destruct (iv_mul z ed M ec x r y s K Hz HM Hc He I A HK) as (V & B & E). destruct (mul_rnd y x (proj1 A) (proj1 I)) as [F1 F2].
  rewrite (Rmult_comm (rval y)) in F1, F2. specialize (F2 B). specialize (F1 F2). split; [split; auto; apply mul_valid; [apply A|apply I]|]. rewrite F1, (Rmult_comm s). exact E.
Qed.
Ltac zc := vm_compute; split; discriminate.
Ltac apc := lazymatch goal with
  | |- ap _ _ (fmul _ _) _ => eapply ap_mul; [|apc|apc]; zc
  | |- ap _ _ (fadd _ _) _ => eapply ap_add; [|apc|apc]; zc
  | |- ap _ _ (fsub _ _) _ => eapply ap_sub; [|apc|apc]; zc
  | |- ap _ _ (SFopp _) _ => apply ap_opp; apc
  | |- ap _ _ _ _ => apply ap_in; assumption
  end.
Ltac izr := repeat match goal with |- context [IZR ?e] => lazymatch e with Z0 => fail | Zpos _ => fail | Zneg _ => fail | _ => let w := eval vm_compute in e in change (IZR e) with (IZR w) end end.
Ltac ivc H := lazymatch goal with |- iv _ _ (SFopp _) _ => apply iv_opp; exact H | |- _ => exact H end.
Ltac elt H Hz := lazymatch goal with
  | |- number (fmul ?a ?b) /\ _ => lazymatch a with
     | fdiv _ _ => eapply iv_l; [ivc H|apc|exact Hz|zc|zc|zc|izr; lra]
     | SFopp (fdiv _ _) => eapply iv_l; [ivc H|apc|exact Hz|zc|zc|zc|izr; lra]
     | _ => eapply iv_r; [apc|ivc H|exact Hz|zc|zc|zc|izr; lra] end end.
Tactic Notation "fin4" constr(C06) tactic(ex) :=
  match goal with D0 : det ?n ?A <> 0, Hd : / 4096 <= ?d <= 1, HD : ?d <= Rabs (det ?n ?A), Hz : 1 <= / ?d <= 4096 |- _ =>
    let B := fresh "B" in let CB := fresh "CB" in let LB := fresh "LB" in let B1 := fresh "B1" in let B2 := fresh "B2" in
    destruct (C06 A eq_refl D0) as (B & CB & LB & B1 & B2);
    ex; exists B; split; [brun|]; split; [split; auto|];
    match type of CB with computes RS ?f ?args _ _ => match goal with |- within_all ?K ?F B =>
      let CX := fresh "CX" in
      assert (CX : exists X, length X = (n * n)%nat /\ computes RS f args VVoid [fl X] /\ within_all K F X);
      [ex; split; [reflexivity|]; split;
        [cbn [map]; symr; rprep; apply negb_true_iff; apply Reqb_false; let Q := fresh in intro Q; apply D0; rewrite <- Q; lcbv; ring|];
        let HI := fresh "HI" in
        match goal with |- context [fdiv (b_lit 1 1) ?y] => match goal with |- context [Rdiv 1 ?D] =>
          eassert (HI : iv (/ d) _ (fdiv (b_lit 1 1) y) (1 / D)) by (eapply iv_inv; [exact Hd| |apc|replace D with (det n A) by (lcbv; ring); exact HD]; zc) end end;
        repeat (apply Forall2_cons; [elt HI Hz|]); apply Forall2_nil
      |let X := fresh in let LX := fresh in let C := fresh in let W := fresh in let Q := fresh in
       destruct CX as (X & LX & C & W); destruct (computes_unique _ _ _ _ _ _ _ CB C) as [_ Q];
       [cbn [map]; unfold fl; rewrite map_length, LB; reflexivity|cbn [map]; unfold fl; rewrite map_length, LX; reflexivity|];
       apply (f_equal (fun x => nth 0 x [])) in Q; apply fl_same in Q; cbn [nth] in Q; subst X; exact W]
    end end end.
Lemma C79_inverse_ok : forall l n (N : (n = 2 \/ n = 3 \/ n = 4)%nat) A d, length A = (n * n)%nat -> entries_upto_1 A ->
  / 4096 <= d <= 1 -> d <= Rabs (det n (map rval A)) ->
  exists F B, computes (B32 l) (inv_of n) [InA (fl A); Out (n * n)] VVoid [fl F] /\ inverse_of n (map rval A) B /\
    within_all (inv_units n * / 33554432 * (/ d * / d)) F B.
Proof.
  intros l n N A d L E Hd HD.
  assert (Hz : 1 <= / d <= 4096). { split; [rewrite <- Rinv_1|replace 4096 with (/ / 4096) by lra]; apply Rinv_le_contravar; lra. }
  assert (D0 : det n (map rval A) <> 0) by (intro Q; rewrite Q, Rabs_R0 in HD; lra).
  change (/ 33554432) with v25.
  destruct N as [ -> | [ -> | -> ] ]; unlists; cbn [inv_of inv_units Nat.mul Nat.add] in *; unfold entries_upto_1 in E;
    repeat match goal with H : Forall _ (_ :: _) |- _ => inversion_clear H | H : Forall _ [] |- _ => clear H | H : number _ /\ _ |- _ => destruct H end.
  - fin4 C06_mat2_inv_ok (eexists [_;_;_;_]).
  - fin4 C06_mat3_inv_ok (eexists [_;_;_;_;_;_;_;_;_]).
  - fin4 C06_mat4_inv_ok (eexists [_;_;_;_;_;_;_;_;_;_;_;_;_;_;_;_]).
Qed.
Lemma C79_inverse_ex : let A := map (fun k => b_lit k 1) [1; 1; -1; 1]%Z in length A = 4%nat /\ entries_upto_1 A /\ det 2 (map rval A) = 2 /\ inverse_of 2 (map rval A) [1 / 2; - (1 / 2); 1 / 2; 1 / 2].
Proof.
  destruct Proofs.Tests32.v_ints as (V0 & V1 & Vm & _). cbv zeta. cbn [map]. split; [reflexivity|]. split.
  - unfold entries_upto_1. repeat apply Forall_cons; try apply Forall_nil; (split; [split; reflexivity|]); rewrite ?V1, ?Vm; apply Rabs_le; lra.
  - rewrite V1, Vm. split; [lcbv; lra|]. split; [reflexivity|]. split; lcbv; repeat match goal with |- (_ :: _) = (_ :: _) => f_equal end; auto; lra.
Qed.
