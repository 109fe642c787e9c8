(** * Repeated products of quaternions and repeated rotations of a vector drift slowly *)

From Coq Require Import String List ZArith Bool Lia Reals Lra Psatz Floats.SpecFloat.
From Flocq Require Import Core.Raux.
From Verif Require Import MiniC Contract RScalar B32 Cglm Tac.
From Verif.Spec Require Import Float32 Types Linear Geometry Quaternion Arrays Exact Approx Drift.
From Verif.Proofs Require Import RTac Flo Layout Safe Chain Quat MatMisc ExactSound ApproxSound ExactAll ApproxAll ApproxEx Drift.
Import ListNotations.
(* props: From Coq Require Import ZArith Reals Floats.SpecFloat. *)
(* props: From Verif Require Import B32. *)
(* props: From Verif.Spec Require Import Linear Geometry Quaternion Float32 Exact Approx Drift. *)
Local Open Scope R_scope.

Lemma call2_near : forall (al : bool) f n1 n2 n3 (g : list R -> list R -> list R) e lm,
  (forall A B, length A = n1 -> length B = n2 -> computes RS f [In (fl A); if al then InA (fl B) else In (fl B); Out n3] VVoid [fl (g A B)] /\ length (g A B) = n3) ->
  IZR lm * sc <= e -> approxvb None 30 [(EK (5 * 2 ^ 28) 0, lm)%Z] (f, [Apart Flt n1; if al then Reads Flt n2 else Apart Flt n2; Writes n3]) = true ->
  forall l X Y, length X = n1 -> length Y = n2 -> Forall number X -> Forall number Y ->
    Forall (fun r => Rabs r <= 5 / 4) (map rval X) -> Forall (fun r => Rabs r <= 5 / 4) (map rval Y) ->
  exists Z, computes (B32 l) f [In (fl X); if al then InA (fl Y) else In (fl Y); Out n3] VVoid [fl Z] /\ Forall2 (within e) Z (g (map rval X) (map rval Y)).
Proof.
  intros al f n1 n2 n3 g e lm HG HE H l X0 Y LX LY NX NY UX UY.
  assert (X : approximates_values any_libm (5 / 4) 0 e (f, [Apart Flt n1; if al then Reads Flt n2 else Apart Flt n2; Writes n3])).
  { eapply (approxvb_ok None 30%nat _ any_libm (5 / 4) 0 e (EK (5 * 2 ^ 28) 0) lm); eauto using any_sincos; [left; auto|].
    intros x y N M E. split; auto. cbn [mg er]. split; [|lra]. eapply Rle_trans; [exact M|]. right.
    replace (IZR (5 * 2 ^ 28)) with (5 / 4 * IZR unit) by (change (5 * 2 ^ 28)%Z with 1342177280%Z; change unit with 1073741824%Z; lra). rewrite Rmult_assoc, sc_unit. lra. }
  assert (W : forall X, Forall number X -> Forall2 (within 0) X (map rval X)).
  { induction 1; cbn [map]; constructor; auto. split; auto. rewrite Rminus_diag_eq, Rabs_R0; auto; lra. }
  destruct (X l [In (fl X0); if al then InA (fl Y) else In (fl Y); Out n3] [In (fl (map rval X0)); if al then InA (fl (map rval Y)) else In (fl (map rval Y)); Out n3] Logic.I) as (v & w & outs & routs & C1 & C2 & V & O & Le).
  { destruct al; (repeat (apply Forall2_cons; [eexists; split; [|reflexivity]; eexists; split; [|reflexivity]; assumption|]); apply Forall2_cons; [reflexivity|apply Forall2_nil]). }
  { destruct al; (repeat (apply Forall2_cons; [apply near_cells; auto|]); apply Forall2_cons; [reflexivity|apply Forall2_nil]). }
  { destruct al; (repeat (apply Forall_cons; [apply upto_cells; auto|]); apply Forall_cons; [exact Logic.I|apply Forall_nil]). }
  destruct (HG (map rval X0) (map rval Y)) as [CG LG]; [rewrite map_length; auto|rewrite map_length; auto|].
  assert (Le' : map (@length _) routs = [n3]).
  { destruct outs as [|o1 [|? ?]]; try (destruct al; discriminate Le). destruct routs as [|r1 [|? ?]]; try (inversion O; fail); [|inversion O as [|? ? ? ? ? O2]; inversion O2].
    apply F2hd in O. cbn [map]. f_equal. etransitivity; [exact (F2len _ _ _ _ _ O)|]. destruct al; injection Le as Le; exact Le. }
  assert (LG' : map (@length _) [fl (g (map rval X0) (map rval Y))] = [n3]) by (cbn [map]; unfold fl; rewrite map_length, LG; reflexivity).
  assert (WW : w = VVoid /\ routs = [fl (g (map rval X0) (map rval Y))]) by (destruct al; eapply computes_unique; eauto). destruct WW as [-> ->].
  destruct v; try contradiction. destruct outs as [|o1 [|? ?]]; try (destruct al; discriminate Le). apply F2hd in O.
  assert (Q : exists M, o1 = fl M /\ Forall2 (within e) M (g (map rval X0) (map rval Y))).
  { clear - O. revert o1 O. generalize (g (map rval X0) (map rval Y)) as y. induction y as [|r y IH]; intros o1 O; cbn [fl map] in O; inversion O as [|c ? c' ? Q1 Q2]; subst.
    - exists []. split; [reflexivity|constructor].
    - destruct (IH _ Q2) as (M & -> & HM). destruct c; try contradiction. match goal with Q1 : cell_near _ (CF ?x) _ |- _ => exists (x :: M) end. split; [reflexivity|]. constructor; auto. }
  destruct Q as (M & -> & HM). exists M. split; [exact C1|exact HM].
Qed.

(** ** Quaternions *)

Definition close4 (s : R) (F P : list R) : Prop := n2 (nth 0 F 0 - nth 0 P 0) (nth 1 F 0 - nth 1 P 0) (nth 2 F 0 - nth 2 P 0) (nth 3 F 0 - nth 3 P 0) <= s * s.
Lemma quat_near : forall l p q, length p = 4%nat -> length q = 4%nat -> Forall number p -> Forall number q ->
  Forall (fun r => Rabs r <= 5 / 4) (map rval p) -> Forall (fun r => Rabs r <= 5 / 4) (map rval q) ->
  exists z, computes (B32 l) glm_quat_mul [In (fl p); In (fl q); Out 4] VVoid [fl z] /\ Forall2 (within (powerRZ 2 (-20))) z (qmul (map rval p) (map rval q)).
Proof.
  apply (call2_near false glm_quat_mul 4 4 4 qmul _ (2 ^ 10)).
  - intros A B LA LB. split; [apply C21_mul_ok; auto|]. unlists. reflexivity.
  - rewrite d20. lra.
  - vm_cast_no_check (eq_refl true).
Qed.
Lemma norm2_4 : forall P, length P = 4%nat -> norm2 P = n2 (nth 0 P 0) (nth 1 P 0) (nth 2 P 0) (nth 3 P 0).
Proof. intros P L. unlists. unfold n2. cbv [norm2 rdot total fold_left map combine fst snd nth]. ring. Qed.
Lemma all4 : forall (Q : R -> Prop) F, length F = 4%nat -> Q (nth 0 F 0) -> Q (nth 1 F 0) -> Q (nth 2 F 0) -> Q (nth 3 F 0) -> Forall Q F.
Proof. intros Q F L. unlists. cbn [nth]. intros. repeat constructor; auto. Qed.
Lemma abs_add : forall x y s, Rabs y <= 1 -> Rabs (x - y) <= s -> s <= 1 / 4 -> Rabs x <= 5 / 4.
Proof. intros x y s Y1 Y2 S. replace x with (y + (x - y)) by ring. eapply Rle_trans; [apply Rabs_triang|]. lra. Qed.
Lemma close_bound : forall s F P, 0 <= s -> s <= 1 / 4 -> length F = 4%nat -> length P = 4%nat -> norm2 P <= 1 -> close4 s F P -> Forall (fun r => Rabs r <= 5 / 4) F.
Proof.
  intros s F P S0 S4 LF LP NP H. rewrite norm2_4 in NP by auto.
  destruct (one_le _ _ _ _ s S0 H) as (E0 & E1 & E2 & E3). destruct (one_le _ _ _ _ 1 ltac:(lra) ltac:(rewrite Rmult_1_r; exact NP)) as (U0 & U1 & U2 & U3).
  apply all4; auto; (eapply abs_add; [|eassumption|exact S4]; assumption).
Qed.
Lemma near_bound : forall d M A, d <= 1 / 4 -> Forall (fun r => Rabs r <= 1) A -> Forall2 (within d) M A -> Forall (fun r => Rabs r <= 5 / 4) (map rval M) /\ Forall number M /\ length M = length A.
Proof.
  intros d M A D4 U H. induction H as [|x y M A [N E] H IH]; cbn [map length]; [repeat split; constructor|]. inversion U; subst. destruct IH as (I1 & I2 & I3); auto.
  repeat split; auto; constructor; auto. eapply abs_add; [|eassumption|exact D4]; assumption.
Qed.
Lemma unit_bound : forall P, length P = 4%nat -> norm2 P <= 1 -> Forall (fun r => Rabs r <= 1) P.
Proof.
  intros P L N. rewrite norm2_4 in N by auto. destruct (one_le _ _ _ _ 1 ltac:(lra) ltac:(rewrite Rmult_1_r; exact N)) as (U0 & U1 & U2 & U3). apply all4; auto.
Qed.
Lemma opp_abs : forall x y d, Rabs (x - y) <= d -> Rabs (- x - - y) <= d.
Proof. intros. replace (- x - - y) with (- (x - y)) by ring. rewrite Rabs_Ropp. auto. Qed.
Lemma quat_step : forall l s d f p m a, 0 <= s -> s <= 1 / 4 -> 0 <= d -> d <= 1 / 4 -> length f = 4%nat -> length p = 4%nat -> length a = 4%nat -> norm2 p = 1 -> norm2 a = 1 ->
  Forall number f -> close4 s (map rval f) p -> Forall2 (within d) m a ->
  exists z, computes (B32 l) glm_quat_mul [In (fl f); In (fl m); Out 4] VVoid [fl z] /\ length z = 4%nat /\ Forall number z /\ close4 (s + (5 * d + powerRZ 2 (-19))) (map rval z) (qmul p a).
Proof.
  intros l s d f p m a S0 S4 D0 D4 Lf Lp La Np Na NF HC HM.
  destruct (near_bound d m a D4 (unit_bound a La ltac:(lra)) HM) as (UM & NM & Lm). rewrite La in Lm.
  pose proof (close_bound s (map rval f) p S0 S4 ltac:(rewrite map_length; auto) Lp ltac:(lra) HC) as UF.
  destruct (quat_near l f m Lf Lm NF NM UF UM) as (z & C & HZ). exists z. split; [exact C|]. clear C UM UF NF NM.
  assert (LZ : length z = 4%nat). { etransitivity; [symmetry; exact (F2len _ _ _ _ _ HZ)|]. clear - Lf Lm. unlists. reflexivity. }
  split; [exact LZ|]. split; [clear - HZ; induction HZ as [|x y M0 A0 [N _]]; constructor; auto|].
  rewrite p19. pose proof (p2pos (-20)) as E0. set (e := powerRZ 2 (-20)) in *. clearbody e.
  rewrite norm2_4 in Np, Na by auto. unfold n2 in Np, Na. unfold close4 in *. unlists.
  repeat match goal with H : Forall2 _ (_ :: _) _ |- _ => apply F2both in H; let a := fresh "W" in destruct H as [[_ a] H] end.
  cbn [nth map] in *. 
  cbv [qmul quat vadd vscale vcross rdot im re at_ total fold_left map combine app fst snd nth firstn] in *.
  match goal with |- n2 (?g0 - _) (?g1 - _) (?g2 - _) (?g3 - _) <= _ =>
   match type of HC with n2 (?f0 - ?p0) (?f1 - ?p1) (?f2 - ?p2) (?f3 - ?p3) <= _ =>
   match goal with W0 : Rabs (?m0 - ?q0) <= d, W1 : Rabs (?m1 - ?q1) <= d, W2 : Rabs (?m2 - ?q2) <= d, W3 : Rabs (?m3 - ?q3) <= d, Nq : ?q0 * ?q0 + ?q1 * ?q1 + ?q2 * ?q2 + ?q3 * ?q3 = 1 |- _ =>
     pose proof (opp_abs _ _ _ W0) as V0; pose proof (opp_abs _ _ _ W1) as V1; pose proof (opp_abs _ _ _ W2) as V2;
     pose proof (row s d e p0 p1 p2 p3 f0 f1 f2 f3 g0 g1 g2 g3 q3 q2 (- q1) q0 (- q2) q3 q0 q1 q1 (- q0) q3 q2 (- q0) (- q1) (- q2) q3
       m3 m2 (- m1) m0 (- m2) m3 m0 m1 m1 (- m0) m3 m2 (- m0) (- m1) (- m2) m3 S0 S4 D0 ltac:(lra) ltac:(lra) HC) as RW
   end end end.
  eapply Rle_trans; [|apply RW; first [assumption | lra | match goal with W : Rabs (?g - ?y) <= ?b |- Rabs (?g - ?y') <= ?b => replace y' with y by ring; exact W end]].
  right. f_equal; ring.
Qed.
Lemma norm_diff : forall s F P, 0 <= s -> length F = 4%nat -> length P = 4%nat -> norm P = 1 -> close4 s F P -> Rabs (norm F - 1) <= s.
Proof.
  intros s F P S0 LF LP NP H. unfold norm in *.
  assert (N1 : norm2 P = 1). { rewrite <- (Rmult_1_r 1), <- NP. symmetry. apply sqrt_sqrt. rewrite norm2_4 by auto. apply n2_pos. }
  rewrite norm2_4 in * by auto. unfold close4 in H.
  assert (A : n2 (nth 0 F 0) (nth 1 F 0) (nth 2 F 0) (nth 3 F 0) <= (1 + s) * (1 + s)).
  { eapply Rle_trans; [|apply (tri (nth 0 P 0) (nth 1 P 0) (nth 2 P 0) (nth 3 P 0) _ _ _ _ 1 s ltac:(lra) S0 ltac:(lra) H)]. right. f_equal; ring. }
  set (N := n2 (nth 0 F 0) (nth 1 F 0) (nth 2 F 0) (nth 3 F 0)) in *. pose proof (n2_pos (nth 0 F 0) (nth 1 F 0) (nth 2 F 0) (nth 3 F 0)) as N0. fold N in N0.
  pose proof (sqrt_pos N) as SP. pose proof (sqrt_sqrt N N0) as SS.
  assert (B : 1 <= (sqrt N + s) * (sqrt N + s)).
  { rewrite <- N1. eapply Rle_trans; [|apply (tri (nth 0 F 0) (nth 1 F 0) (nth 2 F 0) (nth 3 F 0) (nth 0 P 0 - nth 0 F 0) (nth 1 P 0 - nth 1 F 0) (nth 2 P 0 - nth 2 F 0) (nth 3 P 0 - nth 3 F 0) (sqrt N) s SP S0)].
    - right. f_equal; ring.
    - fold N. lra.
    - eapply Rle_trans; [|exact H]. right. unfold n2. ring. }
  apply Rabs_le. split.
  - assert (1 <= sqrt N + s); [|lra]. apply sqle; lra.
  - assert (sqrt N <= 1 + s); [|lra]. apply sqle; lra.
Qed.
Lemma qmul_unit : forall p q, length p = 4%nat -> length q = 4%nat -> norm2 p = 1 -> norm2 q = 1 -> length (qmul p q) = 4%nat /\ norm2 (qmul p q) = 1.
Proof. intros p q Lp Lq Np Nq. split; [clear - Lp Lq; unlists; reflexivity|]. destruct (C21_laws_ok p q q Lp Lq Lq) as (_ & E & _). rewrite E, Np, Nq. ring. Qed.
Lemma quat_many : forall l d rs Rs, 0 <= d -> d <= 1 / 4 -> Forall (fun r => length r = 4%nat /\ norm2 r = 1) Rs -> Forall2 (Forall2 (within d)) rs Rs ->
  forall s f p, 0 <= s -> s + INR (length rs) * (5 * d + powerRZ 2 (-19)) <= 1 / 4 -> length p = 4%nat -> norm2 p = 1 -> length f = 4%nat -> Forall number f -> close4 s (map rval f) p ->
  exists z, (forall w, chained (fun x r y => computes (B32 l) glm_quat_mul [In (fl x); In (fl r); Out 4] VVoid [fl y] /\ length y = 4%nat) f rs w <-> w = z) /\
    length z = 4%nat /\ Forall number z /\ length (fold_left qmul Rs p) = 4%nat /\ norm2 (fold_left qmul Rs p) = 1 /\
    close4 (s + INR (length rs) * (5 * d + powerRZ 2 (-19))) (map rval z) (fold_left qmul Rs p).
Proof.
  intros l d rs Rs D0 D4 HO H. induction H as [|m a rs Rs HM H IH]; intros s f p S0 S4 Lp Np Lf NF HC; cbn [fold_left chained].
  - exists f. split; [intros; split; auto|]. repeat (split; auto). change (INR (length (@nil (list b32)))) with 0. rewrite Rmult_0_l, Rplus_0_r. exact HC.
  - inversion HO as [|? ? [La Na] OAs]; subst. pose proof (p2pos (-19)) as P19. cbn [length] in *. rewrite S_INR in *. pose proof (pos_INR (length rs)) as PI.
    assert (C0 : 0 < 5 * d + powerRZ 2 (-19)) by lra. set (c := 5 * d + powerRZ 2 (-19)) in *.
    assert (PC : 0 <= INR (length rs) * c) by (apply Rmult_le_pos; lra).
    assert (S4' : s <= 1 / 4) by lra.
    destruct (quat_step l s d f p m a S0 S4' D0 D4 Lf Lp La Np Na NF HC HM) as (z & C1 & L1 & N1 & R1). fold c in R1.
    destruct (qmul_unit p a Lp La Np Na) as [LQ NQ].
    destruct (IH OAs (s + c) z (qmul p a) ltac:(lra) ltac:(lra) LQ NQ L1 N1 R1) as (y & U & L2 & N2 & L3 & N3 & R2).
    exists y. split.
    { intros w. rewrite <- (U w). split.
      - intros (x & [Cx Lx] & Hx). assert (x = z); [|subst; exact Hx].
        destruct (computes_unique _ _ _ _ _ _ _ Cx C1) as [_ E]; [cbn [map]; unfold fl; rewrite map_length, Lx; reflexivity|cbn [map]; unfold fl; rewrite map_length, L1; reflexivity|].
        injection E as E. apply fl_eq in E. exact E.
      - intros Hx. exists z. split; [split; [exact C1|exact L1]|exact Hx]. }
    split; [exact L2|]. split; [exact N2|]. split; [exact L3|]. split; [exact N3|].
    replace (s + (INR (length rs) + 1) * c) with (s + c + INR (length rs) * c) by ring. exact R2.
Qed.
Lemma within_close4 : forall d M A, 0 <= d -> length A = 4%nat -> Forall2 (within d) M A -> length M = 4%nat /\ Forall number M /\ close4 (2 * d) (map rval M) A.
Proof.
  intros d M A D0 LA H. assert (LM : length M = 4%nat) by (rewrite <- LA; clear - H; induction H; simpl; auto).
  split; auto. split; [clear - H; induction H as [|x y M0 A0 [N _]]; constructor; auto|].
  unlists. repeat match goal with H : Forall2 _ (_ :: _) _ |- _ => apply F2both in H; let a := fresh "W" in destruct H as [[_ a] H] end.
  unfold close4. cbn [map nth]. apply four; auto.
Qed.
Lemma close4_within : forall s Q C, 0 <= s -> length Q = 4%nat -> Forall number Q -> length C = 4%nat -> close4 s (map rval Q) C -> Forall2 (within s) Q C.
Proof.
  intros s Q C S0 LQ NQ LC H. pose proof (one_le _ _ _ _ s S0 H). clear H.
  unlists. repeat match goal with H : Forall _ (_ :: _) |- _ => inversion H; clear H; subst end. cbn [map nth] in *.
  repeat apply Forall2_cons; try apply Forall2_nil; split; tauto.
Qed.
(** after [n] calls of glm_quat_mul, the destination apart from the arguments, starting from floats within
    [d] of a unit quaternion and multiplying by floats within [d] of unit quaternions: the result exists, is
    unique, each part is within (n+1)(5d + 2^-19) of the exact product, and so is the norm from 1 *)
Lemma C75_quat_ok : forall l d q Q rs Rs, length Q = 4%nat -> norm2 Q = 1 -> Forall (fun r => length r = 4%nat /\ norm2 r = 1) Rs ->
  Forall2 (within d) q Q -> Forall2 (Forall2 (within d)) rs Rs -> 0 <= d -> INR (length rs + 1) * (5 * d + powerRZ 2 (-19)) <= 1 / 4 ->
  exists z, (forall w, chained (fun x r y => computes (B32 l) glm_quat_mul [In (fl x); In (fl r); Out 4] VVoid [fl y] /\ length y = 4%nat) q rs w <-> w = z) /\
    Forall2 (within (INR (length rs + 1) * (5 * d + powerRZ 2 (-19)))) z (fold_left qmul Rs Q) /\
    norm (fold_left qmul Rs Q) = 1 /\ Rabs (norm (map rval z) - 1) <= INR (length rs + 1) * (5 * d + powerRZ 2 (-19)).
Proof.
  intros l d q Q rs Rs LQ NQ HR Hq Hr D0 HB. rewrite Nat.add_1_r, S_INR in *. pose proof (pos_INR (length rs)) as PI. pose proof (p2pos (-19)) as P19.
  assert (PC : 0 <= INR (length rs) * (5 * d + powerRZ 2 (-19))) by (apply Rmult_le_pos; lra).
  destruct (within_close4 d q Q D0 LQ Hq) as (Lq & Nq & Cq).
  destruct (quat_many l d rs Rs D0 ltac:(lra) HR Hr (2 * d) q Q ltac:(lra) ltac:(lra) LQ NQ Lq Nq Cq) as (z & U & Lz & Nz & LF & NF & CF).
  exists z. split; [exact U|].
  assert (NN : norm (fold_left qmul Rs Q) = 1) by (unfold norm; rewrite NF; apply sqrt_1).
  split; [|split; [exact NN|]].
  - eapply within_mono; [|refine (close4_within _ _ _ _ Lz Nz LF CF); lra]. lra.
  - eapply Rle_trans; [refine (norm_diff _ _ _ _ _ LF NN CF); [lra|rewrite map_length; auto]|]. lra.
Qed.

(** ** Vectors *)

Lemma sum0 : forall (f : nat -> R) n, (forall i, (i < n)%nat -> 0 <= f i) -> fold_right (fun i s => f i + s) 0 (seq 0 n) = 0 -> forall i, (i < n)%nat -> f i = 0.
Proof.
  intros f n. cut (forall k m, (forall i, (k <= i < k + m)%nat -> 0 <= f i) -> 0 <= fold_right (fun i s => f i + s) 0 (seq k m) /\ (fold_right (fun i s => f i + s) 0 (seq k m) = 0 -> forall i, (k <= i < k + m)%nat -> f i = 0)).
  { intros H P E i Hi. destruct (H 0%nat n) as [_ H']; [intros; apply P; lia|]. apply H'; auto. lia. }
  intros k m. revert k. induction m as [|m IH]; intros k P; cbn [seq fold_right].
  - split; [lra|]. intros _ i Hi. lia.
  - destruct (IH (S k)) as [I1 I2]; [intros; apply P; lia|]. pose proof (P k ltac:(lia)). split; [lra|]. intros E i Hi.
    destruct (Nat.eq_dec i k) as [->|N]; [lra|]. apply I2; [lra|lia].
Qed.
(** the transpose of an orthogonal matrix is orthogonal *)
Lemma transpose_orthogonal : forall A, orthogonal A -> orthogonal (transp 4 4 A).
Proof.
  intros A H. apply rows in H. destruct H as [L H]. apply rows_ok; [reflexivity|].
  set (X := fun i j => nth (4 * i) A 0 * nth (4 * j) A 0 + nth (4 * i + 1) A 0 * nth (4 * j + 1) A 0 + nth (4 * i + 2) A 0 * nth (4 * j + 2) A 0 + nth (4 * i + 3) A 0 * nth (4 * j + 3) A 0).
  set (D := fun i j : nat => if Nat.eqb i j then 1 else 0).
  set (G := fun r q => nth r A 0 * nth q A 0 + nth (4 + r) A 0 * nth (4 + q) A 0 + nth (8 + r) A 0 * nth (8 + q) A 0 + nth (12 + r) A 0 * nth (12 + q) A 0).
  set (XD := fun k : nat => D (k / 4)%nat (k mod 4)%nat - X (k / 4)%nat (k mod 4)%nat). set (GK := fun k : nat => G (k / 4)%nat (k mod 4)%nat). set (DK := fun k : nat => D (k / 4)%nat (k mod 4)%nat).
  assert (E : fold_right (fun k s => XD k * XD k + s) 0 (seq 0 16) = 0).
  { transitivity (4 - 2 * (G 0%nat 0%nat + G 1%nat 1%nat + G 2%nat 2%nat + G 3%nat 3%nat) + fold_right (fun k s => GK k * GK k + s) 0 (seq 0 16)).
    - clear. cbv [XD GK D X G fold_right seq Nat.div Nat.modulo Nat.divmod Nat.sub Nat.mul Nat.add Nat.eqb fst snd]. ring.
    - assert (HG : forall r q, (r < 4)%nat -> (q < 4)%nat -> G r q = D r q) by exact H.
      assert (HK : forall k, (k < 16)%nat -> GK k = DK k). { intros k Hk. apply HG; [apply Nat.div_lt_upper_bound; lia|apply Nat.mod_upper_bound; lia]. }
      cbn [seq fold_right]. rewrite !HK, !HG by lia. clear. cbv [DK D Nat.div Nat.modulo Nat.divmod Nat.sub Nat.mul Nat.add Nat.eqb fst snd]. ring. }
  pose proof (sum0 (fun k => XD k * XD k) 16 (fun i _ => Rle_0_sqr _) E) as Z.
  intros r q Hr Hq.
  specialize (Z (4 * r + q)%nat ltac:(lia)). apply Rsqr_0_uniq in Z.
  clear E H. revert Z. unlists. destruct r as [|[|[|[|r]]]]; try lia; destruct q as [|[|[|[|q]]]]; try lia;
    cbv [XD D X transp Linear.build flat_map seq map app ent nth Nat.div Nat.modulo Nat.divmod Nat.sub Nat.mul Nat.add Nat.eqb fst snd]; intros Z; lra.
Qed.
Definition fmv4 (S : Scalar) (A v : list (T S)) : list (T S) :=
  let p r k := s_op2 S OMul (nth (k * 4 + r) A (s_lit S 0 1)) (nth k v (s_lit S 0 1)) in
  let s := s_op2 S OAdd in
  map (fun r => s (s (s (p r 0) (p r 1)) (p r 2)) (p r 3))%nat [0; 1; 2; 3]%nat.
Lemma fmv4_ok : forall S A v, length A = 16%nat -> length v = 4%nat ->
  computes S glm_mat4_mulv [In (fl A); InA (fl v); Out 4] VVoid [fl (fmv4 S A v)] /\ computes S glm_mat4_mulv [In (fl A); In (fl v); Out 4] VVoid [fl (fmv4 S A v)].
Proof. intros S A v L1 L2. unlists. split; sym_with 100%nat; useeqs; gsplit; reflexivity. Qed.
Lemma fmv4_real : forall A v, fmv4 RS A v = mvec 4 4 A v.
Proof. intros. cbv [fmv4 mvec seq map Rsum total fold_left ent at_ Nat.mul Nat.add]. reflexivity. Qed.
Lemma mulv_near : forall l M v, length M = 16%nat -> length v = 4%nat -> Forall number M -> Forall number v ->
  Forall (fun r => Rabs r <= 5 / 4) (map rval M) -> Forall (fun r => Rabs r <= 5 / 4) (map rval v) ->
  exists z, computes (B32 l) glm_mat4_mulv [In (fl M); InA (fl v); Out 4] VVoid [fl z] /\ Forall2 (within (powerRZ 2 (-20))) z (mvec 4 4 (map rval M) (map rval v)).
Proof.
  intros l M v LM Lv NM Nv UM Uv. exists (fmv4 (B32 l) M v). split; [apply (fmv4_ok (B32 l)); auto|].
  assert (HN : exists z, computes (B32 l) glm_mat4_mulv [In (fl M); In (fl v); Out 4] VVoid [fl z] /\ Forall2 (within (powerRZ 2 (-20))) z (fmv4 RS (map rval M) (map rval v))).
  { apply (call2_near false glm_mat4_mulv 16 4 4 (fmv4 RS) (powerRZ 2 (-20)) (2 ^ 10)); [| | |exact LM|exact Lv|exact NM|exact Nv|exact UM|exact Uv].
    - intros A B LA LB. split; [apply fmv4_ok; auto|]. reflexivity.
    - rewrite d20. lra.
    - vm_cast_no_check (eq_refl true). }
  destruct HN as (z & C & H). assert (LZ : length z = 4%nat). { etransitivity; [symmetry; exact (F2len _ _ _ _ _ H)|]. reflexivity. }
    destruct (computes_unique _ _ _ _ _ _ _ C (proj2 (fmv4_ok (B32 l) M v LM Lv))) as [_ E]; [cbn [map]; unfold fl; rewrite map_length, LZ; reflexivity|reflexivity|].
    assert (E' : z = fmv4 (B32 l) M v) by (apply fl_eq; congruence). rewrite <- fmv4_real. rewrite <- E'. exact H.
Qed.
Lemma orthogonal_bound : forall A, orthogonal A -> Forall (fun r => Rabs r <= 1) A.
Proof.
  intros A H. apply rows in H. destruct H as [L H].
  pose proof (unit_row _ _ _ _ (H 0 0 ltac:(lia) ltac:(lia))%nat). pose proof (unit_row _ _ _ _ (H 1 1 ltac:(lia) ltac:(lia))%nat).
  pose proof (unit_row _ _ _ _ (H 2 2 ltac:(lia) ltac:(lia))%nat). pose proof (unit_row _ _ _ _ (H 3 3 ltac:(lia) ltac:(lia))%nat).
  clear H. unlists. cbn [nth Nat.add] in *. repeat apply Forall_cons; try apply Forall_nil; tauto.
Qed.
Lemma mulv_norm : forall A v, orthogonal A -> length v = 4%nat -> length (mvec 4 4 A v) = 4%nat /\ norm2 (mvec 4 4 A v) = norm2 v.
Proof.
  intros A v HA Lv. split; [reflexivity|]. pose proof (proj1 HA) as LA. apply transpose_orthogonal in HA. apply rows in HA. destruct HA as [_ HA].
  pose proof (HA 0 0 ltac:(lia) ltac:(lia))%nat as G0. pose proof (HA 1 1 ltac:(lia) ltac:(lia))%nat as G1. pose proof (HA 2 2 ltac:(lia) ltac:(lia))%nat as G2. pose proof (HA 3 3 ltac:(lia) ltac:(lia))%nat as G3.
  pose proof (HA 0 1 ltac:(lia) ltac:(lia))%nat as H1. pose proof (HA 0 2 ltac:(lia) ltac:(lia))%nat as H2. pose proof (HA 0 3 ltac:(lia) ltac:(lia))%nat as H3.
  pose proof (HA 1 2 ltac:(lia) ltac:(lia))%nat as H4. pose proof (HA 1 3 ltac:(lia) ltac:(lia))%nat as H5. pose proof (HA 2 3 ltac:(lia) ltac:(lia))%nat as H6. clear HA.
  unlists. cbv [transp Linear.build flat_map seq map app ent nth Nat.mul Nat.add Nat.eqb] in *.
  match goal with |- norm2 (mvec 4 4 _ [?p0; ?p1; ?p2; ?p3]) = _ =>
    pose proof (dot_rows p0 p1 p2 p3 p0 p1 p2 p3 _ _ _ _ _ _ _ _ _ _ _ _ _ _ _ _ G0 G1 G2 G3 H1 H2 H3 H4 H5 H6) as D end.
  cbv [norm2 rdot mvec Rsum total fold_left seq map combine ent at_ nth Nat.mul Nat.add fst snd]. 
  etransitivity; [|exact D]. ring.
Qed.
Lemma mulv_step : forall l s d f p M A, 0 <= s -> s <= 1 / 4 -> 0 <= d -> d <= 1 / 4 -> length f = 4%nat -> length p = 4%nat -> orthogonal A -> norm2 p <= 1 ->
  Forall number f -> close4 s (map rval f) p -> Forall2 (within d) M A ->
  exists z, computes (B32 l) glm_mat4_mulv [In (fl M); InA (fl f); Out 4] VVoid [fl z] /\ length z = 4%nat /\ Forall number z /\ close4 (s + (5 * d + powerRZ 2 (-19))) (map rval z) (mvec 4 4 A p).
Proof.
  intros l s d f p M A S0 S4 D0 D4 Lf Lp HA Np NF HC HM. pose proof (proj1 HA) as LA.
  destruct (near_bound d M A D4 (orthogonal_bound A HA) HM) as (UM & NM & LM). rewrite LA in LM.
  pose proof (close_bound s (map rval f) p S0 S4 ltac:(rewrite map_length; auto) Lp ltac:(lra) HC) as UF.
  destruct (mulv_near l M f LM Lf NM NF UM UF) as (z & C & HZ). exists z. split; [exact C|]. clear C UM UF NF NM.
  assert (LZ : length z = 4%nat). { etransitivity; [symmetry; exact (F2len _ _ _ _ _ HZ)|]. reflexivity. }
  split; [exact LZ|]. split; [clear - HZ; induction HZ as [|x y M0 A0 [N _]]; constructor; auto|].
  rewrite p19. pose proof (p2pos (-20)) as E0. set (e := powerRZ 2 (-20)) in *. clearbody e.
  apply transpose_orthogonal in HA. apply rows in HA. destruct HA as [_ HA].
  pose proof (HA 0 0 ltac:(lia) ltac:(lia))%nat as G0. pose proof (HA 1 1 ltac:(lia) ltac:(lia))%nat as G1. pose proof (HA 2 2 ltac:(lia) ltac:(lia))%nat as G2. pose proof (HA 3 3 ltac:(lia) ltac:(lia))%nat as G3.
  pose proof (HA 0 1 ltac:(lia) ltac:(lia))%nat as H1. pose proof (HA 0 2 ltac:(lia) ltac:(lia))%nat as H2. pose proof (HA 0 3 ltac:(lia) ltac:(lia))%nat as H3.
  pose proof (HA 1 2 ltac:(lia) ltac:(lia))%nat as H4. pose proof (HA 1 3 ltac:(lia) ltac:(lia))%nat as H5. pose proof (HA 2 3 ltac:(lia) ltac:(lia))%nat as H6. clear HA.
  rewrite norm2_4 in Np by auto. unfold n2 in Np. unfold close4 in *. unlists.
  repeat match goal with H : Forall2 _ (_ :: _) _ |- _ => apply F2both in H; let a := fresh "W" in destruct H as [[_ a] H] end.
  cbn [nth map] in *.
  cbv [transp Linear.build mvec Rsum total fold_left map seq flat_map app ent at_ nth Nat.mul Nat.add Nat.eqb] in *.
  match goal with |- n2 (?g0 - _) (?g1 - _) (?g2 - _) (?g3 - _) <= _ =>
   match type of HC with n2 (?f0 - ?p0) (?f1 - ?p1) (?f2 - ?p2) (?f3 - ?p3) <= _ =>
     pose proof (row s d e p0 p1 p2 p3 f0 f1 f2 f3 g0 g1 g2 g3) as RW end end.
  eapply Rle_trans; [|eapply RW; [lra|lra|lra|lra|exact Np|exact HC|exact G0|exact G1|exact G2|exact G3|exact H1|exact H2|exact H3|exact H4|exact H5|exact H6|..]].
  2-17: eassumption.
  2-5: match goal with W : Rabs (?g - ?y) <= ?b |- Rabs (?g - ?y') <= ?b => replace y' with y by ring; exact W end.
  right. f_equal; ring.
Qed.
Lemma mulv_many : forall l d Ms As, 0 <= d -> d <= 1 / 4 -> Forall orthogonal As -> Forall2 (Forall2 (within d)) Ms As ->
  forall s f p, 0 <= s -> s + INR (length Ms) * (5 * d + powerRZ 2 (-19)) <= 1 / 4 -> length p = 4%nat -> norm2 p <= 1 -> length f = 4%nat -> Forall number f -> close4 s (map rval f) p ->
  exists z, (forall w, chained (fun x M y => computes (B32 l) glm_mat4_mulv [In (fl M); InA (fl x); Out 4] VVoid [fl y] /\ length y = 4%nat) f Ms w <-> w = z) /\
    length z = 4%nat /\ Forall number z /\ length (fold_left (fun v A => mvec 4 4 A v) As p) = 4%nat /\ norm2 (fold_left (fun v A => mvec 4 4 A v) As p) = norm2 p /\
    close4 (s + INR (length Ms) * (5 * d + powerRZ 2 (-19))) (map rval z) (fold_left (fun v A => mvec 4 4 A v) As p).
Proof.
  intros l d rs Rs D0 D4 HO H. induction H as [|m a rs Rs HM H IH]; intros s f p S0 S4 Lp Np Lf NF HC; cbn [fold_left chained].
  - exists f. split; [intros; split; auto|]. repeat (split; auto). change (INR (length (@nil (list b32)))) with 0. rewrite Rmult_0_l, Rplus_0_r. exact HC.
  - inversion HO as [|? ? Oa OAs]; subst. pose proof (p2pos (-19)) as P19. cbn [length] in *. rewrite S_INR in *. pose proof (pos_INR (length rs)) as PI.
    assert (C0 : 0 < 5 * d + powerRZ 2 (-19)) by lra. set (c := 5 * d + powerRZ 2 (-19)) in *.
    assert (PC : 0 <= INR (length rs) * c) by (apply Rmult_le_pos; lra).
    assert (S4' : s <= 1 / 4) by lra.
    destruct (mulv_step l s d f p m a S0 S4' D0 D4 Lf Lp Oa Np NF HC HM) as (z & C1 & L1 & N1 & R1). fold c in R1.
    destruct (mulv_norm a p Oa Lp) as [LQ NQ].
    destruct (IH OAs (s + c) z (mvec 4 4 a p) ltac:(lra) ltac:(lra) LQ ltac:(lra) L1 N1 R1) as (y & U & L2 & N2 & L3 & N3 & R2).
    exists y. split.
    { intros w. rewrite <- (U w). split.
      - intros (x & [Cx Lx] & Hx). assert (x = z); [|subst; exact Hx].
        destruct (computes_unique _ _ _ _ _ _ _ Cx C1) as [_ E]; [cbn [map]; unfold fl; rewrite map_length, Lx; reflexivity|cbn [map]; unfold fl; rewrite map_length, L1; reflexivity|].
        injection E as E. apply fl_eq in E. exact E.
      - intros Hx. exists z. split; [split; [exact C1|exact L1]|exact Hx]. }
    split; [exact L2|]. split; [exact N2|]. split; [exact L3|]. split; [rewrite N3; exact NQ|].
    replace (s + (INR (length rs) + 1) * c) with (s + c + INR (length rs) * c) by ring. exact R2.
Qed.
(** the same for [n] calls of glm_mat4_mulv with matrices near orthogonal ones on a vector of length at most 1;
    the destination may be the vector itself *)
Lemma C75_vector_ok : forall l d v V Ms As, length V = 4%nat -> norm2 V <= 1 -> Forall orthogonal As ->
  Forall2 (within d) v V -> Forall2 (Forall2 (within d)) Ms As -> 0 <= d -> INR (length Ms + 1) * (5 * d + powerRZ 2 (-19)) <= 1 / 4 ->
  exists z, (forall w, chained (fun x M y => computes (B32 l) glm_mat4_mulv [In (fl M); InA (fl x); Out 4] VVoid [fl y] /\ length y = 4%nat) v Ms w <-> w = z) /\
    Forall2 (within (INR (length Ms + 1) * (5 * d + powerRZ 2 (-19)))) z (fold_left (fun v A => mvec 4 4 A v) As V) /\
    norm (fold_left (fun v A => mvec 4 4 A v) As V) = norm V.
Proof.
  intros l d q Q rs Rs LQ NQ HR Hq Hr D0 HB. rewrite Nat.add_1_r, S_INR in *. pose proof (pos_INR (length rs)) as PI. pose proof (p2pos (-19)) as P19.
  assert (PC : 0 <= INR (length rs) * (5 * d + powerRZ 2 (-19))) by (apply Rmult_le_pos; lra).
  destruct (within_close4 d q Q D0 LQ Hq) as (Lq & Nq & Cq).
  destruct (mulv_many l d rs Rs D0 ltac:(lra) HR Hr (2 * d) q Q ltac:(lra) ltac:(lra) LQ NQ Lq Nq Cq) as (z & U & Lz & Nz & LF & NF & CF).
  exists z. split; [exact U|]. split; [|unfold norm; rewrite NF; reflexivity].
  eapply within_mono; [|refine (close4_within _ _ _ _ Lz Nz LF CF); lra]. lra.
Qed.
(** a quaternion given in decimals (3/5, 0, 0, 4/5 are not floats) and four thousand exact ones *)
Lemma C75_quat_ex : exists q Q rs Rs, length Q = 4%nat /\ norm2 Q = 1 /\ Forall (fun r => length r = 4%nat /\ norm2 r = 1) Rs /\
  Forall2 (within (powerRZ 2 (-20))) q Q /\ Forall2 (Forall2 (within (powerRZ 2 (-20)))) rs Rs /\ INR (length rs + 1) * (5 * powerRZ 2 (-20) + powerRZ 2 (-19)) <= 1 / 4 /\
  length rs = 4000%nat /\ Forall (fun r => r = [1 / 2; 1 / 2; 1 / 2; 1 / 2]) Rs /\ Q = [3 / 5; 0; 0; 4 / 5] /\ ~ map rval q = Q.
Proof.
  assert (P : powerRZ 2 (-20) = / 1048576). { change (-20)%Z with (- (20))%Z. rewrite powerRZ_neg', p2Z by lia. reflexivity. }
  exists [b_lit 3 5; b_lit 0 1; b_lit 0 1; b_lit 4 5], [3 / 5; 0; 0; 4 / 5], (repeat [b_lit 1 2; b_lit 1 2; b_lit 1 2; b_lit 1 2] 4000), (repeat [1 / 2; 1 / 2; 1 / 2; 1 / 2] 4000).
  split; [reflexivity|]. split; [cbv [norm2 rdot total fold_left map combine fst snd]; lra|].
  split. { apply Forall_forall. intros x I. apply repeat_spec in I. subst x. split; [reflexivity|]. cbv [norm2 rdot total fold_left map combine fst snd]; lra. }
  split. { rewrite P. repeat (apply Forall2_cons; [|]); try apply Forall2_nil; (split; [split; reflexivity|]);
      match goal with |- Rabs (rval ?x - _) <= _ => let v := eval vm_compute in x in change x with v end; cbn [rval]; rewrite ?p2neg;
      repeat match goal with |- context [IZR (2 ^ ?k)] => let v := eval vm_compute in (2 ^ k)%Z in change (2 ^ k)%Z with v end; apply Rabs_le; split; lra. }
  split. { rewrite P. generalize 4000%nat. induction n; [constructor|]. cbn [repeat]. constructor; [|exact IHn].
      repeat (apply Forall2_cons; [|]); try apply Forall2_nil; (split; [split; reflexivity|]);
      match goal with |- Rabs (rval ?x - _) <= _ => let v := eval vm_compute in x in change x with v end; cbn [rval]; rewrite ?p2neg;
      repeat match goal with |- context [IZR (2 ^ ?k)] => let v := eval vm_compute in (2 ^ k)%Z in change (2 ^ k)%Z with v end; apply Rabs_le; split; lra. }
  split. { rewrite repeat_length, p19, P. replace (INR (4000 + 1)) with 4001; [lra|]. rewrite INR_IZR_INZ. apply (f_equal IZR). vm_compute. reflexivity. }
  split; [apply repeat_length|]. split; [apply Forall_forall; intros x I; apply repeat_spec in I; exact I|]. split; [reflexivity|].
  intros E. apply (f_equal (fun z => nth 0 z 0)) in E. change (rval (b_lit 3 5) = 3 / 5) in E. revert E. match goal with |- rval ?x = _ -> _ => let v := eval vm_compute in x in change x with v end. cbn [rval]. rewrite ?p2neg.
  repeat match goal with |- context [IZR (2 ^ ?k)] => let v := eval vm_compute in (2 ^ k)%Z in change (2 ^ k)%Z with v end. lra.
Qed.
Lemma C75_vector_ex : exists v V Ms As, length V = 4%nat /\ norm2 V <= 1 /\ Forall orthogonal As /\
  Forall2 (within (powerRZ 2 (-20))) v V /\ Forall2 (Forall2 (within (powerRZ 2 (-20)))) Ms As /\ INR (length Ms + 1) * (5 * powerRZ 2 (-20) + powerRZ 2 (-19)) <= 1 / 4 /\
  length Ms = 4000%nat /\ Forall (fun A => A = [3 / 5; 4 / 5; 0; 0; - 4 / 5; 3 / 5; 0; 0; 0; 0; 1; 0; 0; 0; 0; 1]) As /\ norm2 V = 3 / 4.
Proof.
  assert (P : powerRZ 2 (-20) = / 1048576). { change (-20)%Z with (- (20))%Z. rewrite powerRZ_neg', p2Z by lia. reflexivity. }
  exists [b_lit 1 2; b_lit 1 2; b_lit 1 2; b_lit 0 1], [1 / 2; 1 / 2; 1 / 2; 0],
    (repeat [b_lit 3 5; b_lit 4 5; b_lit 0 1; b_lit 0 1; b_lit (-4) 5; b_lit 3 5; b_lit 0 1; b_lit 0 1; b_lit 0 1; b_lit 0 1; b_lit 1 1; b_lit 0 1; b_lit 0 1; b_lit 0 1; b_lit 0 1; b_lit 1 1] 4000),
    (repeat [3 / 5; 4 / 5; 0; 0; - 4 / 5; 3 / 5; 0; 0; 0; 0; 1; 0; 0; 0; 0; 1] 4000).
  split; [reflexivity|]. split; [cbv [norm2 rdot total fold_left map combine fst snd]; lra|].
  split. { apply Forall_forall. intros x I. apply repeat_spec in I. subst x. apply rows_ok; [reflexivity|]. intros r q Hr Hq. destruct r as [|[|[|[|r]]]]; try lia; destruct q as [|[|[|[|q]]]]; try lia; cbv [nth Nat.add Nat.eqb]; lra. }
  split. { rewrite P. repeat (apply Forall2_cons; [|]); try apply Forall2_nil; (split; [split; reflexivity|]);
      match goal with |- Rabs (rval ?x - _) <= _ => let v := eval vm_compute in x in change x with v end; cbn [rval]; rewrite ?p2neg;
      repeat match goal with |- context [IZR (2 ^ ?k)] => let v := eval vm_compute in (2 ^ k)%Z in change (2 ^ k)%Z with v end; apply Rabs_le; split; lra. }
  split. { rewrite P. generalize 4000%nat. induction n; [constructor|]. cbn [repeat]. constructor; [|exact IHn].
      repeat (apply Forall2_cons; [|]); try apply Forall2_nil; (split; [split; reflexivity|]);
      match goal with |- Rabs (rval ?x - _) <= _ => let v := eval vm_compute in x in change x with v end; cbn [rval]; rewrite ?p2neg;
      repeat match goal with |- context [IZR (2 ^ ?k)] => let v := eval vm_compute in (2 ^ k)%Z in change (2 ^ k)%Z with v end; apply Rabs_le; split; lra. }
  split. { rewrite repeat_length, p19, P. replace (INR (4000 + 1)) with 4001; [lra|]. rewrite INR_IZR_INZ. apply (f_equal IZR). vm_compute. reflexivity. }
  split; [apply repeat_length|]. split; [apply Forall_forall; intros x I; apply repeat_spec in I; exact I|].
  cbv [norm2 rdot total fold_left map combine fst snd]; lra.
Qed.
