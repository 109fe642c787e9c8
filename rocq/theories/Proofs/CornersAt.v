(** * [glms_frustum_corners_at] copies eight corners out of an array of four (C56) *)

From Coq Require Import String List ZArith Bool Reals Lra Lia.
From Verif Require Import MiniC Contract Cglm.
From Verif.Gen Require Import struct_vec4 struct_frustum.
From Verif Require Import RScalar Tac.
From Verif.Proofs Require Import RTac RExact AffTac Loop Shape.
(* props: From Verif.Gen Require Import struct_vec4 struct_frustum. *)
Import ListNotations.
Local Open Scope string_scope.
Local Open Scope nat_scope.
Local Open Scope list_scope.

Section C.
Variable S : Scalar.
Notation F := (T S).

(** reading past the end of the source *)
Lemma copy_beyond : forall (m : mem F) b o n q, nth_error (sizes S m) b = Some n -> (Z.of_nat n <= o)%Z ->
  forall y, call S glm_vec4_copy [VP b o; q] m <> Ok y.
Proof.
  intros m b o n q H L y. unfold glm_vec4_copy. rewrite call_fun. cbn. intros E. destruct q; try discriminate; cbn in E.
  rewrite ?Z.add_0_r in E. cbn in E. rewrite (mread_beyond _ _ _ _ _ H) in E by lia. discriminate.
Qed.
(** packing more elements than the source has *)
Lemma pack_beyond : forall (m : mem F) b n q k, nth_error (sizes S m) b = Some n -> (Z.of_nat n <= 4 * (k - 1))%Z -> (0 < k)%Z ->
  forall y, call S glms_vec4_pack [q; VP b 0; VI k] m <> Ok y.
Proof.
  intros m b n q k H L Hk y. unfold glms_vec4_pack. rewrite call_fun. cbn [bind_params rbind bind_locals app].
  rewrite exec_for.
  change (eval S (EI 0) ?r ?mm) with (@Ok (value F * mem F) (VI 0, mm)). cbn [rbind].
  set (r0 := [("dst", q); ("src", VP b 0); ("len", VI k); ("i", VU)]).
  change (eval S (EV "len") r0 m) with (@Ok (value F * mem F) (VI k, m)). cbn [rbind].
  assert (X : forall it i x (m : mem F) y, nth_error (sizes S m) b = Some n -> (i + Z.of_nat (Datatypes.S it) = k)%Z ->
     forloop S "i" (SExp (ECall glm_vec4_copy (Econs (EIx (EV "src") 4 (EV "i")) (Econs (EIx (EV "dst") 4 (EV "i")) Enil))))
        (Datatypes.S it) i [("dst", q); ("src", VP b 0); ("len", VI k); ("i", x)] m <> Ok y).
  { induction it; intros i x m1 y1 Hm Hi E; rewrite forloop_S in E; apply bound in E; destruct E as ([[f r1] m2] & E1 & E2);
      rewrite exec_exp in E1; apply bound in E1; destruct E1 as ([v m3] & E1 & E3); injection E3 as <- <- <-;
      cbn [assign fst snd String.eqb Ascii.eqb Bool.eqb] in E1, E2;
      unfold eval in E1; fold (eval S) (evals S) (call S) in E1;
      apply bound in E1; destruct E1 as ([vs m4] & E1 & E4);
      (destruct q as [| | | | |qb qo| | | |];
        try (exfalso; vm_compute in E1; discriminate E1));
      cbn in E1; injection E1; intros; subst vs m4; clear E1.
    - revert E4. refine (copy_beyond _ _ _ n _ _ _ _); auto. lia.
    - revert E2. apply IHit. rewrite (call_sizes S _ _ _ _ _ E4). auto. lia. }
  destruct (Z.to_nat (k - 0)) as [|it] eqn:K; [lia|]. intros E. apply bound in E. destruct E as ([[f r1] m1] & E & _). revert E. apply X; auto. lia.
Qed.
Lemma last_size : forall (m : mem F) y, nth_error (sizes S (m ++ [y])) (length m) = Some (length y).
Proof. intros. unfold sizes. rewrite nth_error_map, nth_error_app2, Nat.sub_diag by auto. reflexivity. Qed.
(** the call never completes *)
Lemma corners_at_never : forall vs (m : mem F) y, call S glms_frustum_corners_at vs m <> Ok y.
Proof.
  intros vs m y E. unfold glms_frustum_corners_at in E. rewrite call_fun in E. apply bound in E. destruct E as ([r m1] & E & E1).
  destruct vs as [|a [|b [|c [|d [|? ?]]]]]; try discriminate. cbn in E. injection E as <- <-.
  cbn [bind_locals app] in E1. apply bound in E1. destruct E1 as ([[f r1] m1] & E & _).
  rewrite exec_seq in E. apply bound in E. destruct E as ([[f0 r2] m2] & Ea & E). pose proof (exec_sizes S _ _ _ _ _ _ Ea) as Sa.
  rewrite exec_exp in Ea. apply bound in Ea. destruct Ea as ([va ma] & _ & Ea). injection Ea as <- <- <-.
  rewrite exec_seq in E. apply bound in E. destruct E as ([[f0 r2] m2] & Eb & E). pose proof (exec_sizes S _ _ _ _ _ _ Eb) as Sb.
  rewrite exec_exp in Eb. apply bound in Eb. destruct Eb as ([vb mb] & _ & Eb). injection Eb as <- <- <-.
  rewrite exec_exp in E. apply bound in E. destruct E as ([vc mc] & E & _).
  unfold eval in E; fold (eval S) (evals S) (call S) in E. apply bound in E. destruct E as ([vs md] & E & E2).
  destruct d; try (exfalso; vm_compute in E; discriminate E); cbn in E; injection E; clear E; intros <- <-.
  all: revert E2; apply pack_beyond with (n := 16); try lia; rewrite Sb, Sa; apply (last_size (m ++ [_]) (repeat CU 16)).
Qed.
End C.

Local Open Scope R_scope.
(** the array function completes for a frustum with equal corners ... *)
Lemma corners_at_zero : computes RS glm_frustum_corners_at [In (fl (repeat 0 32)); Val (VF 1); Val (VF 2); Out 16] VVoid [fl (repeat 0 16)].
Proof.
  cbn [repeat]. rexec. replace ((0 - 0) * (0 - 0)) with 0 by ring. rewrite !Rplus_0_l, sqrt_0. replace (Rltb 0 (1 / 8388608)) with true by (symmetry; apply Rltb_true; lra). rewrite ?Rplus_0_l. reflexivity.
Qed.
(** ... but the struct function never does: it reads eight corners from an array of four
    (struct/frustum.h:143-153) *)
Lemma C56_frustum_corners_at_refuted_ok : exists corners split far out,
  length corners = 32%nat /\
  computes RS glm_frustum_corners_at [In (fl corners); Val (VF split); Val (VF far); Out 16] VVoid [fl out] /\
  forall args m r, call RS glms_frustum_corners_at args m <> Ok r.
Proof. exists (repeat 0 32), 1, 2, (repeat 0 16). split; [reflexivity|]. split; [apply corners_at_zero|]. intros. apply corners_at_never. Qed.
