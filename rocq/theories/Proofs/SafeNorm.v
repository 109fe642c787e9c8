(** * Memory safety of the integer norm (C58) *)

From Coq Require Import String List ZArith Bool Lia.
From Verif Require Import MiniC Contract SymCall Tac Cglm.
From Verif.Gen Require Import struct_ivec3.
From Verif.Spec Require Import Vec IntVec.
From Verif.Proofs Require Import Loop Struct IntVec.
From Verif.Spec Require Import Types.
(* props: From Verif.Gen Require Import struct_ivec3. *)
Import ListNotations.
Local Open Scope string_scope.
Local Open Scope list_scope.

Lemma fits_dec : forall z, {Spec.IntVec.fits z} + {~ Spec.IntVec.fits z}.
Proof. intros z. unfold Spec.IntVec.fits. destruct (Z_le_dec (-2147483648) z), (Z_le_dec z 2147483647); (left; lia) || (right; lia). Qed.
Lemma isum_dec : forall x a, {isum_ok a x} + {~ isum_ok a x}.
Proof.
  induction x as [|z x IH]; intros a; [left; exact I|]. cbn [isum_ok]. destruct (fits_dec z); [|right; tauto]. destruct (fits_dec (a + z)); [|right; tauto].
  destruct (IH (a + z)%Z); [left|right]; tauto.
Qed.
Lemma norm_call : forall (S : Scalar) x (m : mem (T S)) p, length x = 3%nat -> holds m p (il x) ->
  (exists z, call S glm_ivec3_norm [VP (fst p) (snd p)] m = Ok (VI z, m)) \/ exists e, arith e = true /\ call S glm_ivec3_norm [VP (fst p) (snd p)] m = Err e.
Proof.
  intros S x m p L H. destruct (C43_dot_ok S) as (_ & _ & N & _). destruct (N x L) as [N1 N2].
  assert (Y : layout m [In (il x)] [p]).
  { split; [repeat constructor; exact H|]. intros [|i] j a b q r Nij Ha Hb Hq Hr W. injection Ha as <-. discriminate. destruct i; discriminate. }
  assert (C : (exists z, call S glm_ivec3_norm2 [VP (fst p) (snd p)] m = Ok (VI z, m)) \/ exists e, arith e = true /\ call S glm_ivec3_norm2 [VP (fst p) (snd p)] m = Err e).
  { destruct (isum_dec (map2 Z.mul x x) 0) as [K|K].
    - left. eexists. exact (N1 K m [p] Y).
    - right. destruct (N2 K) as (e & U & A). exists e. split; [|exact (A m [p] Y)]. destruct U as [->| ->]; reflexivity. }
  unfold glm_ivec3_norm. revert C. generalize glm_ivec3_norm2. intros g C. rewrite call_fun. cbn [bind_params rbind bind_locals app]. rewrite exec_ret.
  cbn. fold (call S). destruct C as [[z ->]|(e & Ae & ->)]; [|right; exists e; split; [exact Ae|reflexivity]]. cbn. unfold fop1.
  destruct (total1 OSqrt || s_ok1 S OSqrt (s_ofZ S z)); cbn; [|right; eexists; split; [|reflexivity]; reflexivity].
  destruct (s_toZ S _); cbn; [|right; eexists; split; [|reflexivity]; reflexivity]. unfold mkint. destruct (in_int z0); cbn; [left; rewrite firstn_all; eauto|right; eexists; split; [|reflexivity]; reflexivity].
Qed.

(** The integer norm, whose result is a float converted to an integer. *)
Lemma C58_norm_ok : safe glm_ivec3_norm [Reads Int 3] /\ safe glms_ivec3_norm [Struct Int 3].
Proof.
  split; intros S args H; inversion H as [|? ? ? ? H1 H2]; subst; inversion H2; subst; clear H H2; destruct H1 as [cs [[l [L ->]] ->]];
    intros m ps Y; pose proof (Forall2_len _ _ _ _ _ (lay_placed _ _ _ Y)) as E; destruct ps as [|p [|]]; try discriminate; cbn [actuals actual].
  - pose proof (lay_placed _ _ _ Y) as Q. inversion Q as [|? ? ? ? Hp _]; subst. destruct (norm_call S l m p L Hp) as [[z C]|(e & A & C)]; [left|right].
    + exists (VI z), []. split; [constructor|]. exact C.
    + exists e. auto.
  - unfold glms_ivec3_norm. rewrite call_fun. unfold bind_params. unfold il. rewrite map_length, L. cbn [Nat.eqb rbind bind_locals app]. rewrite exec_ret.
    rewrite (eval_call S glm_ivec3_norm _ _ [VP (length m) 0]) by reflexivity.
    destruct (norm_call S l (m ++ [il l]) (length m, 0%Z) L (holds_block m [] (il l))) as [[z C]|(e & A & C)]; cbn [fst snd] in C; unfold il in C; rewrite C; cbn [rbind]; [left|right; exists e; auto].
    exists (VI z), []. split; [constructor|]. rewrite firstn_app, Nat.sub_diag, firstn_all, app_nil_r. reflexivity.
Qed.
