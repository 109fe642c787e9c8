(** * Using a call's exact outcome: two descriptions of the same call must agree (proof tool) *)

From Coq Require Import String List ZArith Bool Reals Lra.
From Verif.Proofs Require Export RTac Layout.
Import ListNotations.
Local Open Scope R_scope.

Ltac other_outcome H E :=
  lazymatch type of H with computes ?S ?f ?args ?r ?o =>
    lazymatch type of E with computes _ _ _ ?r' ?o' =>
      destruct (computes_unique S f args r o r' o' H E) as [?Er ?Eo]; [reflexivity|reflexivity|]
    end
  end.
Ltac linj H := revert H; lcbv; let E := fresh in intro E; injection E; clear E; intros; subst.
(** refute an outcome that differs from the proved one by linear arithmetic *)
Ltac differs H E := other_outcome H E;
  match goal with Eo : _ = _ :> list (list (cell _)) |- _ => revert Eo end; lcbv;
  let Eo := fresh "Eo" in intros Eo; injection Eo; intros; lra.

(** name the entries of a list of known length *)
Ltac un2 x a b := destruct x as [|a [|b [|? ?]]]; try discriminate.
Ltac un3 x a b c := destruct x as [|a [|b [|c [|? ?]]]]; try discriminate.
Ltac un4 x a b c d := destruct x as [|a [|b [|c [|d [|? ?]]]]]; try discriminate.

(** remove zeros and ones left by constant entries *)
Ltac tidy := repeat (progress (rewrite ?Rmult_0_l, ?Rmult_0_r, ?Rplus_0_l, ?Rplus_0_r, ?Rmult_1_l, ?Rmult_1_r, ?Rminus_0_r)).
