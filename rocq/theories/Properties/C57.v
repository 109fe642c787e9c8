(** C57: Exported call API forwards faithfully.

    Every glmc_ function of the precompiled library has exactly the effect and result of the
    inline glm_ function of the same name on the same arguments. *)

From Coq Require Import String List ZArith Bool Reals.
From Verif Require Import MiniC Contract RScalar Cglm.
From Verif.Spec Require Import CallApi.
From Verif.Proofs Require Forward.
Import ListNotations.
Local Open Scope list_scope.
Local Open Scope list_scope.

(** every exported function has exactly the effect of the inline function of the same name *)
Theorem C57_exported : Forall (fun p => same_effect (fst p) (snd p)) exported.
Proof. exact Forward.C57_exported_ok. Qed.
Print Assumptions C57_exported.

Example C57_exported_example : length exported = 743%nat.
Proof. exact Forward.C57_exported_ex. Qed.
