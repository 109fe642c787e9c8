(** * Finishing tactics (proof tool) *)

From Coq Require Import String List ZArith Bool Reals Lra.
From Verif Require Import MiniC Sym SymSound Contract SymCall SymTac RScalar.
Import ListNotations.

(** replace a list of known length by its elements *)
Ltac unlist x :=
  lazymatch goal with
  | H : length x = ?n |- _ =>
    repeat (let a := fresh "a" in destruct x as [|a x]; [discriminate H|]; simpl in H;
            apply Nat.succ_inj in H);
    first [apply length_zero_iff_nil in H; subst x | discriminate H]
  end.
Ltac unlists := repeat match goal with H : length ?x = _ |- _ => is_var x; unlist x end.
Ltac unforall :=
  repeat match goal with
  | H : Forall _ (_ :: _) |- _ => let H1 := fresh "Hok" in apply Forall_cons_iff in H; destruct H as [H1 H]
  | H : Forall2 _ (_ :: _) (_ :: _) |- _ => inversion_clear H
  | H : Forall _ [] |- _ => clear H
  | H : Forall2 _ [] [] |- _ => clear H
  end.

(** use the equations coming from aliasing *)
Ltac useeq E :=
  lazymatch type of E with
  | ?x = ?x => clear E
  | _ => first [subst_var E | idtac]
  end
with subst_var E :=
  lazymatch type of E with
  | ?x = ?y => first [is_var x; subst x | is_var y; subst y]
  end.
Ltac useeqs :=
  repeat match goal with
  | |- (_ = _ :> list (cell _)) -> _ => let H := fresh "Heq" in intro H; injection H; clear H
  | |- _ = _ -> _ => let E := fresh "E" in intro E; useeq E
  | |- forall t, t = _ -> _ => let t := fresh "t" in let E := fresh "E" in intros t E; subst t
  end.
Ltac gsplit := repeat match goal with |- _ /\ _ => split end.

(** unfold the real arithmetic *)
Ltac rcbv :=
  cbv [RS s_op1 s_op2 s_ok1 s_ok2 s_cmp s_lit s_pi s_ofZ s_fma s_test R_op1 R_op2 R_ok1 R_ok2 R_cmp R_lit T].
Ltac reqs := repeat first
  [ reflexivity | assumption
  | match goal with
    | |- Rltb _ _ = true => apply Rltb_true | |- Rltb _ _ = false => apply Rltb_false
    | |- Rleb _ _ = true => apply Rleb_true | |- Rleb _ _ = false => apply Rleb_false
    | |- Reqb _ _ = true => apply Reqb_true | |- Reqb _ _ = false => apply Reqb_false
    | |- negb _ = true => apply negb_true_iff | |- negb _ = false => apply negb_false_iff
    | |- andb _ _ = true => apply andb_true_intro; split
    end ].
(** equality of lists of float cells, entry by entry *)
Ltac cells tac :=
  repeat lazymatch goal with
  | |- (_ :: _)%list = (_ :: _)%list => f_equal
  | |- nil = nil => reflexivity
  | |- _ = _ :> R => tac
  | |- CF _ = CF _ => f_equal; tac
  | |- VF _ = VF _ => f_equal; tac
  end.
