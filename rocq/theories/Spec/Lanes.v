(** * Vector registers: what the helpers of the SIMD headers are named for

    A register of floats is passed by value; [lanes l] is the register whose lanes are [l],
    lowest first. *)

From Coq Require Import List ZArith Reals.
From Verif Require Import MiniC Contract.
Import ListNotations.

Definition lanes {F} (l : list F) : value F := VV (map LF l).

(** [takes S f regs v]: given the registers [regs], every call of [f] in every memory returns
    [v] and changes no memory *)
Definition takes (S : Scalar) (f : fundef) (regs : list (list (T S))) (v : value (T S)) : Prop :=
  computes S f (map (fun l => Val (lanes l)) regs) v [].

(** [lowest S f regs x]: every such call returns a register whose lowest lane is [x] *)
Definition lowest (S : Scalar) (f : fundef) (regs : list (list (T S))) (x : T S) : Prop :=
  exists rest, length rest = 3%nat /\ takes S f regs (lanes (x :: rest)).

(** the registers of four and of eight lanes *)
Definition four {A} (l : list A) : Prop := length l = 4%nat.
Definition eight {A} (l : list A) : Prop := length l = 8%nat.

(** lane by lane *)
Fixpoint each2 {A B C} (op : A -> B -> C) (a : list A) (b : list B) : list C :=
  match a, b with x :: a', y :: b' => op x y :: each2 op a' b' | _, _ => [] end.
Fixpoint each3 {A B C D} (op : A -> B -> C -> D) (a : list A) (b : list B) (c : list C) : list D :=
  match a, b, c with x :: a', y :: b', z :: c' => op x y z :: each3 op a' b' c' | _, _, _ => [] end.

(** the least and the greatest entry of a list *)
Definition least (x : R) (l : list R) : Prop := List.In x l /\ Forall (fun y => (x <= y)%R) l.
Definition greatest (x : R) (l : list R) : Prop := List.In x l /\ Forall (fun y => (y <= x)%R) l.
