(** * Declared parameters and what it means for a call to fit them *)

From Coq Require Import List ZArith.
From Verif Require Import MiniC Contract.
Import ListNotations.
Local Open Scope Z_scope.

Inductive elem := Flt | Int.
Inductive param :=
| Float                        (* float passed by value *)
| Integer                      (* int passed by value *)
| Index (n : nat)              (* int passed by value, from 0 to n-1 *)
| OneOf (l : list Z)           (* int passed by value, one of those listed *)
| Boolean                      (* bool passed by value *)
| Struct (t : elem) (n : nat)  (* structure of n cells passed by value *)
| Reads (t : elem) (n : nat)   (* pointer to n cells that are read *)
| Writes (n : nat)             (* pointer to n cells that are written, contents arbitrary *)
| Updates (t : elem) (n : nat) (* pointer to n cells that are read and written *)
| Apart (t : elem) (n : nat).  (* pointer to n cells that are read, overlapping none that is written *)

(** [n] cells of a type *)
Definition cells {F} (t : elem) (n : nat) (cs : list (cell F)) : Prop :=
  match t with
  | Flt => exists l, length l = n /\ cs = fl l
  | Int => exists l, length l = n /\ cs = il l
  end.

Definition fits {F} (p : param) (a : arg F) : Prop :=
  match p with
  | Float => exists x, a = Val (VF x)
  | Integer => exists z, a = Val (VI z)
  | Index n => exists z, 0 <= z < Z.of_nat n /\ a = Val (VI z)
  | OneOf l => exists z, List.In z l /\ a = Val (VI z)
  | Boolean => exists b, a = Val (VB b)
  | Struct t n => exists cs, cells t n cs /\ a = Val (VA cs)
  | Reads t n => exists cs, cells t n cs /\ a = InA cs
  | Writes n => a = Out n
  | Updates t n => exists cs, cells t n cs /\ a = InOut cs
  | Apart t n => exists cs, cells t n cs /\ a = In cs
  end.

(** for every arithmetic, all argument values and all addresses: a pointer that is read may be
    equal to a pointer of the same size that is written, otherwise written regions overlap
    nothing *)
Definition safe (f : fundef) (ps : list param) : Prop :=
  forall (S : Scalar) args, Forall2 fits ps args -> memory_safe S f args.
