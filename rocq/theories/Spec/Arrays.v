(** * Specification: arrays of vectors and matrices *)

From Coq Require Import String List ZArith Reals.
From Verif Require Import MiniC Contract.
From Verif.Spec Require Import Linear.
Import ListNotations.
Local Open Scope nat_scope.

(** an array of pointers and what they point to *)
Definition pointers {F} (ps : list ptr) : list (cell F) := map (fun p => CP (fst p) (snd p)) ps.
Definition matrices {F} (m : mem F) (ps : list ptr) (Ms : list (list F)) : Prop :=
  Forall2 (fun p M => length M = 16%nat /\ holds m p (fl M)) ps Ms.
(** left-to-right product *)
Definition chain (Ms : list (list R)) : list R := match Ms with [] => mid 4 | M :: Ms' => fold_left (mmul 4) Ms' M end.

(** product of 4x4 matrices in any arithmetic: four products summed from the left *)
Definition fmul4 (S : Scalar) (A B : list (T S)) : list (T S) :=
  let e M c r := nth (c * 4 + r) M (s_lit S 0 1) in
  let p c r k := s_op2 S OMul (e A k r) (e B c k) in
  let s := s_op2 S OAdd in
  build 4 4 (fun c r => s (s (s (p c r 0) (p c r 1)) (p c r 2)) (p c r 3)).

(** [f(dst, src, n)] copies [n] structs of [k] fields *)
Definition copies_floats (f : fundef) (k : nat) : Prop := forall S n (x : list (T S)), length x = n * k ->
  computes S f [Out (n * k); InA (fl x); Val (VI (Z.of_nat n))] VVoid [fl x].
Definition copies_ints (f : fundef) (k : nat) : Prop := forall S n (x : list Z), length x = n * k ->
  computes S f [Out (n * k); InA (il x); Val (VI (Z.of_nat n))] VVoid [il x].

(** the unit matrix and the unit quaternion in any arithmetic *)
Definition unit_matrix (S : Scalar) (n : nat) : list (T S) :=
  map (fun i => if Nat.eqb (i / n) (i mod n) then s_lit S 1 1 else s_lit S 0 1) (seq 0 (n * n)).
Definition unit_quat (S : Scalar) : list (T S) := [s_lit S 0 1; s_lit S 0 1; s_lit S 0 1; s_lit S 1 1].
(** [f(dst, n)] writes [n] copies of [x] *)
Definition fills (S : Scalar) (f : fundef) (x : list (T S)) : Prop := forall n,
  computes S f [Out (n * length x); Val (VI (Z.of_nat n))] VVoid [fl (List.concat (repeat x n))].

