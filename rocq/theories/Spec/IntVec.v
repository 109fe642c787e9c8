(** * Specification of the integer vector functions *)

From Coq Require Import List ZArith Bool.
From Coq Require Import Reals.
From Verif Require Import MiniC Contract RScalar.
From Verif.Spec Require Import Vec.
Import ListNotations.
Local Open Scope Z_scope.

(** representable in a 32-bit int *)
Definition fits (z : Z) : Prop := - 2 ^ 31 <= z <= 2 ^ 31 - 1.

(** arithmetic undefined behaviour *)
Definition arith_ub (x : err) : Prop := x = XOverflow \/ x = XDivZero.

Section Shapes.
Variable S : Scalar.

(** the call returns normally as described if [ok], and is undefined behaviour otherwise *)
Definition exactly_if (ok : Prop) (f : fundef) (args : list (arg (T S))) (ret : value (T S)) (outs : list (list (cell (T S)))) : Prop :=
  (ok -> computes S f args ret outs) /\ (~ ok -> exists x, arith_ub x /\ aborts S f args x).

(** an integer operation: where it is defined, and its mathematical value *)
Record iop2 := { i_ok : Z -> Z -> Prop; i_val : Z -> Z -> Z }.

Definition p_add := {| i_ok := fun a b => fits (a + b); i_val := Z.add |}.
Definition p_sub := {| i_ok := fun a b => fits (a - b); i_val := Z.sub |}.
Definition p_mul := {| i_ok := fun a b => fits (a * b); i_val := Z.mul |}.
(** quotient rounded towards zero, and its remainder *)
Definition p_div := {| i_ok := fun a b => b <> 0 /\ fits (Z.quot a b); i_val := Z.quot |}.
Definition p_mod := {| i_ok := fun a b => b <> 0 /\ fits (Z.quot a b); i_val := Z.rem |}.
Definition p_min := {| i_ok := fun _ _ => True; i_val := Z.min |}.
Definition p_max := {| i_ok := fun _ _ => True; i_val := Z.max |}.

Fixpoint all2 (P : Z -> Z -> Prop) (x y : list Z) : Prop :=
  match x, y with a :: x', b :: y' => P a b /\ all2 P x' y' | _, _ => True end.
Fixpoint all3 (P : Z -> Z -> Z -> Prop) (x y z : list Z) : Prop :=
  match x, y, z with a :: x', b :: y', c :: z' => P a b c /\ all3 P x' y' z' | _, _, _ => True end.

(** [f(a, b, dest)], [f(v, s, dest)], with any of the vectors equal *)
Definition int_binary (n : nat) (f : fundef) (o : iop2) : Prop := forall x y, length x = n -> length y = n ->
  exactly_if (all2 (i_ok o) x y) f [InA (il x); InA (il y); Out n] VVoid [il (map2 (i_val o) x y)].
Definition int_scalar (n : nat) (f : fundef) (o : iop2) : Prop := forall x s, length x = n ->
  exactly_if (all2 (i_ok o) x (repeat s n)) f [InA (il x); Val (VI s); Out n] VVoid [il (map (fun a => i_val o a s) x)].
(** [dest = dest o2 (a o1 b)] *)
Definition int_accumulate (n : nat) (f : fundef) (o1 o2 : iop2) : Prop := forall x y z, length x = n -> length y = n -> length z = n ->
  exactly_if (all3 (fun a b c => i_ok o1 a b /\ i_ok o2 c (i_val o1 a b)) x y z) f
    [InA (il x); InA (il y); InOut (il z)] VVoid [il (map3 (fun a b c => i_val o2 c (i_val o1 a b)) x y z)].
Definition int_accumulate_scalar (n : nat) (f : fundef) (o1 o2 : iop2) : Prop := forall x s z, length x = n -> length z = n ->
  exactly_if (all3 (fun a b c => i_ok o1 a b /\ i_ok o2 c (i_val o1 a b)) x (repeat s n) z) f
    [InA (il x); Val (VI s); InOut (il z)] VVoid [il (map2 (fun a c => i_val o2 c (i_val o1 a s)) x z)].

(** sums of products from left to right, all partial results representable *)
Fixpoint isum_ok (acc : Z) (x : list Z) : Prop :=
  match x with [] => True | a :: x' => fits a /\ fits (acc + a) /\ isum_ok (acc + a) x' end.
Definition isum (x : list Z) : Z := fold_right Z.add 0 x.

End Shapes.

(** copies, constants, clamping: defined for all values *)
Definition iunary (S : Scalar) (n : nat) (f : fundef) (g : Z -> Z) : Prop := forall x, length x = n ->
  computes S f [InA (il x); Out n] VVoid [il (map g x)].
Definition iinplace (S : Scalar) (n : nat) (f : fundef) (g : Z -> Z) : Prop := forall x, length x = n ->
  computes S f [InOut (il x)] VVoid [il (map g x)].
Definition ifilled (S : Scalar) (n : nat) (f : fundef) : Prop := forall v,
  computes S f [Out n; Val (VI v)] VVoid [il (repeat v n)].
Definition iclamp (S : Scalar) (n : nat) (f : fundef) : Prop := forall x lo hi, length x = n ->
  computes S f [InOut (il x); Val (VI lo); Val (VI hi)] VVoid [il (map (fun a => if a <? lo then lo else Z.min a hi) x)].
(** absolute values *)
Definition iabs (S : Scalar) (n : nat) (f : fundef) : Prop := forall x, length x = n ->
  exactly_if S (all2 (fun a _ => fits (Z.abs a)) x x) f [InA (il x); Out n] VVoid [il (map Z.abs x)].
(** sums of products; norm; squared distance *)
Definition idot (S : Scalar) (n : nat) (f : fundef) : Prop := forall x y, length x = n -> length y = n ->
  exactly_if S (isum_ok 0 (map2 Z.mul x y)) f [In (il x); In (il y)] (VI (isum (map2 Z.mul x y))) [].
Definition inorm2 (S : Scalar) (n : nat) (f : fundef) : Prop := forall x, length x = n ->
  exactly_if S (isum_ok 0 (map2 Z.mul x x)) f [In (il x)] (VI (isum (map2 Z.mul x x))) [].
Definition idistance2 (S : Scalar) (n : nat) (f : fundef) : Prop := forall x y, length x = n -> length y = n ->
  let d := map2 Z.sub x y in
  exactly_if S (all2 (fun a _ => fits a) d d /\ isum_ok 0 (map2 Z.mul d d)) f [In (il x); In (il y)] (VI (isum (map2 Z.mul d d))) [].
(** comparisons *)
Definition ieqv (S : Scalar) (n : nat) (f : fundef) : Prop := forall x y, length x = n -> length y = n -> exists r,
  computes S f [In (il x); In (il y)] (VB r) [] /\ (r = true <-> x = y).
Definition ieq (S : Scalar) (n : nat) (f : fundef) : Prop := forall x v, length x = n -> exists r,
  computes S f [In (il x); Val (VI v)] (VB r) [] /\ (r = true <-> x = repeat v n).
(** the real square root *)
Definition idistance (n : nat) (f : fundef) : Prop := forall x y, length x = n -> length y = n ->
  let d := map2 Z.sub x y in
  exactly_if RS (all2 (fun a _ => fits a) d d /\ isum_ok 0 (map2 Z.mul d d)) f [In (il x); In (il y)] (VF (sqrt (IZR (isum (map2 Z.mul d d))))) [].
