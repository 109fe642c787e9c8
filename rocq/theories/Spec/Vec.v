(** * Specification: component-wise formulas over any float arithmetic *)

From Coq Require Import List ZArith Bool.
From Verif Require Import MiniC Contract.
Import ListNotations.

Fixpoint map2 {A B C} (f : A -> B -> C) (x : list A) (y : list B) : list C :=
  match x, y with
  | a :: x', b :: y' => f a b :: map2 f x' y'
  | _, _ => []
  end.
Fixpoint map3 {A B C D} (f : A -> B -> C -> D) (x : list A) (y : list B) (z : list C) : list D :=
  match x, y, z with
  | a :: x', b :: y', c :: z' => f a b c :: map3 f x' y' z'
  | _, _, _ => []
  end.

(** Scalar formulas.  [S] is an arbitrary arithmetic: [s_op2 S OAdd] is its addition, and so on. *)
Section Ops.
Variable S : Scalar.
Notation F := (T S).

Definition lit (z : Z) : F := s_lit S z 1.
Definition add (a b : F) : F := s_op2 S OAdd a b.
Definition sub (a b : F) : F := s_op2 S OSub a b.
Definition mul (a b : F) : F := s_op2 S OMul a b.
Definition div (a b : F) : F := s_op2 S ODiv a b.
Definition neg (a : F) : F := s_op1 S ONeg a.
Definition absf (a : F) : F := s_op1 S OAbs a.
Definition sqrtf (a : F) : F := s_op1 S OSqrt a.
Definition floorf (a : F) : F := s_op1 S OFloor a.
Definition fmodf (a b : F) : F := s_op2 S OFmod a b.
Definition lt (a b : F) : bool := s_cmp S CLt a b.
Definition gt (a b : F) : bool := s_cmp S CGt a b.
Definition eq (a b : F) : bool := s_cmp S CEq a b.

(** the smaller / larger, as [a < b ? a : b] and [a > b ? a : b] *)
Definition minf (a b : F) : F := if lt a b then a else b.
Definition maxf (a b : F) : F := if gt a b then a else b.
Definition clampf (v lo hi : F) : F := minf (maxf v lo) hi.
Definition clamp01 (v : F) : F := clampf v (lit 0) (lit 1).
Definition stepf (edge x : F) : F := if lt x edge then lit 0 else lit 1.
(** 1, 0, -1 (and 0 for an unordered value) *)
Definition signf (a : F) : F := s_ofZ S (b2z (gt a (lit 0)) - b2z (lt a (lit 0))).
(** fractional part, capped below 1 at 0x1.fffffep-1 *)
Definition fractf (a : F) : F := s_op2 S OFmin (sub a (floorf a)) (s_lit S 16777215 16777216).
Definition lerpf (a b t : F) : F := add a (mul t (sub b a)).
Definition smoothf (t : F) : F := mul (mul t t) (sub (lit 3) (mul (lit 2) t)).
Definition smoothstepf (e0 e1 x : F) : F := smoothf (clamp01 (div (sub x e0) (sub e1 e0))).

(** sums from left to right *)
Definition sum (x : list F) : F := match x with [] => lit 0 | a :: x' => fold_left add x' a end.
Definition maxl (x : list F) : F := match x with [] => lit 0 | a :: x' => fold_left (fun m b => if gt b m then b else m) x' a end.
Definition minl (x : list F) : F := match x with [] => lit 0 | a :: x' => fold_left (fun m b => if lt b m then b else m) x' a end.
Definition dot (x y : list F) : F := sum (map2 mul x y).

(** domain conditions: trivial for IEEE arithmetic, "divisor not zero" for the reals, ... *)
Definition div_ok (a b : F) : Prop := s_ok2 S ODiv a b = true.
Definition fmod_ok (a b : F) : Prop := s_ok2 S OFmod a b = true.
Definition sqrt_ok (a : F) : Prop := s_ok1 S OSqrt a = true.
Definition any1 (a : F) : Prop := True.
Definition any2 (a b : F) : Prop := True.

(** ** Contract shapes.  In all of them the inputs may be the very object that is written. *)

(** [f(v, dest)] *)
Definition unary (n : nat) (f : fundef) (ok : F -> Prop) (g : F -> F) : Prop :=
  forall x, length x = n -> Forall ok x ->
  computes S f [InA (fl x); Out n] VVoid [fl (map g x)].
(** [f(v)], modified in place *)
Definition inplace (n : nat) (f : fundef) (g : F -> F) : Prop :=
  forall x, length x = n -> computes S f [InOut (fl x)] VVoid [fl (map g x)].
(** [f(a, b, dest)] *)
Definition binary (n : nat) (f : fundef) (ok : F -> F -> Prop) (g : F -> F -> F) : Prop :=
  forall x y, length x = n -> length y = n -> Forall2 ok x y ->
  computes S f [InA (fl x); InA (fl y); Out n] VVoid [fl (map2 g x y)].
(** [f(v, s, dest)] with a scalar [s] *)
Definition vector_scalar (n : nat) (f : fundef) (ok : F -> F -> Prop) (g : F -> F -> F) : Prop :=
  forall x s, length x = n -> Forall (fun a => ok a s) x ->
  computes S f [InA (fl x); Val (VF s); Out n] VVoid [fl (map (fun a => g a s) x)].
(** [f(s, v, dest)] with a scalar [s] *)
Definition scalar_vector (n : nat) (f : fundef) (g : F -> F -> F) : Prop :=
  forall s x, length x = n ->
  computes S f [Val (VF s); InA (fl x); Out n] VVoid [fl (map (fun a => g s a) x)].
(** [f(a, b, dest)], accumulating: the third argument of [g] is the old [dest] *)
Definition accumulate (n : nat) (f : fundef) (g : F -> F -> F -> F) : Prop :=
  forall x y d, length x = n -> length y = n -> length d = n ->
  computes S f [InA (fl x); InA (fl y); InOut (fl d)] VVoid [fl (map3 g x y d)].
(** [f(a, s, dest)], accumulating, with a scalar [s] *)
Definition accumulate_scalar (n : nat) (f : fundef) (g : F -> F -> F -> F) : Prop :=
  forall x s d, length x = n -> length d = n ->
  computes S f [InA (fl x); Val (VF s); InOut (fl d)] VVoid [fl (map2 (fun a c => g a s c) x d)].
(** [f(from, to, t, dest)] with a scalar [t] *)
Definition interpolate (n : nat) (f : fundef) (g : F -> F -> F -> F) : Prop :=
  forall x y t, length x = n -> length y = n ->
  computes S f [InA (fl x); InA (fl y); Val (VF t); Out n] VVoid [fl (map2 (fun a b => g a b t) x y)].
(** [f(v)] returning a float / a bool, writing nothing *)
Definition returns (n : nat) (f : fundef) (g : list F -> F) : Prop :=
  forall x, length x = n -> computes S f [In (fl x)] (VF (g x)) [].
Definition returns2 (n : nat) (f : fundef) (g : list F -> list F -> F) : Prop :=
  forall x y, length x = n -> length y = n -> computes S f [In (fl x); In (fl y)] (VF (g x y)) [].

End Ops.
