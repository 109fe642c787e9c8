(** * Specification: real vectors and matrices

    A matrix with [nc] columns and [nr] rows is the list of its entries in column-major
    order, as in C: entry (column c, row r) is number c*nr+r. *)

From Coq Require Import List Reals.
Import ListNotations.
Local Open Scope R_scope.

Definition total (l : list R) : R := match l with [] => 0 | a :: l' => fold_left Rplus l' a end.
Definition Rsum (n : nat) (f : nat -> R) : R := total (map f (seq 0 n)).
Definition at_ (v : list R) (i : nat) : R := nth i v 0.
Definition ent (nr : nat) (M : list R) (c r : nat) : R := nth (c * nr + r) M 0.
Definition build {A} (nc nr : nat) (f : nat -> nat -> A) : list A :=
  flat_map (fun c => map (fun r => f c r) (seq 0 nr)) (seq 0 nc).

(** product of a matrix with [k] columns and [nr] rows and one with [nc] columns and [k] rows *)
Definition mulg (nr k nc : nat) (A B : list R) : list R :=
  build nc nr (fun c r => Rsum k (fun i => ent nr A i r * ent k B c i)).
Definition mmul (n : nat) := mulg n n n.
(** [M] has [nc] columns and [nr] rows *)
Definition mvec (nc nr : nat) (M v : list R) : list R :=
  map (fun r => Rsum nc (fun k => ent nr M k r * at_ v k)) (seq 0 nr).
Definition vmat (nc nr : nat) (v M : list R) : list R :=
  map (fun c => Rsum nr (fun k => at_ v k * ent nr M c k)) (seq 0 nc).
Definition transp (nc nr : nat) (M : list R) : list R := build nr nc (fun c r => ent nr M r c).
Definition mid (n : nat) : list R := build n n (fun c r => if Nat.eqb c r then 1 else 0).
Definition mscale (M : list R) (s : R) : list R := map (fun x => x * s) M.

(** determinant by expansion along the first row *)
Definition minor (n : nat) (M : list R) (c0 : nat) : list R :=
  build (n - 1) (n - 1) (fun c r => ent n M (if Nat.ltb c c0 then c else S c) (S r)).
Fixpoint det (n : nat) (M : list R) : R :=
  match n with
  | O => 1
  | S n' => Rsum n (fun c => (-1) ^ c * ent n M c 0 * det n' (minor n M c))
  end.

(** entry of a matrix over any type ([d] is returned outside the matrix) *)
Definition entry {A} (d : A) (nr : nat) (M : list A) (c r : nat) : A := nth (c * nr + r) M d.
Definition transpose {A} (d : A) (nc nr : nat) (M : list A) : list A := build nr nc (fun c r => entry d nr M r c).
(** exchange [i] and [j] *)
Definition exch (i j k : nat) : nat := if Nat.eqb k i then j else if Nat.eqb k j then i else k.
Definition swap_cols {A} (d : A) (n : nat) (M : list A) (i j : nat) : list A := build n n (fun c r => entry d n M (exch i j c) r).
Definition swap_rows {A} (d : A) (n : nat) (M : list A) (i j : nat) : list A := build n n (fun c r => entry d n M c (exch i j r)).

(** vectors *)
Definition vadd (x y : list R) : list R := map (fun p => fst p + snd p) (combine x y).
Definition vsub (x y : list R) : list R := map (fun p => fst p - snd p) (combine x y).
Definition vscale (s : R) (x : list R) : list R := map (fun a => s * a) x.
Definition rdot (x y : list R) : R := total (map (fun p => fst p * snd p) (combine x y)).
Definition norm2 (x : list R) : R := rdot x x.
Definition norm (x : list R) : R := sqrt (norm2 x).
Definition vcross (x y : list R) : list R :=
  [at_ x 1 * at_ y 2 - at_ x 2 * at_ y 1;
   at_ x 2 * at_ y 0 - at_ x 0 * at_ y 2;
   at_ x 0 * at_ y 1 - at_ x 1 * at_ y 0].

(** FLT_EPSILON *)
Definition eps : R := 1 / 8388608.
(** the unit vector in the direction of [x]; zero for vectors shorter than FLT_EPSILON *)
Definition normalized (x : list R) : list R :=
  if Rlt_dec (norm x) eps then map (fun _ => 0) x else map (fun a => a / norm x) x.
