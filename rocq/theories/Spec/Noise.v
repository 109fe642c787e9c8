(** * Gradient noise on the integer lattice, over the reals *)

From Coq Require Import List ZArith Reals.
From Verif.Spec Require Import Linear.
Import ListNotations.
Local Open Scope R_scope.

(** a permutation-like polynomial modulo 289, folded over the coordinates of a lattice point *)
Definition hash (z : Z) : Z := ((34 * z + 1) * z) mod 289.
Definition lattice_hash (c : list Z) : Z := fold_left (fun h k => hash (h + k)) c 0%Z.

Definition cell (p : list R) : list Z := map Int_part p.
(** the fractional part, kept below 1 - 2^-24 *)
Definition fract (x : R) : R := Rmin (x - IZR (Int_part x)) (16777215 / 16777216).
Definition fade (t : R) : R := 6 * t ^ 5 - 15 * t ^ 4 + 10 * t ^ 3.
Definition mix (a b t : R) : R := a + t * (b - a).
(** multilinear interpolation over the corners of a cell *)
Fixpoint blend (ts : list R) (f : list Z -> R) : R :=
  match ts with
  | [] => f []
  | t :: ts' => mix (blend ts' (fun d => f (0%Z :: d))) (blend ts' (fun d => f (1%Z :: d))) t
  end.

(** gradients chosen by the hash *)
Definition right_of (x : R) : R := if Rlt_dec x 0 then 0 else 1.
Definition above (x : R) : R := if Rlt_dec 0 x then 0 else 1.
Definition grad2 (h : Z) : list R :=
  let x := fract (IZR h / 41) * 2 - 1 in [x - IZR (Int_part (x + 1 / 2)); Rabs x - 1 / 2].
Definition grad3 (h : Z) : list R :=
  let x := fract (IZR h / 7) in
  let y := fract (IZR (Int_part (IZR h / 7)) / 7) - 1 / 2 in
  let z := 1 / 2 - Rabs x - Rabs y in
  [x - above z * (right_of x - 1 / 2); y - above z * (right_of y - 1 / 2); z].
Definition grad4 (h : Z) : list R :=
  let a := IZR h / 7 in
  let b := IZR (Int_part a) / 7 in
  let c := IZR (Int_part b) / 6 in
  let x := fract a - 1 / 2 in let y := fract b - 1 / 2 in let z := fract c - 1 / 2 in
  let w := 3 / 4 - Rabs x - Rabs z - Rabs y in
  [x - above w * (right_of x - 1 / 2); y - above w * (right_of y - 1 / 2); z; w].
(** first-order approximation of the reciprocal length *)
Definition shorten (g : list R) : list R :=
  map (fun c => c * (179284291400159 / 100000000000000 - rdot g g * (85373472095314 / 100000000000000))) g.

(** the contribution of corner [d] of the cell of [p] *)
Definition influence (grad : Z -> list R) (p : list R) (d : list Z) : R :=
  rdot (shorten (grad (lattice_hash (map (fun ab => (fst ab + snd ab)%Z) (combine (cell p) d)))))
       (map (fun ab => fst ab - IZR (snd ab)) (combine (map fract p) d)).
Definition perlin (grad : Z -> list R) (gain : R) (p : list R) : R :=
  blend (map fade (map fract p)) (influence grad p) * gain.
