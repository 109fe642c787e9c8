(** * Predicates on binary32 values *)

From Coq Require Import ZArith Bool List Reals Floats.SpecFloat.
From Verif Require Import B32.
Import ListNotations.

(** a number, not an infinity or NaN *)
Definition finite (x : b32) : bool := match x with S754_zero _ | S754_finite _ _ _ => true | _ => false end.
(** in the format: mantissa and exponent as IEEE 754 stores them *)
Definition inb32 (x : b32) : bool := valid_binary prec emax x.
Definition number (x : b32) : Prop := inb32 x = true /\ finite x = true.
(** equal as the C operator == has it: the two zeros are equal *)
Definition feq (x y : b32) : Prop := SFeqb x y = true.
Definition nan : b32 := S754_nan.
Definition b1 : b32 := S754_finite false 8388608 (-23).
Definition b0 : b32 := S754_zero false.
Definition isign (x : b32) : bool :=
  match x with S754_zero s | S754_finite s _ _ | S754_infinity s => s | S754_nan => false end.

(** the real number a finite value stands for *)
Definition rval (x : b32) : R :=
  match x with
  | S754_finite s m e => (IZR (if s then Z.neg m else Z.pos m) * powerRZ 2 e)%R
  | _ => 0%R
  end.
(** half the distance from 1 to the next binary32, and half the least positive one *)
Definition u : R := (/ 16777216)%R.
Definition eta : R := powerRZ 2 (-150).
(** identity matrices and the identity quaternion *)
Definition bI2 : list b32 := [b1; b0; b0; b1].
Definition bI3 : list b32 := [b1; b0; b0; b0; b1; b0; b0; b0; b1].
Definition bI4 : list b32 := [b1; b0; b0; b0; b0; b1; b0; b0; b0; b0; b1; b0; b0; b0; b0; b1].
Definition bIq : list b32 := [b0; b0; b0; b1].
(** some component so large that its square overflows *)
Definition huge (v : list b32) : Prop := Exists (fun x => (powerRZ 2 64 <= Rabs (rval x))%R) v.
Definition rabs (x : b32) : R := Rabs (rval x).
(** [near n r x m]: every finite entry of [r] is within the error of a sum of [n] products
    of the entry of [x]; [m] is the same sum with absolute values *)
Definition gamma (n : nat) : R := ((1 + u) ^ n - 1)%R.
Definition tiny : R := powerRZ 2 (-149).
Definition near1 (n : nat) (r : b32) (x m : R) : Prop :=
  finite r = true -> (Rabs (rval r - x) <= gamma n * m + INR n * tiny)%R.
Fixpoint near (n : nat) (r : list b32) (x m : list R) : Prop :=
  match r, x, m with
  | [], [], [] => True
  | a :: r', b :: x', c :: m' => near1 n a b c /\ near n r' x' m'
  | _, _, _ => False
  end.
(** magnitudes that cannot overflow in a product of two of them *)
Definition moderate (x : b32) : Prop := number x /\ (rabs x <= powerRZ 2 60)%R.
(** the cross and Hamilton products with absolute values and sums in place of differences *)
Definition cross_abs (a b : list R) : list R :=
  let x i := nth i a 0%R in let y i := nth i b 0%R in
  [x 1%nat * y 2%nat + x 2%nat * y 1%nat; x 2%nat * y 0%nat + x 0%nat * y 2%nat; x 0%nat * y 1%nat + x 1%nat * y 0%nat]%R.
Definition qmul_abs (p q : list R) : list R :=
  let x i := nth i p 0%R in let y i := nth i q 0%R in
  [x 3%nat * y 0%nat + x 0%nat * y 3%nat + x 1%nat * y 2%nat + x 2%nat * y 1%nat;
   x 3%nat * y 1%nat + x 0%nat * y 2%nat + x 1%nat * y 3%nat + x 2%nat * y 0%nat;
   x 3%nat * y 2%nat + x 0%nat * y 1%nat + x 1%nat * y 0%nat + x 2%nat * y 3%nat;
   x 3%nat * y 3%nat + x 0%nat * y 0%nat + x 1%nat * y 1%nat + x 2%nat * y 2%nat]%R.
(** [r] is [v] divided by [n], component by component, within 6 units of 2^-24 (and 2^-149) *)
Definition scaled_near (n : R) (v r : list b32) : Prop :=
  Forall2 (fun x y => finite y = true /\ (Rabs (rval y - rval x / n) <= 6 * u * (rabs x / n) + tiny)%R) v r.
