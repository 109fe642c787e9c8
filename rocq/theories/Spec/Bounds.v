(** * Error bounds of products in binary32, for any function that claims to compute one *)

From Coq Require Import List ZArith Reals.
From Verif Require Import MiniC Contract B32.
From Verif.Spec Require Import Linear Quaternion Float32.
Import ListNotations.

(** every entry of the product, unless it overflows, within the error of [n] roundings per
    entry; no overflow on moderate inputs *)
Definition within (n : nat) (r : list b32) (exact sizes : list R) (inputs : list b32) : Prop :=
  near n r exact sizes /\ (Forall moderate inputs -> Forall (fun x => finite x = true) r).

(** [k] by [k] matrices, columns one after the other *)
Definition close_mmul (l : libm) (k : nat) (f : fundef) : Prop :=
  forall a b, length a = (k * k)%nat -> length b = (k * k)%nat -> Forall number a -> Forall number b ->
  exists r, computes (B32 l) f [In (fl a); In (fl b); Out (k * k)] VVoid [fl r] /\
    within k r (mmul k (map rval a) (map rval b)) (mmul k (map rabs a) (map rabs b)) (a ++ b).
Definition close_mvec (l : libm) (k : nat) (f : fundef) : Prop :=
  forall m v, length m = (k * k)%nat -> length v = k -> Forall number m -> Forall number v ->
  exists r, computes (B32 l) f [In (fl m); In (fl v); Out k] VVoid [fl r] /\
    within k r (mvec k k (map rval m) (map rval v)) (mvec k k (map rabs m) (map rabs v)) (m ++ v).
Definition close_qmul (l : libm) (f : fundef) : Prop :=
  forall p q, length p = 4%nat -> length q = 4%nat -> Forall number p -> Forall number q ->
  exists r, computes (B32 l) f [In (fl p); In (fl q); Out 4] VVoid [fl r] /\
    within 4 r (qmul (map rval p) (map rval q)) (qmul_abs (map rabs p) (map rabs q)) (p ++ q).
Definition close_dot (l : libm) (k : nat) (f : fundef) : Prop :=
  forall a b, length a = k -> length b = k -> Forall number a -> Forall number b ->
  exists r, computes (B32 l) f [In (fl a); In (fl b)] (VF r) [] /\
    near1 k r (rdot (map rval a) (map rval b)) (rdot (map rabs a) (map rabs b)) /\
    (Forall moderate (a ++ b) -> finite r = true).

(** the exact value rounded once: relative error 2^-24, or half the least positive number *)
Definition once (r : b32) (x : R) : Prop := finite r = true -> (Rabs (rval r - x) <= u * Rabs x + eta)%R.
