(** * IEEE 754 binary32 as a [Scalar]

    The operations are those of the standard library's SpecFloat with precision 24 and
    maximal exponent 128, rounding to nearest even.  There is one NaN.  The libm functions
    other than fabsf, sqrtf and floorf are a parameter. *)

From Coq Require Import ZArith Bool Floats.SpecFloat.
From Verif Require Import MiniC.
Local Open Scope Z_scope.

Definition b32 := spec_float.
Definition prec : Z := 24.
Definition emax : Z := 128.

Definition b_int (z : Z) : b32 := binary_normalize prec emax z 0 false.
(** n/d rounded once; SFdiv takes mantissas of any size *)
Definition b_exact (z : Z) : b32 :=
  match z with Z0 => S754_zero false | Zpos p => S754_finite false p 0 | Zneg p => S754_finite true p 0 end.
Definition b_lit (n : Z) (d : positive) : b32 := SFdiv prec emax (b_exact n) (b_exact (Zpos d)).
Definition b_pi (n : Z) (d : positive) : b32 := b_lit (n * 314159265358979323846) (d * 100000000000000000000).
(** truncation towards zero *)
Definition b_trunc (x : b32) : option Z :=
  match x with
  | S754_zero _ => Some 0
  | S754_finite s m e =>
    let a := if 0 <=? e then Zpos m * 2 ^ e else Zpos m / 2 ^ (- e) in Some (if s then - a else a)
  | _ => None
  end.
Definition b_floor (x : b32) : b32 :=
  match x with
  | S754_finite s m e =>
    if 0 <=? e then x
    else let a := Zpos m / 2 ^ (- e) in
         let z := if s then - a - (if Z.eqb (Zpos m mod 2 ^ (- e)) 0 then 0 else 1) else a in
         if Z.eqb z 0 then S754_zero s else b_int z
  | _ => x
  end.
(** exact product, then one rounding in the addition (in the product if there is nothing to add) *)
Definition b_fma (x y z : b32) : b32 :=
  match x, y, z with
  | S754_finite _ _ _, S754_finite _ _ _, S754_zero _ => SFmul prec emax x y
  | S754_finite s m e, S754_finite s' m' e', _ => SFadd prec emax (S754_finite (xorb s s') (m * m') (e + e')) z
  | _, _, _ => SFadd prec emax (SFmul prec emax x y) z
  end.
Definition b_cmp (c : cmp) (x y : b32) : bool :=
  match c with
  | CLt => SFltb x y
  | CLe => SFleb x y
  | CGt => SFltb y x
  | CGe => SFleb y x
  | CEq => SFeqb x y
  | CNe => negb (SFeqb x y)
  end.
Definition is_nan (x : b32) : bool := match x with S754_nan => true | _ => false end.
Definition is_inf (x : b32) : bool := match x with S754_infinity _ => true | _ => false end.

(** the functions of libm that IEEE 754 does not fix *)
Record libm := { l1 : op1 -> b32 -> b32; l2 : op2 -> b32 -> b32 -> b32 }.

Definition b_op1 (l : libm) (o : op1) (x : b32) : b32 :=
  match o with
  | ONeg => SFopp x
  | OAbs => SFabs x
  | OSqrt => SFsqrt prec emax x
  | OFloor => b_floor x
  | _ => l1 l o x
  end.
Definition b_op2 (l : libm) (o : op2) (x y : b32) : b32 :=
  match o with
  | OAdd => SFadd prec emax x y
  | OSub => SFsub prec emax x y
  | OMul => SFmul prec emax x y
  | ODiv => SFdiv prec emax x y
  | OFmin => if is_nan x then y else if is_nan y then x else if SFltb y x then y else x
  | _ => l2 l o x y
  end.

Definition B32 (l : libm) : Scalar := {|
  T := b32;
  s_op1 := b_op1 l;
  s_ok1 := fun _ _ => true;
  s_op2 := b_op2 l;
  s_ok2 := fun _ _ _ => true;
  s_fma := b_fma;
  s_cmp := b_cmp;
  s_test := fun t x => match t with TNan => is_nan x | TInf => is_inf x end;
  s_lit := b_lit;
  s_pi := b_pi;
  s_ofZ := b_int;
  s_toZ := b_trunc |}.
