(** * Exact real arithmetic as a float arithmetic.

    Rounding is abstracted away.  Operations outside their mathematical domain
    (division by zero, square root of a negative number, ...) are errors, so a theorem
    that a call is [Ok] over [RS] also says that no such operation is performed. *)

From Coq Require Import Reals ZArith Bool Lra.
From Verif Require Import MiniC.
Open Scope R_scope.

Definition Rltb (x y : R) : bool := if Rlt_dec x y then true else false.
Definition Rleb (x y : R) : bool := if Rle_dec x y then true else false.
Definition Reqb (x y : R) : bool := if Req_EM_T x y then true else false.

Definition Rfloor (x : R) : R := IZR (Int_part x).
(** truncation towards zero *)
Definition Rtrunc (x : R) : R := if Rltb x 0 then - Rfloor (- x) else Rfloor x.

Definition Ratan2 (y x : R) : R :=
  if Rltb 0 x then atan (y / x)
  else if Rltb x 0 then if Rleb 0 y then atan (y / x) + PI else atan (y / x) - PI
  else if Rltb 0 y then PI / 2 else if Rltb y 0 then - PI / 2 else 0.

Definition R_op1 (o : op1) (x : R) : R :=
  match o with
  | ONeg => - x | OAbs => Rabs x | OSqrt => sqrt x
  | OSin => sin x | OCos => cos x | OTan => tan x | OAsin => asin x | OAcos => acos x | OAtan => atan x
  | OFloor => Rfloor x | OModf => x - Rtrunc x | OModi => Rtrunc x
  | ORcp => / x        (* the hardware estimate is idealised to the exact reciprocal *)
  end.
Definition R_ok1 (o : op1) (x : R) : bool :=
  match o with
  | OSqrt => Rleb 0 x
  | OTan => negb (Reqb (cos x) 0)
  | OAsin | OAcos => Rleb (-1) x && Rleb x 1
  | ORcp => negb (Reqb x 0)
  | _ => true
  end.
Definition R_op2 (o : op2) (x y : R) : R :=
  match o with
  | OAdd => x + y | OSub => x - y | OMul => x * y | ODiv => x / y
  | OAtan2 => Ratan2 x y
  | OFmod => x - y * Rtrunc (x / y)
  | OPow => Rpower x y
  | OFmin => Rmin x y | OMinN => Rmin x y | OMaxN => Rmax x y
  end.
Definition R_ok2 (o : op2) (x y : R) : bool :=
  match o with
  | ODiv | OFmod => negb (Reqb y 0)
  | OPow => Rltb 0 x      (* powers of non-positive bases are not modelled over the reals *)
  | _ => true
  end.
Definition R_cmp (c : cmp) (x y : R) : bool :=
  match c with
  | CLt => Rltb x y | CLe => Rleb x y | CGt => Rltb y x | CGe => Rleb y x
  | CEq => Reqb x y | CNe => negb (Reqb x y)
  end.
Definition R_lit (n : Z) (d : positive) : R :=
  match d with xH => IZR n | _ => IZR n / IZR (Zpos d) end.

Definition RS : Scalar := {|
  T := R;
  s_op1 := R_op1; s_ok1 := R_ok1; s_op2 := R_op2; s_ok2 := R_ok2;
  s_fma := fun a b c => a * b + c;
  s_cmp := R_cmp;
  s_test := fun _ _ => false;                (* no NaN, no infinity *)
  s_lit := R_lit;
  s_pi := fun n d => IZR n * PI / IZR (Zpos d);
  s_ofZ := IZR;
  s_toZ := fun x => Some (if Rltb x 0 then (- Int_part (- x))%Z else Int_part x)
|}.

(** ** Reading the boolean tests *)

Lemma Rltb_true : forall x y, Rltb x y = true <-> x < y.
Proof. intros. unfold Rltb. destruct (Rlt_dec x y); split; auto; try discriminate; tauto. Qed.
Lemma Rltb_false : forall x y, Rltb x y = false <-> y <= x.
Proof. intros. unfold Rltb. destruct (Rlt_dec x y); split; auto; try discriminate; lra. Qed.
Lemma Rleb_true : forall x y, Rleb x y = true <-> x <= y.
Proof. intros. unfold Rleb. destruct (Rle_dec x y); split; auto; try discriminate; tauto. Qed.
Lemma Rleb_false : forall x y, Rleb x y = false <-> y < x.
Proof. intros. unfold Rleb. destruct (Rle_dec x y); split; auto; try discriminate; lra. Qed.
Lemma Reqb_true : forall x y, Reqb x y = true <-> x = y.
Proof. intros. unfold Reqb. destruct (Req_EM_T x y); split; auto; try discriminate; tauto. Qed.
Lemma Reqb_false : forall x y, Reqb x y = false <-> x <> y.
Proof. intros. unfold Reqb. destruct (Req_EM_T x y); split; auto; try discriminate; tauto. Qed.
