(** * Calls whose rounding errors stay within a fixed bound *)

From Coq Require Import List ZArith Reals Floats.SpecFloat.
From Verif Require Import MiniC Contract RScalar B32.
From Verif.Spec Require Import Float32 Types.
Import ListNotations.
Local Open Scope R_scope.

(** a binary32 cell, value or argument stands for one over the reals up to an error [d]: floats
    are numbers within [d], integers and truth values are the same *)
Definition cell_near (d : R) (c : cell b32) (r : cell R) : Prop :=
  match c, r with
  | CF x, CF y => number x /\ Rabs (rval x - y) <= d
  | CI i, CI j => i = j
  | _, _ => False
  end.
Definition value_near (d : R) (v : value b32) (w : value R) : Prop :=
  match v, w with
  | VF x, VF y => number x /\ Rabs (rval x - y) <= d
  | VI i, VI j => i = j
  | VB a, VB b => a = b
  | VVoid, VVoid => True
  | VA cs, VA rs => Forall2 (cell_near d) cs rs
  | _, _ => False
  end.
Definition arg_near (d : R) (a : arg b32) (r : arg R) : Prop :=
  match a, r with
  | In cs, In rs | InA cs, InA rs | InOut cs, InOut rs => Forall2 (cell_near d) cs rs
  | Out n, Out k => n = k
  | Val v, Val w => value_near d v w
  | _, _ => False
  end.

(** every float of a real argument is at most [M] in magnitude *)
Definition cell_upto (M : R) (c : cell R) : Prop := match c with CF y => Rabs y <= M | _ => True end.
Definition arg_upto (M : R) (a : arg R) : Prop :=
  match a with
  | In cs | InA cs | InOut cs | Val (VA cs) => Forall (cell_upto M) cs
  | Val (VF y) => Rabs y <= M
  | _ => True
  end.

(** what is asked of the functions that IEEE 754 does not fix: nothing; or sine and cosine within 2^-24 *)
Definition any_libm (l : libm) : Prop := True.
Definition accurate (l : libm) : Prop :=
  forall x, number x ->
    number (l1 l OSin x) /\ Rabs (rval (l1 l OSin x) - sin (rval x)) <= powerRZ 2 (-24) /\
    number (l1 l OCos x) /\ Rabs (rval (l1 l OCos x) - cos (rval x)) <= powerRZ 2 (-24).

(** [approximates L M d e (f, ps)]: if the floats of the arguments are within [d] of real numbers of
    magnitude at most [M], then [f] in single precision returns, without overflow, and everything
    it returns and writes is within [e] of what [f] returns and writes in exact arithmetic on the
    real numbers; wherever the arguments are placed, and with the same integers and truth values *)
Definition approximates (L : libm -> Prop) (M d e : R) (D : fundef * list param) : Prop :=
  let '(f, ps) := D in
  forall l args rargs m rm pl, L l -> Forall2 fits ps args -> Forall2 (arg_near d) args rargs -> Forall (arg_upto M) rargs ->
  layout m args pl -> layout rm rargs pl ->
  exists v w outs routs,
    call (B32 l) f (actuals args pl) m = Ok (v, upds m (combine (wptrs args pl) outs)) /\
    call RS f (actuals rargs pl) rm = Ok (w, upds rm (combine (wptrs rargs pl) routs)) /\
    value_near e v w /\ Forall2 (Forall2 (cell_near e)) outs routs /\
    map (@length _) outs = map size (filter written args).

(** the same for arguments that overlap nothing that is written, with the results as values that
    do not depend on the memory *)
Definition approximates_values (L : libm -> Prop) (M d e : R) (D : fundef * list param) : Prop :=
  let '(f, ps) := D in
  forall l args rargs, L l -> Forall2 fits ps args -> Forall2 (arg_near d) args rargs -> Forall (arg_upto M) rargs ->
  exists v w outs routs,
    computes (B32 l) f args v outs /\ computes RS f rargs w routs /\
    value_near e v w /\ Forall2 (Forall2 (cell_near e)) outs routs /\
    map (@length _) outs = map size (filter written args).

(** a binary32 number within [d] of a real number *)
Definition within (d : R) (x : b32) (y : R) : Prop := number x /\ Rabs (rval x - y) <= d.
