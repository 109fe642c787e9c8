(** * Contracts: the vocabulary in which properties of C functions are stated.

    [computes S f args ret outs] says: in every memory and for every placement of the
    pointer arguments described by [args], the call returns normally (no undefined
    behaviour), returns [ret], leaves [outs] in the written regions, and changes no other
    cell of the memory (the final memory is given exactly). *)

From Coq Require Import List ZArith.
From Verif Require Import MiniC.
Import ListNotations.
Open Scope Z_scope.

Notation ptr := (nat * Z)%type.

(** two ranges of cells that do not overlap *)
Definition apart (p : ptr) (n : nat) (q : ptr) (k : nat) : Prop :=
  fst p <> fst q \/ snd p + Z.of_nat n <= snd q \/ snd q + Z.of_nat k <= snd p.

(** cell [o] of block [b] is one of the [n] cells at [p] *)
Definition inside (p : ptr) (n : nat) (b : nat) (o : Z) : Prop :=
  b = fst p /\ snd p <= o < snd p + Z.of_nat n.

Section Contract.
Context {F : Type}.

(** overwrite cells starting at [p] *)
Definition upd (m : mem F) (p : ptr) (cs : list (cell F)) : mem F :=
  match mwrites m (fst p) (snd p) cs with Some m' => m' | None => m end.
Definition upds (m : mem F) (l : list (ptr * list (cell F))) : mem F :=
  fold_left (fun m pc => upd m (fst pc) (snd pc)) l m.

(** the cells at [p] are [cs] *)
Definition holds (m : mem F) (p : ptr) (cs : list (cell F)) : Prop :=
  mreads m (fst p) (snd p) (length cs) = Some cs.
(** there are [n] accessible cells at [p] *)
Definition valid (m : mem F) (p : ptr) (n : nat) : Prop := mreads m (fst p) (snd p) n <> None.

(** An argument of a call.  Read regions may overlap each other freely. *)
Inductive arg :=
| In (cs : list (cell F))      (* pointer to cells that are only read; apart from every written region *)
| InA (cs : list (cell F))     (* the same, but it may also be exactly a written region of the same length *)
| Out (n : nat)                (* pointer to [n] accessible cells, arbitrary (also uninitialised) contents *)
| InOut (cs : list (cell F))   (* pointer to cells that are read and written *)
| Val (v : value F).           (* argument passed by value *)

Definition size (a : arg) : nat :=
  match a with In cs | InA cs | InOut cs => length cs | Out n => n | Val _ => O end.
Definition written (a : arg) : bool := match a with Out _ | InOut _ => true | _ => false end.
Definition pointer (a : arg) : bool := match a with Val _ => false | _ => true end.
Definition aliasable (a : arg) : bool := match a with InA _ => true | _ => false end.

Definition placed (m : mem F) (a : arg) (p : ptr) : Prop :=
  match a with
  | In cs | InA cs | InOut cs => holds m p cs
  | Out n => valid m p n
  | Val _ => True
  end.

Definition compatible (a : arg) (p : ptr) (b : arg) (q : ptr) : Prop :=
  written a = true -> pointer b = true ->
  apart p (size a) q (size b) \/ (aliasable b = true /\ p = q /\ size a = size b).

Record layout (m : mem F) (args : list arg) (ps : list ptr) : Prop := {
  lay_placed : Forall2 (placed m) args ps;
  lay_compat : forall i j a b p q, i <> j ->
    nth_error args i = Some a -> nth_error args j = Some b ->
    nth_error ps i = Some p -> nth_error ps j = Some q -> compatible a p b q
}.

Definition actual (a : arg) (p : ptr) : value F := match a with Val v => v | _ => VP (fst p) (snd p) end.

Fixpoint actuals (args : list arg) (ps : list ptr) : list (value F) :=
  match args, ps with
  | a :: args', p :: ps' => actual a p :: actuals args' ps'
  | _, _ => []
  end.

(** the pointers to written regions, in order *)
Fixpoint wptrs (args : list arg) (ps : list ptr) : list ptr :=
  match args, ps with
  | a :: args', p :: ps' => if written a then p :: wptrs args' ps' else wptrs args' ps'
  | _, _ => []
  end.

End Contract.
Arguments arg : clear implicits.

Definition computes (S : Scalar) (f : fundef) (args : list (arg (T S))) (ret : value (T S))
    (outs : list (list (cell (T S)))) : Prop :=
  forall m ps, layout m args ps ->
  call S f (actuals args ps) m = Ok (ret, upds m (combine (wptrs args ps) outs)).

(** [aborts S f args x]: for every such memory and placement the call ends in error [x]
    (undefined behaviour, or over the reals an operation outside its domain). *)
Definition aborts (S : Scalar) (f : fundef) (args : list (arg (T S))) (x : err) : Prop :=
  forall m ps, layout m args ps -> call S f (actuals args ps) m = Err x.

(** errors that come from values, not from memory accesses or ill-formed programs *)
Definition arith (x : err) : bool :=
  match x with XOverflow | XDivZero | XShift | XAssert | XFloatDomain => true | _ => false end.

(** [memory_safe S f args]: for every such memory and placement the call either returns
    normally and changes only the written regions, or stops with an arithmetic error; it
    never reads or writes out of bounds, dereferences NULL or uses an uninitialised cell. *)
Definition memory_safe (S : Scalar) (f : fundef) (args : list (arg (T S))) : Prop :=
  forall m ps, layout m args ps ->
  (exists ret outs, Forall2 (fun a cs => length cs = size a) (filter written args) outs /\
     call S f (actuals args ps) m = Ok (ret, upds m (combine (wptrs args ps) outs))) \/
  (exists x, arith x = true /\ call S f (actuals args ps) m = Err x).

(** float vectors *)
Definition fl {F} (x : list F) : list (cell F) := map CF x.
Definition il {F} (x : list Z) : list (cell F) := map CI x.
