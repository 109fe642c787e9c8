(** * Small C callers used to state what happens when two parameters are the same object *)

From Coq Require Import String List.
From Verif Require Import MiniC.
Import ListNotations.
Local Open Scope string_scope.

(** [void g(m) { f(m, m); }] *)
Definition call_xx (f : fundef) : fundef :=
  Fun [("x", None)] [] (SExp (ECall f (Econs (EV "x") (Econs (EV "x") Enil)))).
(** [void g(x, y) { f(x, y, y); }] *)
Definition call_xyy (f : fundef) : fundef :=
  Fun [("x", None); ("y", None)] [] (SExp (ECall f (Econs (EV "x") (Econs (EV "y") (Econs (EV "y") Enil))))).
(** [void g(x, y) { f(x, y, x); }] *)
Definition call_xyx (f : fundef) : fundef :=
  Fun [("x", None); ("y", None)] [] (SExp (ECall f (Econs (EV "x") (Econs (EV "y") (Econs (EV "x") Enil))))).

(** [void g(ps) { f(xs); }] and [T g(ps) { return f(xs); }] for variables [xs] *)
Fixpoint vars (xs : list string) : exprs :=
  match xs with [] => Enil | x :: xs' => Econs (EV x) (vars xs') end.
Definition caller (ps : list string) (f : fundef) (xs : list string) : fundef :=
  Fun (map (fun x => (x, None)) ps) [] (SExp (ECall f (vars xs))).
Definition rcaller (ps : list string) (f : fundef) (xs : list string) : fundef :=
  Fun (map (fun x => (x, None)) ps) [] (SRet (ECall f (vars xs))).
