(** * Two functions with the same outcome on given arguments *)

From Coq Require Import List.
From Verif Require Import MiniC Contract.

(** the same outcome (returned value and final memory, or error) in every memory and for every
    placement of the arguments *)
Definition agree (S : Scalar) (f g : fundef) (args : list (arg (T S))) : Prop :=
  forall m ps, layout m args ps -> call S f (actuals args ps) m = call S g (actuals args ps) m.

(** what a call does, as a value *)
Inductive outcome (F : Type) :=
| Returns (ret : value F) (outs : list (list (cell F)))   (* returned value, contents of the written regions *)
| Fails (x : err).
Arguments Returns {F}. Arguments Fails {F}.

(** [f] on [args] has outcome [o], in every memory and for every placement *)
Definition has_outcome (S : Scalar) (f : fundef) (args : list (arg (T S))) (o : outcome (T S)) : Prop :=
  match o with Returns ret outs => computes S f args ret outs | Fails x => aborts S f args x end.

(** the last written region becomes the returned structure *)
Definition as_value {F} (o : outcome F) : outcome F :=
  match o with Returns _ outs => Returns (VA (last outs nil)) (removelast outs) | Fails x => Fails x end.

(** the array function [g] on [ag] and the function [f] on [af] have the same outcome *)
Definition same S (g : fundef) ag (f : fundef) af : Prop := exists o, has_outcome S g ag o /\ has_outcome S f af o.
(** ... where [f] returns what [g] writes last *)
Definition same_value S (g : fundef) ag (f : fundef) af : Prop := exists o, has_outcome S g ag o /\ has_outcome S f af (as_value o).
