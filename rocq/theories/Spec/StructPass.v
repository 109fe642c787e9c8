(** * How a function of the struct API passes its operands on

    A struct function takes structures by value and returns a structure; the array function
    takes pointers.  [transfers f g w] says that whatever contract the array function [g]
    satisfies when its operands are the copies made by the call (so they overlap nothing),
    the struct function [f] satisfies for operands passed by value: it returns the cells
    that [g] writes, and the caller's memory is changed only through pointer operands. *)

From Coq Require Import List ZArith.
From Verif Require Import MiniC Contract.
Import ListNotations.

(** [operands ks afs ags]: the operands of the struct function and of the array function;
    [None] = scalar or pointer, the same for both; [Some n] = structure of [n] cells *)
Inductive operands {F} : list (option nat) -> list (arg F) -> list (arg F) -> Prop :=
| ops_nil : operands [] [] []
| ops_same : forall a ks afs ags, a <> Val VU -> (pointer a = true -> size a <> O) ->
    operands ks afs ags -> operands (None :: ks) (a :: afs) (a :: ags)
| ops_copy : forall cs b ks afs ags, b = In cs \/ b = InA cs \/ b = InOut cs ->
    operands ks afs ags -> operands (Some (length cs) :: ks) (Val (VA cs) :: afs) (b :: ags).

(** of the regions written by the array function, those the caller of the struct function can see *)
Fixpoint kept {F} (afs ags : list (arg F)) (outs : list (list (cell F))) : list (list (cell F)) :=
  match afs, ags, outs with
  | a :: afs', b :: ags', o :: outs' =>
    if written b then if written a then o :: kept afs' ags' outs' else kept afs' ags' outs' else kept afs' ags' outs
  | _, _, _ => []
  end.
Definition sized {F} (args : list (arg F)) (outs : list (list (cell F))) : Prop :=
  map (@length _) outs = map size (filter written args).

Inductive result :=
| Dest (n : nat)      (* the result is an extra last operand of the array function *)
| DestFirst (n : nat) (* ... an extra first operand *)
| InPlace (k : nat)   (* the result is operand [k], which the array function overwrites *)
| Returned            (* the value returned by the array function *)
| Nothing.

Definition kinds (f : fundef) : list (option nat) := match f with Fun ps _ _ => map snd ps end.

Definition transfers (f g : fundef) (w : result) : Prop :=
  forall (S : Scalar) afs ags outs ret, operands (kinds f) afs ags -> sized ags outs ->
  match w with
  | Dest n => forall out, length out = n ->
      computes S g (ags ++ [Out n]) ret (outs ++ [out]) -> computes S f afs (VA out) (kept afs ags outs)
  | DestFirst n => forall out, length out = n ->
      computes S g (Out n :: ags) ret (out :: outs) -> computes S f afs (VA out) (kept afs ags outs)
  | InPlace k => forall cs out, nth_error ags k = Some (InOut cs) -> nth_error outs (length (filter written (firstn k ags))) = Some out ->
      computes S g ags ret outs -> computes S f afs (VA out) (kept afs ags outs)
  | Returned => computes S g ags ret outs -> computes S f afs ret (kept afs ags outs)
  | Nothing => computes S g ags ret outs -> computes S f afs VVoid (kept afs ags outs)
  end.

(** [f] satisfies every contract of [g] whose operands fit the parameters *)
Definition stands_for (f g : fundef) : Prop := forall (S : Scalar) afs ags ret outs,
  operands (kinds f) afs ags -> computes S g afs ret outs -> computes S f afs ret outs.
