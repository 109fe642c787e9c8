(** What a contract says, cell by cell, and that the premises about memory can be met.

    These two theorems are not properties of cglm; they show that [computes], the form in
    which the properties are stated, has the intended meaning and is never vacuous. *)

From Coq Require Import List ZArith.
From Verif Require Import MiniC Contract.
From Verif.Proofs Require Import Layout.
Import ListNotations.
Open Scope Z_scope.

(** A contract promises: the call returns [ret] without undefined behaviour, every written
    object then holds its output, no block changes size, and every cell outside the written
    objects keeps its contents. *)
Theorem computes_cells : forall S f args ret outs, computes S f args ret outs ->
  map (@length _) outs = map size (filter written args) ->
  forall m ps, layout m args ps ->
  exists m', call S f (actuals args ps) m = Ok (ret, m') /\
    Forall2 (holds m') (wptrs args ps) outs /\
    map (@length _) m' = map (@length _) m /\
    (forall b o, (forall i a p, nth_error args i = Some a -> nth_error ps i = Some p -> written a = true ->
                    ~ inside p (size a) b o) ->
       mread m' b o = mread m b o).
Proof. exact computes_cells_ok. Qed.
Print Assumptions computes_cells.

(** Every argument list can be laid out in some memory. *)
Theorem layout_exists : forall F (args : list (arg F)), exists m ps, layout m args ps.
Proof. exact @layout_exists_ok. Qed.
Print Assumptions layout_exists.

(** Also with the destination being one of the operands. *)
Theorem layout_in_place : forall F (x y : list (cell F)), exists m ps,
  layout m [InA x; InA y; Out (length x)] ps /\ nth_error ps 0 = nth_error ps 2.
Proof. exact @layout_in_place_ok. Qed.
Print Assumptions layout_in_place.
