(** * Calls that single precision computes without rounding *)

From Coq Require Import List ZArith Reals Floats.SpecFloat.
From Verif Require Import MiniC Contract RScalar B32.
From Verif.Spec Require Import Float32 Types.
Import ListNotations.

(** the real numbers that cells, values and arguments in binary32 stand for *)
Definition real_cell (c : cell b32) : cell R :=
  match c with CF x => CF (rval x) | CI z => CI z | CP b o => CP b o | CU => CU end.
Definition real_value (v : value b32) : value R :=
  match v with
  | VF x => VF (rval x) | VI z => VI z | VB b => VB b | VP b o => VP b o | VNull => VNull | VVoid => VVoid
  | VA cs => VA (map real_cell cs)
  | _ => VU                                  (* vector registers are not passed or returned *)
  end.
Definition real_arg (a : arg b32) : arg R :=
  match a with
  | In cs => In (map real_cell cs) | InA cs => InA (map real_cell cs) | InOut cs => InOut (map real_cell cs)
  | Out n => Out n | Val v => Val (real_value v)
  end.

(** every float in a cell, value or argument has property [P] *)
Definition cell_has (P : b32 -> Prop) (c : cell b32) : Prop := match c with CF x => P x | CI _ => True | _ => False end.
Definition value_has (P : b32 -> Prop) (v : value b32) : Prop :=
  match v with VF x => P x | VA cs => Forall (cell_has P) cs | VI _ | VB _ | VVoid => True | _ => False end.
Definition arg_has (P : b32 -> Prop) (a : arg b32) : Prop :=
  match a with In cs | InA cs | InOut cs => Forall (cell_has P) cs | Out _ => True | Val v => value_has P v end.

(** [exact P (f, ps)]: on arguments whose floats have property [P], wherever they are placed, [f] in
    single precision returns, and what it returns and writes are numbers, the very ones that [f] in
    exact arithmetic returns and writes; that includes that no intermediate result overflows and
    that every test goes the same way. *)
Definition exact (P : b32 -> Prop) (d : fundef * list param) : Prop :=
  let '(f, ps) := d in
  forall l args m rm pl, Forall2 fits ps args -> Forall (arg_has P) args ->
  layout m args pl -> layout rm (map real_arg args) pl ->
  exists v outs,
    call (B32 l) f (actuals args pl) m = Ok (v, upds m (combine (wptrs args pl) outs)) /\
    call RS f (actuals (map real_arg args) pl) rm =
      Ok (real_value v, upds rm (combine (wptrs args pl) (map (map real_cell) outs))) /\
    value_has number v /\ Forall (Forall (cell_has number)) outs /\
    map (@length _) outs = map size (filter written args).

(** an integer of magnitude at most [n] *)
Definition integer (n : Z) (x : b32) : Prop := number x /\ exists z, rval x = IZR z /\ (Z.abs z <= n)%Z.
(** the binary32 nearest to an integer *)
Definition bz (z : Z) : b32 := binary_normalize prec emax z 0 false.

(** [exact_values P (f, ps)]: the same for arguments that overlap nothing that is written, with the
    results as values that do not depend on the memory *)
Definition exact_values (P : b32 -> Prop) (d : fundef * list param) : Prop :=
  let '(f, ps) := d in
  forall l args, Forall2 fits ps args -> Forall (arg_has P) args ->
  exists v outs,
    computes (B32 l) f args v outs /\
    computes RS f (map real_arg args) (real_value v) (map (map real_cell) outs) /\
    value_has number v /\ Forall (Forall (cell_has number)) outs /\
    map (@length _) outs = map size (filter written args).
(** the parameters with every pointer that is only read kept apart from those that are written *)
Definition kept_apart (d : fundef * list param) : fundef * list param :=
  (fst d, map (fun p => match p with Reads t n => Apart t n | _ => p end) (snd d)).
