(** * Tactics that prove contracts by symbolic evaluation (proof tool). *)

From Coq Require Import String List ZArith Bool.
From Verif Require Import MiniC Sym SymSound Contract SymCall RScalar.
Import ListNotations.

Ltac is_zlit z :=
  lazymatch z with
  | Z0 => idtac
  | Zpos _ => idtac
  | Zneg _ => idtac
  | _ => fail "not a literal"
  end.

Ltac rf_cells cs fs is k :=
  lazymatch cs with
  | nil => k (@nil scell) fs is
  | cons (CF ?t) ?r =>
      let n := eval cbv [length] in (length fs) in
      let fs' := eval cbv [app] in (fs ++ [t])%list in
      rf_cells r fs' is ltac:(fun r' fs2 is2 => k (cons (KF (SVar n)) r') fs2 is2)
  | cons (CI ?z) ?r =>
      tryif is_zlit z then
        rf_cells r fs is ltac:(fun r' fs2 is2 => k (cons (KI (ILit z)) r') fs2 is2)
      else
        let n := eval cbv [length] in (length is) in
        let is' := eval cbv [app] in (is ++ [z])%list in
        rf_cells r fs is' ltac:(fun r' fs2 is2 => k (cons (KI (IVar n)) r') fs2 is2)
  end.

Ltac rf_args args fs is bs k :=
  lazymatch args with
  | nil => k (@nil sarg) fs is bs
  | cons ?a ?r =>
    lazymatch a with
    | In ?cs => rf_cells cs fs is ltac:(fun c fs is => rf_args r fs is bs ltac:(fun r' fs2 is2 bs2 => k (cons (SIn c) r') fs2 is2 bs2))
    | InA ?cs => rf_cells cs fs is ltac:(fun c fs is => rf_args r fs is bs ltac:(fun r' fs2 is2 bs2 => k (cons (SInA c) r') fs2 is2 bs2))
    | InOut ?cs => rf_cells cs fs is ltac:(fun c fs is => rf_args r fs is bs ltac:(fun r' fs2 is2 bs2 => k (cons (SInOut c) r') fs2 is2 bs2))
    | Out ?n => rf_args r fs is bs ltac:(fun r' fs2 is2 bs2 => k (cons (SOut n) r') fs2 is2 bs2)
    | Val (VF ?t) =>
      let n := eval cbv [length] in (length fs) in
      let fs' := eval cbv [app] in (fs ++ [t])%list in
      rf_args r fs' is bs ltac:(fun r' fs2 is2 bs2 => k (cons (SVal (XF (SVar n))) r') fs2 is2 bs2)
    | Val (VI ?z) =>
      tryif is_zlit z then
        rf_args r fs is bs ltac:(fun r' fs2 is2 bs2 => k (cons (SVal (XI (ILit z))) r') fs2 is2 bs2)
      else
        let n := eval cbv [length] in (length is) in
        let is' := eval cbv [app] in (is ++ [z])%list in
        rf_args r fs is' bs ltac:(fun r' fs2 is2 bs2 => k (cons (SVal (XI (IVar n))) r') fs2 is2 bs2)
    | Val (VB true) => rf_args r fs is bs ltac:(fun r' fs2 is2 bs2 => k (cons (SVal (XB (BLit true))) r') fs2 is2 bs2)
    | Val (VB false) => rf_args r fs is bs ltac:(fun r' fs2 is2 bs2 => k (cons (SVal (XB (BLit false))) r') fs2 is2 bs2)
    | Val (VB ?b) =>
        let n := eval cbv [length] in (length bs) in
        let bs' := eval cbv [app] in (bs ++ [b])%list in
        rf_args r fs is bs' ltac:(fun r' fs2 is2 bs2 => k (cons (SVal (XB (BVar n))) r') fs2 is2 bs2)
    | Val VNull => rf_args r fs is bs ltac:(fun r' fs2 is2 bs2 => k (cons (SVal XNull) r') fs2 is2 bs2)
    | Val (VA ?cs) => rf_cells cs fs is ltac:(fun c fs is => rf_args r fs is bs ltac:(fun r' fs2 is2 bs2 => k (cons (SVal (XA c)) r') fs2 is2 bs2))
    end
  end.

Ltac sym_den :=
  cbv beta iota zeta delta [imps with_binds tprop fden bden iden mk a_f a_i a_b a_c nth app map cden vden lden
     fst snd length mden].

Ltac sym_obl :=
  let t := fresh "t" in let n := fresh "n" in let w := fresh "w" in
  let e := fresh "e" in let wi := fresh "wi" in
  let H := fresh "H" in let He := fresh "He" in let Hw := fresh "Hw" in
  intros t n w e wi H He Hw;
  cbv [length] in H;
  vm_compute in H; vm_compute in He; vm_compute in Hw;
  injection H; clear H; intros; subst t n w e wi;
  split; [vm_compute; reflexivity|];
  intros ? ? ?;
  sym_den.

(** [sym_with K]: reduce a contract to one goal per aliasing pattern, each of the form
    "equations from aliasing -> let-bindings -> guards /\ results are as claimed". *)
Ltac sym_with K :=
  lazymatch goal with
  | |- computes ?S ?f ?args0 ?ret ?outs =>
    let args := eval cbv [fl il map app] in args0 in
    let Fl := constr:(@nil (T S)) in
    rf_args args Fl (@nil Z) (@nil bool) ltac:(fun sargs fs is bs =>
      apply (computes_intro S K f sargs args0 ret outs is bs fs);
      [ intros; reflexivity
      | let p := eval vm_compute in (patterns sargs) in
        change (patterns sargs) with p;
        repeat match goal with
               | |- Forall _ (cons _ _) => apply Forall_cons
               | |- Forall _ nil => apply Forall_nil
               end; sym_obl ])
  end.

(** the same for a call that ends in an error *)
Ltac symx_obl :=
  let t := fresh "t" in let n := fresh "n" in let w := fresh "w" in
  let e := fresh "e" in let H := fresh "H" in let He := fresh "He" in
  intros t n w e H He;
  cbv [length] in H;
  vm_compute in H; vm_compute in He;
  injection H; clear H; intros; subst t n w e;
  split; [vm_compute; reflexivity|];
  intros ? ? ?;
  cbv beta iota zeta delta [tfail]; sym_den.
Ltac symx_with K :=
  lazymatch goal with
  | |- aborts ?S ?f ?args0 ?x =>
    let args := eval cbv [fl il map app] in args0 in
    let Fl := constr:(@nil (T S)) in
    rf_args args Fl (@nil Z) (@nil bool) ltac:(fun sargs fs is bs =>
      apply (aborts_intro S K f sargs args0 x is bs fs);
      [ intros; reflexivity
      | let p := eval vm_compute in (patterns sargs) in
        change (patterns sargs) with p;
        repeat match goal with
               | |- Forall _ (cons _ _) => apply Forall_cons
               | |- Forall _ nil => apply Forall_nil
               end; symx_obl ])
  end.
