(** * Symbolic evaluator for MiniC (a proof tool; nothing here is trusted).

    [y_call] runs a function on symbolic cells.  [SymSound.v] proves that
    whatever it computes is what [MiniC.call] computes. *)

From Coq Require Import String List ZArith Bool.
From Verif Require Import MiniC.
Import ListNotations.
Open Scope Z_scope.

Inductive sexp :=
| SVar (n : nat) | SLit (n : Z) (d : positive) | SPi (n : Z) (d : positive)
| SOp1 (o : op1) (a : sexp) | SOp2 (o : op2) (a b : sexp) | SFma (a b c : sexp)
| SIte (c : bexp) (a b : sexp) | SOfZ (i : iexp)
with bexp :=
| BLit (b : bool) | BVar (n : nat)
| BCmpF (c : cmp) (a b : sexp) | BTest (t : ftest) (a : sexp) | BCmpI (c : cmp) (a b : iexp)
| BNot (a : bexp) | BIte (c a b : bexp)
| BOk1 (o : op1) (a : sexp) | BOk2 (o : op2) (a b : sexp) | BIn (i : iexp)
with iexp :=
| ILit (z : Z) | IVar (n : nat) | IOp (o : ibin) (a b : iexp) | INeg (a : iexp) | IAbs (a : iexp)
| IOfB (b : bexp) | IIte (c : bexp) (a b : iexp).

Scheme sexp_m := Induction for sexp Sort Prop
  with bexp_m := Induction for bexp Sort Prop
  with iexp_m := Induction for iexp Sort Prop.
Combined Scheme sbi_ind from sexp_m, bexp_m, iexp_m.

Inductive slane := YF (s : sexp) | YS (b : bool) | YM (b : bexp) | YSel (b : bexp) (s : sexp).

Inductive scell :=
| KU | KF (s : sexp) | KI (i : iexp) | KP (b : nat) (o : Z) | KOpq (n : nat) | KIte (c : bexp) (a b : scell).

Inductive sval :=
| XU | XVoid | XF (s : sexp) | XI (i : iexp) | XB (b : bexp) | XP (b : nat) (o : Z) | XNull
| XV (l : list slane) | XT (l : list (list slane)) | XA (l : list scell)
| XIte (c : bexp) (a b : sval).

Definition smem := list (list scell).
Definition senv := list (string * sval).
Inductive sflow := YNext | YRet (v : sval).

(** ** Decidable equality (sound, not necessarily complete) *)

Definition op1_eqb (a b : op1) : bool :=
  match a, b with
  | ONeg, ONeg | OAbs, OAbs | OSqrt, OSqrt | OSin, OSin | OCos, OCos | OTan, OTan | OAsin, OAsin
  | OAcos, OAcos | OAtan, OAtan | OFloor, OFloor | OModf, OModf | OModi, OModi | ORcp, ORcp => true
  | _, _ => false
  end.
Definition op2_eqb (a b : op2) : bool :=
  match a, b with
  | OAdd, OAdd | OSub, OSub | OMul, OMul | ODiv, ODiv | OAtan2, OAtan2 | OFmod, OFmod | OPow, OPow
  | OFmin, OFmin | OMinN, OMinN | OMaxN, OMaxN => true
  | _, _ => false
  end.
Definition cmp_eqb (a b : cmp) : bool :=
  match a, b with
  | CLt, CLt | CLe, CLe | CGt, CGt | CGe, CGe | CEq, CEq | CNe, CNe => true | _, _ => false
  end.
Definition ftest_eqb (a b : ftest) : bool :=
  match a, b with TNan, TNan | TInf, TInf => true | _, _ => false end.
Definition ibin_eqb (a b : ibin) : bool :=
  match a, b with
  | IAdd, IAdd | ISub, ISub | IMul, IMul | IDiv, IDiv | IRem, IRem | IAnd, IAnd | IOr, IOr
  | IShl, IShl | IShr, IShr => true
  | _, _ => false
  end.

Fixpoint sexp_eqb (a b : sexp) : bool :=
  match a, b with
  | SVar n, SVar m => Nat.eqb n m
  | SLit n d, SLit m e => (n =? m) && Pos.eqb d e
  | SPi n d, SPi m e => (n =? m) && Pos.eqb d e
  | SOp1 o x, SOp1 p y => op1_eqb o p && sexp_eqb x y
  | SOp2 o x y, SOp2 p z w => op2_eqb o p && sexp_eqb x z && sexp_eqb y w
  | SFma x y z, SFma x' y' z' => sexp_eqb x x' && sexp_eqb y y' && sexp_eqb z z'
  | SIte c x y, SIte c' x' y' => bexp_eqb c c' && sexp_eqb x x' && sexp_eqb y y'
  | SOfZ i, SOfZ j => iexp_eqb i j
  | _, _ => false
  end
with bexp_eqb (a b : bexp) : bool :=
  match a, b with
  | BLit x, BLit y => Bool.eqb x y
  | BVar n, BVar m => Nat.eqb n m
  | BCmpF c x y, BCmpF d z w => cmp_eqb c d && sexp_eqb x z && sexp_eqb y w
  | BTest t x, BTest u y => ftest_eqb t u && sexp_eqb x y
  | BCmpI c x y, BCmpI d z w => cmp_eqb c d && iexp_eqb x z && iexp_eqb y w
  | BNot x, BNot y => bexp_eqb x y
  | BIte c x y, BIte c' x' y' => bexp_eqb c c' && bexp_eqb x x' && bexp_eqb y y'
  | BOk1 o x, BOk1 p y => op1_eqb o p && sexp_eqb x y
  | BOk2 o x y, BOk2 p z w => op2_eqb o p && sexp_eqb x z && sexp_eqb y w
  | BIn i, BIn j => iexp_eqb i j
  | _, _ => false
  end
with iexp_eqb (a b : iexp) : bool :=
  match a, b with
  | ILit x, ILit y => x =? y
  | IVar n, IVar m => Nat.eqb n m
  | IOp o x y, IOp p z w => ibin_eqb o p && iexp_eqb x z && iexp_eqb y w
  | INeg x, INeg y => iexp_eqb x y
  | IAbs x, IAbs y => iexp_eqb x y
  | IOfB x, IOfB y => bexp_eqb x y
  | IIte c x y, IIte c' x' y' => bexp_eqb c c' && iexp_eqb x x' && iexp_eqb y y'
  | _, _ => false
  end.

Definition slane_eqb (a b : slane) : bool :=
  match a, b with
  | YF x, YF y => sexp_eqb x y
  | YS x, YS y => Bool.eqb x y
  | YM x, YM y => bexp_eqb x y
  | YSel b x, YSel c y => bexp_eqb b c && sexp_eqb x y
  | _, _ => false
  end.

Fixpoint scell_eqb (a b : scell) : bool :=
  match a, b with
  | KU, KU => true
  | KF x, KF y => sexp_eqb x y
  | KI x, KI y => iexp_eqb x y
  | KP b o, KP c p => Nat.eqb b c && (o =? p)
  | KOpq n, KOpq m => Nat.eqb n m
  | KIte c x y, KIte c' x' y' => bexp_eqb c c' && scell_eqb x x' && scell_eqb y y'
  | _, _ => false
  end.

Fixpoint list_eqb {A} (e : A -> A -> bool) (a b : list A) : bool :=
  match a, b with
  | [], [] => true
  | x :: a', y :: b' => e x y && list_eqb e a' b'
  | _, _ => false
  end.

Fixpoint sval_eqb (a b : sval) : bool :=
  match a, b with
  | XU, XU | XVoid, XVoid | XNull, XNull => true
  | XF x, XF y => sexp_eqb x y
  | XI x, XI y => iexp_eqb x y
  | XB x, XB y => bexp_eqb x y
  | XP b o, XP c p => Nat.eqb b c && (o =? p)
  | XV x, XV y => list_eqb slane_eqb x y
  | XT x, XT y => list_eqb (list_eqb slane_eqb) x y
  | XA x, XA y => list_eqb scell_eqb x y
  | XIte c x y, XIte c' x' y' => bexp_eqb c c' && sval_eqb x x' && sval_eqb y y'
  | _, _ => false
  end.

(** ** Smart constructors *)

Definition mkNot (b : bexp) : bexp :=
  match b with BLit x => BLit (negb x) | BNot x => x | _ => BNot b end.
Definition mkBIte (c a b : bexp) : bexp :=
  match c with
  | BLit true => a
  | BLit false => b
  | _ => if bexp_eqb a b then a else
         match a, b with BLit true, BLit false => c | BLit false, BLit true => mkNot c | _, _ => BIte c a b end
  end.
Definition mkSIte (c : bexp) (a b : sexp) : sexp :=
  match c with
  | BLit true => a
  | BLit false => b
  | _ => if sexp_eqb a b then a else SIte c a b
  end.
Definition mkIIte (c : bexp) (a b : iexp) : iexp :=
  match c with
  | BLit true => a
  | BLit false => b
  | _ => if iexp_eqb a b then a else IIte c a b
  end.
Definition iop_z (o : ibin) (a b : Z) : Z :=
  match o with
  | IAdd => a + b | ISub => a - b | IMul => a * b | IDiv => Z.quot a b | IRem => Z.rem a b
  | IAnd => Z.land a b | IOr => Z.lor a b | IShl => Z.shiftl a b | IShr => Z.shiftr a b
  end.
Definition mkIOp (o : ibin) (a b : iexp) : iexp :=
  match a, b with ILit x, ILit y => ILit (iop_z o x y) | _, _ => IOp o a b end.
Definition mkINeg (a : iexp) : iexp := match a with ILit x => ILit (- x) | _ => INeg a end.
Definition mkIAbs (a : iexp) : iexp := match a with ILit x => ILit (Z.abs x) | _ => IAbs a end.
Definition mkIOfB (b : bexp) : iexp := match b with BLit x => ILit (b2z x) | _ => IOfB b end.
Definition mkCmpI (c : cmp) (a b : iexp) : bexp :=
  match a, b with ILit x, ILit y => BLit (icmp c x y) | _, _ => BCmpI c a b end.

(** static range of an int expression *)
Fixpoint irange (i : iexp) : option (Z * Z) :=
  match i with
  | ILit z => Some (z, z)
  | IOfB _ => Some (0, 1)
  | INeg a => match irange a with Some (l, h) => Some (- h, - l) | None => None end
  | IOp IAdd a b => match irange a, irange b with Some (l, h), Some (l', h') => Some (l + l', h + h') | _, _ => None end
  | IOp ISub a b => match irange a, irange b with Some (l, h), Some (l', h') => Some (l - h', h - l') | _, _ => None end
  | IIte _ a b => match irange a, irange b with Some (l, h), Some (l', h') => Some (Z.min l l', Z.max h h') | _, _ => None end
  | _ => None
  end.
Definition mkIn (i : iexp) : bexp :=
  match irange i with
  | Some (l, h) => if in_int l && in_int h then BLit true else BIn i
  | None => BIn i
  end.

(** ** Outcome trees and the monad *)

Inductive tree (A : Type) :=
| TLeaf (a : A)
| TErr                                   (* the evaluator gives up: no claim *)
| TIf (b : bexp) (t u : tree A)
| TGuard (e : err) (g : bexp) (t : tree A).   (* error [e] unless [g] *)
Arguments TLeaf {A}. Arguments TErr {A}. Arguments TIf {A}. Arguments TGuard {A}.

Definition mkIf {A} (b : bexp) (t u : tree A) : tree A :=
  match b with BLit true => t | BLit false => u | _ => TIf b t u end.
Definition mkGuard {A} (e : err) (g : bexp) (t : tree A) : tree A :=
  match g with BLit true => t | _ => TGuard e g t end.

(** A computation takes the next fresh variable and returns, besides its outcomes, the
    next fresh variable and the let-bindings (variable, expression) it made. *)
Definition binds := list (nat * sexp).
Definition M A := nat -> tree A * nat * binds.
Definition ret {A} (a : A) : M A := fun n => (TLeaf a, n, []).
Definition fail {A} : M A := fun n => (TErr, n, []).

Fixpoint tbind {A B} (t : tree A) (k : A -> M B) (n : nat) {struct t} : tree B * nat * binds :=
  match t with
  | TLeaf a => k a n
  | TErr => (TErr, n, [])
  | TIf b t u =>
    let '(t', n1, w1) := tbind t k n in
    let '(u', n2, w2) := tbind u k n1 in
    (mkIf b t' u', n2, w1 ++ w2)
  | TGuard e g t => let '(t', n1, w1) := tbind t k n in (mkGuard e g t', n1, w1)
  end.
Definition mbind {A B} (m : M A) (k : A -> M B) : M B :=
  fun n => let '(t, n1, w1) := m n in let '(u, n2, w2) := tbind t k n1 in (u, n2, w1 ++ w2).
Notation "'let*' x := m 'in' k" := (mbind m (fun x => k)) (at level 200, x pattern, m at level 100, k at level 200).

Definition guard (e : err) (g : bexp) : M unit := fun n => (mkGuard e g (TLeaf tt), n, []).
Definition branch {A} (b : bexp) (m1 m2 : M A) : M A :=
  fun n => match b with
           | BLit true => m1 n
           | BLit false => m2 n
           | _ => let '(t, n1, w1) := m1 n in let '(u, n2, w2) := m2 n1 in (TIf b t u, n2, w1 ++ w2)
           end.
Definition mopt {A} (o : option A) : M A := match o with Some a => ret a | None => fail end.

(** collapsing trees *)
Fixpoint strip {A} (t : tree A) : list (err * bexp) * tree A :=
  match t with TGuard e g t => let (gs, u) := strip t in ((e, g) :: gs, u) | _ => ([], t) end.
Fixpoint guards {A} (gs : list (err * bexp)) (t : tree A) : tree A :=
  match gs with [] => t | (e, g) :: gs' => mkGuard e g (guards gs' t) end.
Definition imp (b : bexp) (eg : err * bexp) : err * bexp := (fst eg, mkBIte b (snd eg) (BLit true)).

Fixpoint collapse {A} (join : bexp -> A -> A -> option A) (t : tree A) : tree A :=
  match t with
  | TLeaf a => TLeaf a
  | TErr => TErr
  | TGuard e g t => TGuard e g (collapse join t)
  | TIf b t u =>
    let t' := collapse join t in
    let u' := collapse join u in
    let (g1, c1) := strip t' in
    let (g2, c2) := strip u' in
    match c1, c2 with
    | TErr, TErr => TErr
    | TLeaf a1, TLeaf a2 =>
      match join b a1 a2 with
      | Some a => guards (map (imp b) g1 ++ map (imp (mkNot b)) g2) (TLeaf a)
      | None => TIf b t' u'
      end
    | _, _ => TIf b t' u'
    end
  end.

(** ** Joins *)

Definition join_lane (c : bexp) (a b : slane) : option slane :=
  match a, b with
  | YF x, YF y => Some (YF (mkSIte c x y))
  | YM x, YM y => Some (YM (mkBIte c x y))
  | _, _ => if slane_eqb a b then Some a else None
  end.
Fixpoint mapo2 {A} (f : A -> A -> option A) (a b : list A) : option (list A) :=
  match a, b with
  | [], [] => Some []
  | x :: a', y :: b' => match f x y, mapo2 f a' b' with Some z, Some c => Some (z :: c) | _, _ => None end
  | _, _ => None
  end.
Definition join_cell (c : bexp) (a b : scell) : scell :=
  match a, b with
  | KF x, KF y => KF (mkSIte c x y)
  | KI x, KI y => KI (mkIIte c x y)
  | _, _ => if scell_eqb a b then a else KIte c a b
  end.
Definition join_val (c : bexp) (a b : sval) : sval :=
  let dflt := if sval_eqb a b then a else XIte c a b in
  match a, b with
  | XF x, XF y => XF (mkSIte c x y)
  | XI x, XI y => XI (mkIIte c x y)
  | XB x, XB y => XB (mkBIte c x y)
  | XV x, XV y => match mapo2 (join_lane c) x y with Some l => XV l | None => dflt end
  | XA x, XA y => match mapo2 (fun a b => Some (join_cell c a b)) x y with Some l => XA l | None => dflt end
  | _, _ => dflt
  end.
Definition join_mem (c : bexp) (a b : smem) : option smem :=
  mapo2 (mapo2 (fun x y => Some (join_cell c x y))) a b.
Definition join_env (c : bexp) (a b : senv) : option senv :=
  mapo2 (fun p q => if String.eqb (fst p) (fst q) then Some (fst p, join_val c (snd p) (snd q)) else None) a b.

Definition join_vm (c : bexp) (a b : sval * smem) : option (sval * smem) :=
  match join_mem c (snd a) (snd b) with
  | Some m => Some (join_val c (fst a) (fst b), m)
  | None => None
  end.
Definition join_flow (c : bexp) (a b : sflow) : option sflow :=
  match a, b with
  | YNext, YNext => Some YNext
  | YRet x, YRet y => Some (YRet (join_val c x y))
  | _, _ => None
  end.
Definition join_exec (c : bexp) (a b : sflow * senv * smem) : option (sflow * senv * smem) :=
  let '(f1, r1, m1) := a in
  let '(f2, r2, m2) := b in
  match join_flow c f1 f2, join_env c r1 r2, join_mem c m1 m2 with
  | Some f, Some r, Some m => Some (f, r, m)
  | _, _, _ => None
  end.

Definition mcollapse {A} (join : bexp -> A -> A -> option A) (m : M A) : M A :=
  fun n => let '(t, n1, w1) := m n in (collapse join t, n1, w1).

(** ** Operations *)

Section Y.
Variable K : nat.               (* expressions larger than K are let-bound *)
Variable ro : list bool.        (* read-only regions *)

Fixpoint ssize (k : nat) (s : sexp) : nat :=   (* remaining budget, 0 = too large *)
  match k with
  | O => O
  | Datatypes.S k' =>
    match s with
    | SVar _ | SLit _ _ | SPi _ _ | SOfZ _ => k'
    | SOp1 _ a => ssize k' a
    | SOp2 _ a b => ssize (ssize k' a) b
    | SFma a b c => ssize (ssize (ssize k' a) b) c
    | SIte _ a b => O
    end
  end.

Definition sbind (s : sexp) : M sexp :=
  fun n => match ssize K s with
           | O => (TLeaf (SVar n), Datatypes.S n, [(n, s)])
           | _ => (TLeaf s, n, [])
           end.

Fixpoint mmap {A B} (f : A -> M B) (l : list A) : M (list B) :=
  match l with
  | [] => ret []
  | a :: l' => let* b := f a in let* bs := mmap f l' in ret (b :: bs)
  end.
Fixpoint mmap2 {A B C} (f : A -> B -> M C) (l : list A) (k : list B) : M (list C) :=
  match l, k with
  | [], [] => ret []
  | a :: l', b :: k' => let* c := f a b in let* cs := mmap2 f l' k' in ret (c :: cs)
  | _, _ => fail
  end.
Fixpoint mmap3 {A B C D} (f : A -> B -> C -> M D) (l : list A) (k : list B) (j : list C) : M (list D) :=
  match l, k, j with
  | [], [], [] => ret []
  | a :: l', b :: k', c :: j' => let* d := f a b c in let* ds := mmap3 f l' k' j' in ret (d :: ds)
  | _, _, _ => fail
  end.

Definition lbind (l : slane) : M slane :=
  match l with YF s => let* s' := sbind s in ret (YF s') | _ => ret l end.
Definition vbind (v : sval) : M sval :=
  match v with
  | XF s => let* s' := sbind s in ret (XF s')
  | XV l => let* l' := mmap lbind l in ret (XV l')
  | _ => ret v
  end.

Definition y_op1 (o : op1) (a : sexp) : M sexp :=
  if total1 o then ret (SOp1 o a) else let* _ := guard XFloatDomain (BOk1 o a) in ret (SOp1 o a).
Definition y_op2 (o : op2) (a b : sexp) : M sexp :=
  if total2 o then ret (SOp2 o a b) else let* _ := guard XFloatDomain (BOk2 o a b) in ret (SOp2 o a b).

Definition y_farith (o : ibin) (x y : sexp) : M sexp :=
  match o with
  | IAdd => y_op2 OAdd x y | ISub => y_op2 OSub x y | IMul => y_op2 OMul x y | IDiv => y_op2 ODiv x y
  | _ => fail
  end.

Definition shift_okb (b : iexp) : bexp := mkBIte (mkCmpI CLe (ILit 0) b) (mkCmpI CLt b (ILit 32)) (BLit false).

Definition y_iarith (o : ibin) (a b : iexp) : M iexp :=
  let r := mkIOp o a b in
  match o with
  | IAdd | ISub | IMul => let* _ := guard XOverflow (mkIn r) in ret r
  | IDiv => let* _ := guard XDivZero (mkNot (mkCmpI CEq b (ILit 0))) in let* _ := guard XOverflow (mkIn r) in ret r
  | IRem => let* _ := guard XDivZero (mkNot (mkCmpI CEq b (ILit 0))) in let* _ := guard XOverflow (mkIn (mkIOp IDiv a b)) in ret r
  | IAnd | IOr => ret r
  | IShl => let* _ := guard XShift (shift_okb b) in let* _ := guard XShift (mkCmpI CLe (ILit 0) a) in let* _ := guard XOverflow (mkIn r) in ret r
  | IShr => let* _ := guard XShift (shift_okb b) in ret r
  end.

Definition y_bin (o : bin) (a b : sval) : M sval :=
  match a, b with
  | XF x, XF y =>
    match o with
    | BArith o => let* z := y_farith o x y in ret (XF z)
    | BCmp c => ret (XB (BCmpF c x y))
    end
  | XI x, XI y =>
    match o with
    | BArith o => let* z := y_iarith o x y in ret (XI z)
    | BCmp c => ret (XB (mkCmpI c x y))
    end
  | _, _ => fail
  end.

Definition y_neg (a : sval) : M sval :=
  match a with
  | XF x => let* y := y_op1 ONeg x in ret (XF y)
  | XI x => let r := mkINeg x in let* _ := guard XOverflow (mkIn r) in ret (XI r)
  | _ => fail
  end.

Definition y_cast (t : cty) (a : sval) : M sval :=
  match t, a with
  | TyF, XF _ => ret a
  | TyF, XI z => ret (XF (SOfZ z))
  | TyF, XB b => ret (XF (SOfZ (mkIOfB b)))
  | TyI, XI _ => ret a
  | TyI, XB b => ret (XI (mkIOfB b))
  | TyB, XB _ => ret a
  | TyB, XI z => ret (XB (mkNot (mkCmpI CEq z (ILit 0))))
  | TyB, XP _ _ => ret (XB (BLit true))
  | TyB, XNull => ret (XB (BLit false))
  | _, _ => fail
  end.

Definition y_bool (a : sval) : M bexp := match a with XB b => ret b | _ => fail end.

Definition ylf (x : slane) : M sexp := match x with YF t => ret t | _ => fail end.
Definition y_lane1 (o : op1) (a : slane) : M slane := let* x := ylf a in let* z := y_op1 o x in ret (YF z).
Definition y_lane2 (o : op2) (a b : slane) : M slane :=
  let* x := ylf a in let* y := ylf b in let* z := y_op2 o x y in ret (YF z).
Definition y_fma (a b c : slane) : M slane :=
  let* x := ylf a in let* y := ylf b in let* z := ylf c in ret (YF (SFma x y z)).
Definition y_pick (c : cmp) (a b : slane) : M slane :=
  let* x := ylf a in let* y := ylf b in ret (YF (SIte (BCmpF c x y) x y)).
Definition y_lcmp (c : cmp) (a b : slane) : M slane :=
  let* x := ylf a in let* y := ylf b in ret (YM (BCmpF c x y)).
Definition y_xor (a b : slane) : M slane :=
  match a, b with
  | YS x, YS y => ret (YS (xorb x y))
  | YF x, YS s => if s then let* y := y_op1 ONeg x in ret (YF y) else ret (YF x)
  | YS s, YF x => if s then let* y := y_op1 ONeg x in ret (YF y) else ret (YF x)
  | _, _ => fail
  end.
Definition y_andnot (a b : slane) : M slane :=
  match a, b with
  | YS s, YF x => if s then let* y := y_op1 OAbs x in ret (YF y) else ret (YF x)
  | _, _ => fail
  end.
Definition y_and (a b : slane) : M slane :=
  match a, b with YM m, YF x => ret (YSel m x) | _, _ => fail end.
Definition y_or (a b : slane) : M slane :=
  match a, b with
  | YSel m x, YSel n y =>
    let* _ := guard XType (mkNot (mkBIte m n (BLit false))) in ret (YF (mkSIte m x (mkSIte n y (SLit 0 1))))
  | _, _ => fail
  end.

Definition y_prim (p : prim) (vs : list sval) : M sval :=
  match p, vs with
  | PF1 o, [XF x] => let* z := y_op1 o x in ret (XF z)
  | PF2 o, [XF x; XF y] => let* z := y_op2 o x y in ret (XF z)
  | PTest t, [XF x] => ret (XB (BTest t x))
  | PAbsI, [XI x] => let r := mkIAbs x in let* _ := guard XOverflow (mkIn r) in ret (XI r)
  | PV1 o, [XV a] => let* l := mmap (y_lane1 o) a in ret (XV l)
  | PV2 o, [XV a; XV b] => let* l := mmap2 (y_lane2 o) a b in ret (XV l)
  | PVfma, [XV a; XV b; XV c] => let* l := mmap3 y_fma a b c in ret (XV l)
  | PVpick c, [XV a; XV b] => let* l := mmap2 (y_pick c) a b in ret (XV l)
  | PVcmp c, [XV a; XV b] => let* l := mmap2 (y_lcmp c) a b in ret (XV l)
  | PVperm l, _ =>
    let* r := mmap (fun ik : nat * nat => match nth_error vs (fst ik) with
                            | Some (XV v) => mopt (nth_error v (snd ik))
                            | _ => fail end) l in
    ret (XV r)
  | PVmk, _ => let* r := mmap (fun v => match v with XF x => ret (YF x) | _ => fail end) vs in ret (XV r)
  | PVsplat n, [XF x] => ret (XV (repeat (YF x) n))
  | PVlane k, [XV a] => let* l := mopt (nth_error a k) in let* x := ylf l in ret (XF x)
  | PVsigns l, [] => ret (XV (map YS l))
  | PVxor, [XV a; XV b] => let* l := mmap2 y_xor a b in ret (XV l)
  | PVand, [XV a; XV b] => let* l := mmap2 y_and a b in ret (XV l)
  | PVor, [XV a; XV b] => let* l := mmap2 y_or a b in ret (XV l)
  | PVandnot, [XV a; XV b] => let* l := mmap2 y_andnot a b in ret (XV l)
  | PTup, _ => let* r := mmap (fun v => match v with XV x => ret x | _ => fail end) vs in ret (XT r)
  | PProj k, [XT l] => let* x := mopt (nth_error l k) in ret (XV x)
  | _, _ => fail
  end.

(** *** Memory *)

Fixpoint y_c2v (c : scell) : M sval :=
  match c with
  | KU | KOpq _ => fail
  | KF t => ret (XF t)
  | KI z => ret (XI z)
  | KP b o => ret (XP b o)
  | KIte c a b => branch c (y_c2v a) (y_c2v b)
  end.
Definition y_v2c (v : sval) : M scell :=
  match v with XF t => ret (KF t) | XI z => ret (KI z) | XP b o => ret (KP b o) | _ => fail end.

Definition y_ptr (v : sval) : M (nat * Z) := match v with XP b o => ret (b, o) | _ => fail end.

Definition y_mread (m : smem) (b : nat) (o : Z) : option scell :=
  if o <? 0 then None else
  match nth_error m b with
  | Some blk => nth_error blk (Z.to_nat o)
  | None => None
  end.
Definition y_mwrite (m : smem) (b : nat) (o : Z) (c : scell) : option smem :=
  if nth b ro false then None else
  match y_mread m b o with
  | None => None
  | Some _ => match nth_error m b with Some blk => Some (lset m b (lset blk (Z.to_nat o) c)) | None => None end
  end.
Fixpoint y_mreads (m : smem) (b : nat) (o : Z) (n : nat) : option (list scell) :=
  match n with
  | O => Some []
  | Datatypes.S n' =>
    match y_mread m b o, y_mreads m b (o + 1) n' with
    | Some c, Some cs => Some (c :: cs)
    | _, _ => None
    end
  end.
Fixpoint y_mwrites (m : smem) (b : nat) (o : Z) (cs : list scell) : option smem :=
  match cs with
  | [] => Some m
  | c :: cs' => match y_mwrite m b o c with Some m' => y_mwrites m' b (o + 1) cs' | None => None end
  end.

Definition y_load (m : smem) (v : sval) : M sval :=
  let* (b, o) := y_ptr v in let* c := mopt (y_mread m b o) in y_c2v c.
Definition y_store (m : smem) (p v : sval) : M smem :=
  let* (b, o) := y_ptr p in let* c := y_v2c v in mopt (y_mwrite m b o c).
Definition y_loadA (m : smem) (n : nat) (v : sval) : M sval :=
  let* (b, o) := y_ptr v in let* cs := mopt (y_mreads m b o n) in ret (XA cs).
Definition y_storeA (m : smem) (n : nat) (p v : sval) : M smem :=
  let* (b, o) := y_ptr p in
  match v with
  | XA cs => if Nat.eqb (length cs) n then mopt (y_mwrites m b o cs) else fail
  | _ => fail
  end.
Fixpoint y_c2l (c : scell) : M slane :=
  match c with KF t => ret (YF t) | KIte c a b => branch c (y_c2l a) (y_c2l b) | _ => fail end.
Definition y_loadV (m : smem) (n : nat) (v : sval) : M sval :=
  let* (b, o) := y_ptr v in let* cs := mopt (y_mreads m b o n) in
  let* l := mmap y_c2l cs in
  ret (XV l).
Definition y_storeV (m : smem) (n : nat) (p v : sval) : M smem :=
  let* (b, o) := y_ptr p in
  match v with
  | XV l =>
    if Nat.leb n (length l) then
      let* cs := mmap (fun x => let* t := ylf x in ret (KF t)) (firstn n l) in mopt (y_mwrites m b o cs)
    else fail
  | _ => fail
  end.

(** reading a variable that depends on the path taken splits *)
Fixpoint y_unite (v : sval) : M sval :=
  match v with
  | XU => fail
  | XIte c a b => branch c (y_unite a) (y_unite b)
  | _ => ret v
  end.
Definition y_var (r : senv) (x : string) : M sval :=
  match lookup x r with Some v => y_unite v | None => fail end.

(** index expressions must become literals; conditionals split *)
Fixpoint y_ilit (i : iexp) : M Z :=
  match i with
  | ILit z => ret z
  | IOfB b => branch b (ret 1) (ret 0)
  | IIte c a b => branch c (y_ilit a) (y_ilit b)
  | INeg a => let* x := y_ilit a in ret (- x)
  | IOp o a b => let* x := y_ilit a in let* y := y_ilit b in ret (iop_z o x y)
  | _ => fail
  end.

Fixpoint y_bind_params (ps : list (string * option nat)) (vs : list sval) (m : smem) : M (senv * smem) :=
  match ps, vs with
  | [], [] => ret ([], m)
  | (x, None) :: ps', v :: vs' =>
    let* (r, m') := y_bind_params ps' vs' m in ret ((x, v) :: r, m')
  | (x, Some n) :: ps', XA cs :: vs' =>
    if Nat.eqb (length cs) n then
      let* (r, m') := y_bind_params ps' vs' (m ++ [cs]) in ret ((x, XP (length m) 0) :: r, m')
    else fail
  | _, _ => fail
  end.

Fixpoint y_bind_locals (ls : list (string * option nat)) (m : smem) : senv * smem :=
  match ls with
  | [] => ([], m)
  | (x, None) :: ls' => let (r, m') := y_bind_locals ls' m in ((x, XU) :: r, m')
  | (x, Some n) :: ls' =>
    let (r, m') := y_bind_locals ls' (m ++ [repeat KU n]) in ((x, XP (length m) 0) :: r, m')
  end.

Fixpoint y_eval (e : expr) (r : senv) (m : smem) {struct e} : M (sval * smem) :=
  match e with
  | EF n d => ret (XF (SLit n d), m)
  | EPi n d => ret (XF (SPi n d), m)
  | EI z => ret (XI (ILit z), m)
  | EB b => ret (XB (BLit b), m)
  | EV x => let* v := y_var r x in ret (v, m)
  | EIx p s i =>
    let* (vp, m1) := y_eval p r m in let* (vi, m2) := y_eval i r m1 in
    let* (b, o) := y_ptr vp in
    match vi with XI k => let* z := y_ilit k in ret (XP b (o + z * s), m2) | _ => fail end
  | ELd p => mcollapse join_vm (let* (vp, m1) := y_eval p r m in let* v := y_load m1 vp in ret (v, m1))
  | ELdA n p => let* (vp, m1) := y_eval p r m in let* v := y_loadA m1 n vp in ret (v, m1)
  | EVLd n p => let* (vp, m1) := y_eval p r m in let* v := y_loadV m1 n vp in ret (v, m1)
  | EBin o a b =>
    let* (va, m1) := y_eval a r m in let* (vb, m2) := y_eval b r m1 in let* v := y_bin o va vb in ret (v, m2)
  | ENeg a => let* (va, m1) := y_eval a r m in let* v := y_neg va in ret (v, m1)
  | ENot a => let* (va, m1) := y_eval a r m in let* b := y_bool va in ret (XB (mkNot b), m1)
  | EAnd a b =>
    let* (va, m1) := y_eval a r m in let* x := y_bool va in
    mcollapse join_vm (branch x (let* (vb, m2) := y_eval b r m1 in let* y := y_bool vb in ret (XB y, m2)) (ret (XB (BLit false), m1)))
  | EOr a b =>
    let* (va, m1) := y_eval a r m in let* x := y_bool va in
    mcollapse join_vm (branch x (ret (XB (BLit true), m1)) (let* (vb, m2) := y_eval b r m1 in let* y := y_bool vb in ret (XB y, m2)))
  | ECond c a b =>
    let* (vc, m1) := y_eval c r m in let* x := y_bool vc in
    mcollapse join_vm (branch x (y_eval a r m1) (y_eval b r m1))
  | ECast t a => let* (va, m1) := y_eval a r m in let* v := y_cast t va in ret (v, m1)
  | EPrim p es => let* (vs, m1) := y_evals es r m in let* v := y_prim p vs in ret (v, m1)
  | ECall f es => let* (vs, m1) := y_evals es r m in y_call f vs m1
  end
with y_evals (es : exprs) (r : senv) (m : smem) {struct es} : M (list sval * smem) :=
  match es with
  | Enil => ret ([], m)
  | Econs e es' => let* (v, m1) := y_eval e r m in let* (vs, m2) := y_evals es' r m1 in ret (v :: vs, m2)
  end
with y_exec (s : stmt) (r : senv) (m : smem) {struct s} : M (sflow * senv * smem) :=
  match s with
  | SSkip => ret (YNext, r, m)
  | SSeq a b =>
    let* (fl, r1, m1) := y_exec a r m in
    match fl with YNext => y_exec b r1 m1 | YRet v => ret (YRet v, r1, m1) end
  | SSet x e => let* (v, m1) := y_eval e r m in let* v := vbind v in ret (YNext, assign x v r, m1)
  | SSt p e =>
    let* (vp, m1) := y_eval p r m in let* (v, m2) := y_eval e r m1 in let* v := vbind v in
    let* m3 := y_store m2 vp v in ret (YNext, r, m3)
  | SStA n p e =>
    let* (vp, m1) := y_eval p r m in let* (v, m2) := y_eval e r m1 in let* m3 := y_storeA m2 n vp v in ret (YNext, r, m3)
  | SVSt n p e =>
    let* (vp, m1) := y_eval p r m in let* (v, m2) := y_eval e r m1 in let* v := vbind v in
    let* m3 := y_storeV m2 n vp v in ret (YNext, r, m3)
  | SExp e => let* (v, m1) := y_eval e r m in ret (YNext, r, m1)
  | SIf c a b =>
    let* (vc, m1) := y_eval c r m in let* x := y_bool vc in
    mcollapse join_exec (branch x (y_exec a r m1) (y_exec b r m1))
  | SFor x lo hi body =>
    let* (vl, m1) := y_eval lo r m in let* (vh, m2) := y_eval hi r m1 in
    match vl, vh with
    | XI (ILit l), XI (ILit h) =>
      (fix loop (n : nat) (i : Z) (r : senv) (m : smem) {struct n} : M (sflow * senv * smem) :=
         match n with
         | O => ret (YNext, assign x (XI (ILit i)) r, m)
         | Datatypes.S n' =>
           let* (fl, r1, m1) := y_exec body (assign x (XI (ILit i)) r) m in
           match fl with YNext => loop n' (i + 1) r1 m1 | YRet v => ret (YRet v, r1, m1) end
         end) (Z.to_nat (h - l)) l r m2
    | _, _ => fail
    end
  | SAssert e => let* (v, m1) := y_eval e r m in let* b := y_bool v in let* _ := guard XAssert b in ret (YNext, r, m1)
  | SRet e => let* (v, m1) := y_eval e r m in ret (YRet v, r, m1)
  | SRet0 => ret (YRet XVoid, r, m)
  end
with y_call (f : fundef) (vs : list sval) (m : smem) {struct f} : M (sval * smem) :=
  match f with
  | Fun ps ls body =>
    let* (r1, m1) := y_bind_params ps vs m in
    let (r2, m2) := y_bind_locals ls m1 in
    mcollapse join_vm
      (let* (fl, _, m3) := y_exec body (r1 ++ r2) m2 in
       let m4 := firstn (length m) m3 in
       match fl with YNext => ret (XVoid, m4) | YRet v => ret (v, m4) end)
  end.

End Y.
