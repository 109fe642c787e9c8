(** * Polynomial normal forms of symbolic expressions over the reals (proof tool)

    Expressions become polynomials with rational coefficients over atoms.  An atom is a
    variable, an operation applied to polynomials, or the truth value (0 or 1) of a
    condition on polynomials; conditions have even numbers.  Atoms are kept in a table. *)

From Coq Require Import List ZArith QArith Qreals Reals Bool Lra Lia.
From Verif Require Import MiniC RScalar Sym SymSound SymCall.
Import ListNotations.
Local Open Scope list_scope.

(** ** Polynomials *)

Definition mono := list positive.
Definition poly := list (mono * Q).

Fixpoint mcmp (a b : mono) : comparison :=
  match a, b with
  | [], [] => Eq
  | [], _ => Lt
  | _, [] => Gt
  | x :: a', y :: b' => match Pos.compare x y with Eq => mcmp a' b' | c => c end
  end.
Definition q0 (c : Q) : bool := match Qnum c with Z0 => true | _ => false end.
Definition qeqb (a b : Q) : bool := Z.eqb (Qnum a) (Qnum b) && Pos.eqb (Qden a) (Qden b).
Definition qadd (a b : Q) : Q := Qred (Qplus a b).
Definition qmul (a b : Q) : Q := Qred (Qmult a b).
Definition qinv (a : Q) : Q := Qred (Qinv a).
Definition qneg (c : Q) : bool := match Qnum c with Zneg _ => true | _ => false end.

Definition term (m : mono) (c : Q) (p : poly) : poly := if q0 c then p else (m, c) :: p.
Fixpoint padd (p : poly) : poly -> poly :=
  match p with
  | [] => fun q => q
  | (m, c) :: p' =>
    fix aux (q : poly) : poly :=
      match q with
      | [] => (m, c) :: p'
      | (n, d) :: q' =>
        match mcmp m n with
        | Eq => term m (qadd c d) (padd p' q')
        | Lt => (m, c) :: padd p' q
        | Gt => (n, d) :: aux q'
        end
      end
  end.
Definition pscale (k : Q) (p : poly) : poly :=
  if q0 k then [] else map (fun t => (fst t, qmul k (snd t))) p.
Definition popp (p : poly) : poly := pscale (-1 # 1) p.
Definition psub (p q : poly) : poly := padd p (popp q).

(** conditions are idempotent *)
Definition idem (x : positive) : bool := match x with xO _ => true | _ => false end.
Fixpoint mmul (a : mono) : mono -> mono :=
  match a with
  | [] => fun b => b
  | x :: a' =>
    fix aux (b : mono) : mono :=
      match b with
      | [] => x :: a'
      | y :: b' =>
        match Pos.compare x y with
        | Eq => if idem x then x :: mmul a' b' else x :: y :: mmul a' b'
        | Lt => x :: mmul a' b
        | Gt => y :: aux b'
        end
      end
  end.
Fixpoint ptimes (m : mono) (c : Q) (q : poly) : poly :=
  match q with
  | [] => []
  | (n, d) :: q' => padd [(mmul m n, qmul c d)] (ptimes m c q')
  end.
Fixpoint pmul (p q : poly) : poly :=
  match p with
  | [] => []
  | (m, c) :: p' => padd (ptimes m c q) (pmul p' q)
  end.
Definition pconst (c : Q) : poly := term [] c [].
Definition patom (x : positive) : poly := [([x], 1%Q)].
Definition one : poly := [([], 1%Q)].
Definition isconst (p : poly) : option Q :=
  match p with [] => Some 0%Q | [([], c)] => Some c | _ => None end.
Fixpoint monob (a b : mono) : bool :=
  match a, b with [], [] => true | x :: a', y :: b' => Pos.eqb x y && monob a' b' | _, _ => false end.
Fixpoint peqb (p q : poly) : bool :=
  match p, q with
  | [], [] => true
  | (m, c) :: p', (n, d) :: q' => monob m n && qeqb c d && peqb p' q'
  | _, _ => false
  end.
(** a sum of squares with positive coefficients *)
Fixpoint square (m : mono) : bool :=
  match m with
  | [] => true
  | x :: m' => if idem x then square m' else match m' with y :: m'' => Pos.eqb x y && square m'' | [] => false end
  end.
Definition squares (p : poly) : bool := forallb (fun t => negb (qneg (snd t)) && square (fst t)) p.
(** completing squares: c x^2 + x r + s = c (x + r / 2c)^2 + ... *)
Fixpoint pick (p : poly) : option (positive * Q) :=
  match p with
  | [] => None
  | ([x; y], c) :: p' => if Pos.eqb x y && negb (idem x) && negb (qneg c) then Some (x, c) else pick p'
  | _ :: p' => pick p'
  end.
Fixpoint without (x : positive) (m : mono) : option mono :=
  match m with
  | [] => None
  | y :: m' => if Pos.eqb x y then Some m' else match without x m' with Some n => Some (y :: n) | None => None end
  end.
Fixpoint linear (x : positive) (p : poly) : poly :=
  match p with
  | [] => []
  | (m, c) :: p' =>
    match without x m with
    | Some n => match without x n with Some _ => linear x p' | None => padd [(n, c)] (linear x p') end
    | None => linear x p'
    end
  end.
Fixpoint nonneg_n (n : nat) (p : poly) : bool :=
  squares p ||
  match n with
  | O => false
  | S n' =>
    match pick p with
    | Some (x, c) =>
      let q := padd (patom x) (pscale (qmul (1 # 2) (qinv c)) (linear x p)) in
      nonneg_n n' (psub p (pscale c (pmul q q)))
    | None => false
    end
  end.
Definition nonneg (p : poly) : bool := nonneg_n 8 p.
Definition ltconst (p : poly) : option bool :=
  match isconst p with Some c => Some (qneg c) | None => if nonneg p then Some false else None end.
Definition lead (p : poly) : Q := match p with [] => 1%Q | (_, c) :: _ => if q0 c then 1%Q else c end.
(** the multiple with leading coefficient 1 *)
Definition monic (p : poly) : poly := pscale (qinv (lead p)) p.

(** ** Atoms *)

Inductive key :=
| KVar (n : nat) | KIVar (n : nat) | KBVar (n : nat) | KPi
| KOp1 (o : op1) (p : poly) | KOp2 (o : op2) (p q : poly)
| KLt (p : poly) | KEq (p : poly)
| KCoarse.     (* at the bottom of a table: do not multiply sums out *)
Definition keqb (a b : key) : bool :=
  match a, b with
  | KVar n, KVar m | KIVar n, KIVar m | KBVar n, KBVar m => Nat.eqb n m
  | KPi, KPi | KCoarse, KCoarse => true
  | KOp1 o p, KOp1 o' p' => op1_eqb o o' && peqb p p'
  | KOp2 o p q, KOp2 o' p' q' => op2_eqb o o' && peqb p p' && peqb q q'
  | KLt p, KLt q | KEq p, KEq q => peqb p q
  | _, _ => false
  end.
Definition table := list key.    (* latest first *)
Definition isbool (k : key) : bool := match k with KBVar _ | KLt _ | KEq _ => true | _ => false end.
Definition number (k : key) (rest : table) : positive :=
  let n := Pos.of_succ_nat (length rest) in if isbool k then xO n else xI n.
Fixpoint find (k : key) (t : table) : option positive :=
  match t with
  | [] => None
  | k' :: t' => if keqb k k' then Some (number k' t') else find k t'
  end.
Definition atom (k : key) (t : table) : poly * table :=
  match find k t with
  | Some x => (patom x, t)
  | None => (patom (number k t), k :: t)
  end.

(** ** Conditions *)

Inductive cform := FLt (p : poly) | FGe (p : poly) | FP (q : poly).   (* p < 0, ~ p < 0, q = 1 *)

Definition lt0 (p : poly) (t : table) : poly * table :=
  match ltconst p with
  | Some b => (if b then one else [], t)
  | None =>
    if qneg (lead p) then
      let (a, t1) := atom (KLt (monic p)) t in
      let (b, t2) := atom (KEq (monic p)) t1 in (psub (psub one a) b, t2)
    else atom (KLt (monic p)) t
  end.
Definition eq0 (p : poly) (t : table) : poly * table :=
  match isconst p with
  | Some c => (if q0 c then one else [], t)
  | None => atom (KEq (monic p)) t
  end.
Definition fpoly (f : cform) (t : table) : poly * table :=
  match f with
  | FLt p => lt0 p t
  | FGe p => let (q, t1) := lt0 p t in (psub one q, t1)
  | FP q => (q, t)
  end.
Definition fnot (f : cform) : cform :=
  match f with FLt p => FGe p | FGe p => FLt p | FP q => FP (psub one q) end.
(** if p < 0 then x else y *)
Definition itelt (p x y : poly) (t : table) : poly * table :=
  match ltconst p with
  | Some b => (if b then x else y, t)
  | None =>
    let d := psub x y in
    if qneg (lead p) && (match d with [] => true | _ => peqb (monic d) (monic p) end) then
      let (a, t1) := atom (KLt (monic p)) t in (padd y (pmul (psub one a) d), t1)
    else
      let (a, t1) := lt0 p t in (padd y (pmul a d), t1)
  end.
Definition fite (f : cform) (x y : poly) (t : table) : poly * table :=
  match f with
  | FLt p => itelt p x y t
  | FGe p => itelt p y x t
  | FP q => (padd y (pmul q (psub x y)), t)
  end.
Definition fcmp (c : cmp) (p q : poly) (t : table) : cform * table :=
  match c with
  | CLt => (FLt (psub p q), t)
  | CGt => (FLt (psub q p), t)
  | CLe => (FGe (psub q p), t)
  | CGe => (FGe (psub p q), t)
  | CEq => let (a, t1) := eq0 (psub p q) t in (FP a, t1)
  | CNe => let (a, t1) := eq0 (psub p q) t in (FP (psub one a), t1)
  end.

(** ** Operations *)

Definition inv (p : poly) (t : table) : poly * table :=
  match isconst p with
  | Some c => if q0 c then atom (KOp1 ORcp p) t else (pconst (qinv c), t)
  | None => let (a, t1) := atom (KOp1 ORcp (monic p)) t in (pscale (qinv (lead p)) a, t1)
  end.

(** [x * (2 - x * b)] where [x] is the reciprocal of [b] *)
Fixpoint nthkey (x : positive) (t : table) : option key :=
  match t with
  | [] => None
  | k :: t' => if Pos.eqb x (number k t') then Some k else nthkey x t'
  end.
Definition newton (p q : poly) (t : table) : bool :=
  match p, q with
  | [([x], c)], ([], d) :: _ =>
    if qeqb d 2 then
      match nthkey x t with
      | Some (KOp1 ORcp b) => peqb q (psub (pconst 2) (pmul b (patom x)))
      | _ => false
      end
    else false
  | _, _ => false
  end.
Fixpoint coarse (t : table) : bool := match t with [] => false | [KCoarse] => true | _ :: t' => coarse t' end.
Definition small (p q : poly) : bool :=
  match isconst p, isconst q with None, None => match p, q with [_], [_] => true | _, _ => false end | _, _ => true end.
Fixpoint pleb (p q : poly) : bool :=
  match p, q with
  | [], _ => true
  | _, [] => false
  | (m, _) :: p', (n, _) :: q' => match mcmp m n with Lt => true | Gt => false | Eq => pleb p' q' end
  end.
Definition nmul (p q : poly) (t : table) : poly * table :=
  if newton p q t then (p, t) else if newton q p t then (q, t)
  else if negb (small p q) && coarse t then
    if pleb p q then atom (KOp2 OMul p q) t else atom (KOp2 OMul q p) t
  else (pmul p q, t).

Definition nop1 (o : op1) (p : poly) (t : table) : poly * table :=
  match o with
  | ONeg => (popp p, t)
  | OAbs => itelt p (popp p) p t
  | ORcp => inv p t
  | _ => atom (KOp1 o p) t
  end.
Definition nop2 (o : op2) (p q : poly) (t : table) : poly * table :=
  match o with
  | OAdd => (padd p q, t)
  | OSub => (psub p q, t)
  | OMul => nmul p q t
  | ODiv => let (i, t1) := inv q t in (pmul p i, t1)
  | OFmin | OMinN => itelt (psub p q) p q t
  | OMaxN => itelt (psub q p) p q t
  | _ => atom (KOp2 o p q) t
  end.
Definition nok1 (o : op1) (p : poly) (t : table) : cform * table :=
  match o with
  | OSqrt => (FGe p, t)
  | OTan => let (c, t1) := atom (KOp1 OCos p) t in let (e, t2) := eq0 c t1 in (FP (psub one e), t2)
  | OAsin | OAcos =>
    let (a, t1) := lt0 (padd p one) t in let (b, t2) := lt0 (psub one p) t1 in
    (FP (pmul (psub one a) (psub one b)), t2)
  | ORcp => let (e, t1) := eq0 p t in (FP (psub one e), t1)
  | _ => (FP one, t)
  end.
Definition nok2 (o : op2) (p q : poly) (t : table) : cform * table :=
  match o with
  | ODiv | OFmod => let (e, t1) := eq0 q t in (FP (psub one e), t1)
  | OPow => (FLt (popp p), t)
  | _ => (FP one, t)
  end.

Definition N A := table -> option (A * table).
Definition nret {A} (a : A) : N A := fun t => Some (a, t).
Definition nlift {A} (f : table -> A * table) : N A := fun t => Some (f t).
Definition nbind {A B} (m : N A) (f : A -> N B) : N B :=
  fun t => match m t with Some (a, t1) => f a t1 | None => None end.
Definition nfail {A} : N A := fun _ => None.
Notation "'nd' x <- m ; k" := (nbind m (fun x => k)) (at level 200, x name, m at level 100, k at level 200).

Section Norm.
Variable k : nat.              (* variables from [k] on are let-bound *)
Variable w : list poly.        (* their normal forms *)

Fixpoint nS (e : sexp) : N poly :=
  match e with
  | SVar n =>
    if Nat.ltb n k then nlift (atom (KVar n))
    else match nth_error w (n - k) with Some p => nret p | None => nfail end
  | SLit n d => nret (pconst (Qred (n # d)))
  | SPi n d => nd a <- nlift (atom KPi); nret (pscale (Qred (n # d)) a)
  | SOp1 o a => nd p <- nS a; nlift (nop1 o p)
  | SOp2 o a b => nd p <- nS a; nd q <- nS b; nlift (nop2 o p q)
  | SFma a b c => nd p <- nS a; nd q <- nS b; nd r <- nS c; nd s <- nlift (nmul p q); nret (padd s r)
  | SIte c a b => nd f <- nB c; nd p <- nS a; nd q <- nS b; nlift (fite f p q)
  | SOfZ i => nI i
  end
with nB (e : bexp) : N cform :=
  match e with
  | BLit b => nret (FP (if b then one else []))
  | BVar n => nd a <- nlift (atom (KBVar n)); nret (FP a)
  | BCmpF c a b => nd p <- nS a; nd q <- nS b; nlift (fcmp c p q)
  | BTest _ _ => nret (FP [])
  | BCmpI c a b => nd p <- nI a; nd q <- nI b; nlift (fcmp c p q)
  | BNot a => nd f <- nB a; nret (fnot f)
  | BIte c a b =>
    nd f <- nB c; nd g <- nB a; nd p <- nlift (fpoly g); nd h <- nB b; nd q <- nlift (fpoly h);
    nd r <- nlift (fite f p q); nret (FP r)
  | BOk1 o a => nd p <- nS a; nlift (nok1 o p)
  | BOk2 o a b => nd p <- nS a; nd q <- nS b; nlift (nok2 o p q)
  | BIn _ => nfail
  end
with nI (e : iexp) : N poly :=
  match e with
  | ILit z => nret (pconst (z # 1))
  | IVar n => nlift (atom (KIVar n))
  | IOp IAdd a b => nd p <- nI a; nd q <- nI b; nret (padd p q)
  | IOp ISub a b => nd p <- nI a; nd q <- nI b; nret (psub p q)
  | IOp IMul a b => nd p <- nI a; nd q <- nI b; nret (pmul p q)
  | IOp _ _ _ => nfail
  | INeg a => nd p <- nI a; nret (popp p)
  | IAbs a => nd p <- nI a; nlift (nop1 OAbs p)
  | IOfB b => nd f <- nB b; nlift (fpoly f)
  | IIte c a b => nd f <- nB c; nd p <- nI a; nd q <- nI b; nlift (fite f p q)
  end.
End Norm.

Fixpoint nbinds (k : nat) (w : list poly) (l : binds) : N (list poly) :=
  match l with
  | [] => nret w
  | (n, s) :: l' => nd p <- nS k w s; nbinds k (w ++ [p]) l'
  end.

(** ** Outcomes *)

Inductive pcell := PKU | PKF (p : poly) | PKI (p : poly) | PKP (b : nat) (o : Z) | PKOpq (n : nat) | PKIte (q : poly) (a b : pcell).
Inductive pval := QVoid | QF (p : poly) | QI (p : poly) | QB (q : poly) | QA (l : list pcell).
Inductive ptree :=
| PLeaf (v : pval) (l : list (list pcell)) | PIf (q : poly) (t u : ptree) | PGuard (e : err) (q : poly) (t : ptree).

Section Tree.
Variable k : nat.
Variable w : list poly.
Definition ncond (b : bexp) : N poly := nd f <- nB k w b; nlift (fpoly f).
Fixpoint ncell (c : scell) : N pcell :=
  match c with
  | KU => nret PKU
  | KF s => nd p <- nS k w s; nret (PKF p)
  | KI i => nd p <- nI k w i; nret (PKI p)
  | KP b o => nret (PKP b o)
  | KOpq n => nret (PKOpq n)
  | KIte c a b => nd q <- ncond c; nd x <- ncell a; nd y <- ncell b; nret (PKIte q x y)
  end.
Fixpoint nmap {A B} (f : A -> N B) (l : list A) : N (list B) :=
  match l with
  | [] => nret []
  | a :: l' => nd b <- f a; nd bs <- nmap f l'; nret (b :: bs)
  end.
Definition nval (v : sval) : N pval :=
  match v with
  | XVoid => nret QVoid
  | XF s => nd p <- nS k w s; nret (QF p)
  | XI i => nd p <- nI k w i; nret (QI p)
  | XB b => nd q <- ncond b; nret (QB q)
  | XA l => nd cs <- nmap ncell l; nret (QA cs)
  | _ => nfail
  end.
Fixpoint ntree (t : tree (sval * smem)) : N ptree :=
  match t with
  | TLeaf (v, m) => nd p <- nval v; nd l <- nmap (nmap ncell) m; nret (PLeaf p l)
  | TErr => nfail
  | TIf b t u => nd q <- ncond b; nd x <- ntree t; nd y <- ntree u; nret (PIf q x y)
  | TGuard e b t => nd q <- ncond b; nd x <- ntree t; nret (PGuard e q x)
  end.
End Tree.

(** ** Comparison along paths *)

Definition path := list (positive * bool).    (* conditions decided so far *)
Fixpoint decided (x : positive) (e : path) : option bool :=
  match e with [] => None | (y, b) :: e' => if Pos.eqb x y then Some b else decided x e' end.
Fixpoint msubst (e : path) (m : mono) : option mono :=
  match m with
  | [] => Some []
  | x :: m' =>
    match msubst e m' with
    | None => None
    | Some n => match decided x e with Some true => Some n | Some false => None | None => Some (x :: n) end
    end
  end.
Fixpoint psubst (e : path) (p : poly) : poly :=
  match p with
  | [] => []
  | (m, c) :: p' => match msubst e m with Some n => padd [(n, c)] (psubst e p') | None => psubst e p' end
  end.
Fixpoint mopen (m : mono) : option positive :=
  match m with [] => None | x :: m' => if idem x then Some x else mopen m' end.
Fixpoint popen (p : poly) : option positive :=
  match p with [] => None | (m, _) :: p' => match mopen m with Some x => Some x | None => popen p' end end.

Inductive verdict := VTrue | VFalse | VSplit (x : positive) | VStuck.
Definition judge (e : path) (q : poly) : verdict :=
  match psubst e q with
  | [] => VFalse
  | [([], c)] => if qeqb c 1 then VTrue else VStuck
  | p => match popen p with Some x => VSplit x | None => VStuck end
  end.
Definition peq (e : path) (p q : poly) : bool :=
  peqb p q || match psubst e (psub p q) with [] => true | _ => false end.
Fixpoint pceq (e : path) (a b : pcell) : bool :=
  match a, b with
  | PKU, PKU => true
  | PKF p, PKF q => peq e p q
  | PKI p, PKI q => peq e p q
  | PKP b o, PKP b' o' => Nat.eqb b b' && Z.eqb o o'
  | PKOpq n, PKOpq m => Nat.eqb n m
  | PKIte q x y, PKIte q' x' y' => peq e q q' && pceq e x x' && pceq e y y'
  | _, _ => false
  end.
Definition pveq (e : path) (a b : pval) : bool :=
  match a, b with
  | QVoid, QVoid => true
  | QF p, QF q | QI p, QI q | QB p, QB q => peq e p q
  | QA l, QA m => list_eqb (pceq e) l m
  | _, _ => false
  end.

(** a condition p < 0 excludes p = 0 *)
Fixpoint excl (t : table) (full : table) : list (positive * positive) :=
  match t with
  | [] => []
  | k :: t' =>
    match k with
    | KLt p => match find (KEq p) full with Some y => [(number k t', y); (y, number k t')] | None => [] end
    | _ => []
    end ++ excl t' full
  end.
Definition assume (ex : list (positive * positive)) (x : positive) (b : bool) (e : path) : path :=
  (x, b) :: (if b then map (fun y => (snd y, false)) (filter (fun y => Pos.eqb x (fst y)) ex) else []) ++ e.

Section Eqv.
Variable ex : list (positive * positive).
Fixpoint fails (n : nat) (e : path) (x : err) (u : ptree) {struct n} : bool :=
  match n with
  | O => false
  | Datatypes.S n' =>
    let split y := fails n' (assume ex y true e) x u && fails n' (assume ex y false e) x u in
    match u with
    | PLeaf _ _ => false
    | PIf q u1 u2 =>
      match judge e q with VTrue => fails n' e x u1 | VFalse => fails n' e x u2 | VSplit y => split y | VStuck => false end
    | PGuard y q u1 =>
      match judge e q with
      | VTrue => fails n' e x u1
      | VFalse => match x, y with XFloatDomain, XFloatDomain => true | _, _ => false end
      | VSplit y => split y
      | VStuck => false
      end
    end
  end.
Fixpoint eqv (n : nat) (e : path) (t u : ptree) {struct n} : bool :=
  match n with
  | O => false
  | Datatypes.S n' =>
    let split x := eqv n' (assume ex x true e) t u && eqv n' (assume ex x false e) t u in
    match t with
    | PIf q t1 t2 =>
      match judge e q with VTrue => eqv n' e t1 u | VFalse => eqv n' e t2 u | VSplit x => split x | VStuck => false end
    | PGuard x q t1 =>
      match judge e q with VTrue => eqv n' e t1 u | VFalse => fails n' e x u | VSplit x => split x | VStuck => false end
    | PLeaf v l =>
      match u with
      | PIf q u1 u2 =>
        match judge e q with VTrue => eqv n' e t u1 | VFalse => eqv n' e t u2 | VSplit x => split x | VStuck => false end
      | PGuard x q u1 =>
        match judge e q with VTrue => eqv n' e t u1 | VFalse => false | VSplit x => split x | VStuck => false end
      | PLeaf v' l' => pveq e v v' && list_eqb (list_eqb (pceq e)) l l'
      end
    end
  end.
End Eqv.

(** atoms only mention earlier atoms *)
Definition pnum (x : positive) : positive := match x with xO n | xI n => n | xH => xH end.
Definition pbelow (n : positive) (p : poly) : bool :=
  forallb (fun t => forallb (fun x => match x with xH => false | _ => Pos.ltb (pnum x) n end) (fst t)) p.
Definition kbelow (n : positive) (a : key) : bool :=
  match a with
  | KOp1 _ p | KLt p | KEq p => pbelow n p
  | KOp2 _ p q => pbelow n p && pbelow n q
  | _ => true
  end.
Fixpoint wf (t : table) : bool :=
  match t with [] => true | a :: t' => kbelow (Pos.of_succ_nat (length t')) a && wf t' end.

(** the two functions agree over the reals on these symbolic arguments *)
Definition pair_trees (t0 : table) (K : nat) (f g : fundef) (sargs : list sarg) (k : nat) (pat : list (option nat)) : option (ptree * ptree * table) :=
  let '(t, _, w) := y_call K (sro sargs) f (sactuals sargs pat) (sregions sargs pat) k in
  let '(u, _, v) := y_call K (sro sargs) g (sactuals sargs pat) (sregions sargs pat) k in
  match nbinds k [] w t0 with
  | None => None
  | Some (pw, t1) =>
    match nbinds k [] v t1 with
    | None => None
    | Some (pv, t2) =>
      match ntree k pw t t2 with
      | None => None
      | Some (x, t3) => match ntree k pv u t3 with None => None | Some (y, t4) => Some (x, y, t4) end
      end
    end
  end.
Fixpoint shaped (lens : list nat) (t : tree (sval * smem)) : bool :=
  match t with
  | TLeaf (_, sm) => list_eqb Nat.eqb (map (@length _) sm) lens
  | TErr => false
  | TIf _ t u => shaped lens t && shaped lens u
  | TGuard _ _ t => shaped lens t
  end.
Definition shaped_at (K : nat) (f : fundef) (sargs : list sarg) (pat : list (option nat)) (k : nat) : bool :=
  let '(t, n, w) := y_call K (sro sargs) f (sactuals sargs pat) (sregions sargs pat) k in
  scoped k w && shaped (map (@length _) (sregions sargs pat)) t.
Definition ragree_at (t0 : table) (K : nat) (f g : fundef) (sargs : list sarg) (k : nat) (pat : list (option nat)) : bool :=
  safe_at K f sargs pat k && shaped_at K g sargs pat k &&
  match pair_trees t0 K f g sargs k pat with
  | Some (x, y, t) => wf t && eqv (excl t t) 200 [] x y
  | None => false
  end.
