(** * MiniC: syntax and reference interpreter for the C subset used by cglm.

    Everything here is executable and free of proofs.  The generated files
    [Gen_*.v] contain one [fundef] per C function of /repo; their meaning is the
    function [call] of this file. *)

From Coq Require Import String List ZArith Bool.
Import ListNotations.
Open Scope Z_scope.
Open Scope list_scope.

(** ** Floating-point operations, by name *)

Inductive op1 :=
| ONeg | OAbs | OSqrt | OSin | OCos | OTan | OAsin | OAcos | OAtan
| OFloor
| OModf      (* fractional part returned by modff *)
| OModi      (* integral part stored by modff *)
| ORcp.      (* hardware reciprocal estimate *)

Inductive op2 :=
| OAdd | OSub | OMul | ODiv
| OAtan2 | OFmod | OPow | OFmin
| OMinN | OMaxN.   (* vminq_f32 / vmaxq_f32 of Arm NEON *)

Inductive cmp := CLt | CLe | CGt | CGe | CEq | CNe.

Inductive ftest := TNan | TInf.

(** Operations that never fail, in any arithmetic considered here *)
Definition total1 (o : op1) : bool :=
  match o with OSqrt | OTan | OAsin | OAcos | ORcp => false | _ => true end.
Definition total2 (o : op2) : bool :=
  match o with ODiv | OFmod | OPow => false | _ => true end.

(** A float arithmetic.  [s_ok1]/[s_ok2] say where an operation is defined: always
    for IEEE arithmetic, but not for division by zero etc. over the reals. *)
Record Scalar := {
  T      : Type;
  s_op1  : op1 -> T -> T;
  s_ok1  : op1 -> T -> bool;
  s_op2  : op2 -> T -> T -> T;
  s_ok2  : op2 -> T -> T -> bool;
  s_fma  : T -> T -> T -> T;            (* a*b+c, rounded once *)
  s_cmp  : cmp -> T -> T -> bool;
  s_test : ftest -> T -> bool;
  s_lit  : Z -> positive -> T;          (* the literal n/d *)
  s_pi   : Z -> positive -> T;          (* the literal n*pi/d *)
  s_ofZ  : Z -> T;                      (* conversion int -> float *)
  s_toZ  : T -> option Z                (* truncation towards zero; None for NaN, infinities *)
}.

(** ** Syntax *)

Inductive ibin := IAdd | ISub | IMul | IDiv | IRem | IAnd | IOr | IShl | IShr.
Inductive bin := BArith (o : ibin) | BCmp (c : cmp).
Inductive cty := TyF | TyI | TyB.

(** Primitive functions: libm and SIMD intrinsics. *)
Inductive prim :=
| PF1 (o : op1) | PF2 (o : op2) | PTest (t : ftest)
| PAbsI                              (* abs(int) *)
| PV1 (o : op1)                      (* lane-wise unary *)
| PV2 (o : op2)                      (* lane-wise binary *)
| PVfma                              (* lane-wise fused a*b+c *)
| PVpick (c : cmp)                   (* lane-wise  a c b ? a : b *)
| PVcmp (c : cmp)                    (* lane-wise comparison mask *)
| PVperm (l : list (nat * nat))      (* result lane k = lane (snd) of argument (fst) *)
| PVmk                               (* vector from scalars *)
| PVsplat (n : nat)
| PVlane (k : nat)
| PVsigns (l : list bool)            (* sign-bit masks: true = 0x80000000 *)
| PVxor | PVand | PVor
| PVandnot                           (* (~a) & b *)
| PTup                               (* tuple of vectors (NEON x2, x4 types) *)
| PProj (k : nat).

Inductive expr :=
| EF (n : Z) (d : positive)          (* float literal n/d *)
| EPi (n : Z) (d : positive)         (* float literal n*pi/d *)
| EI (z : Z)
| EB (b : bool)
| EV (x : string)                    (* variable; an array variable is its address *)
| EIx (p : expr) (s : Z) (i : expr)  (* address p + i*s cells *)
| ELd (p : expr)                     (* load one cell *)
| ELdA (n : nat) (p : expr)          (* load a struct of n cells *)
| EVLd (n : nat) (p : expr)          (* SIMD load of n floats *)
| EBin (o : bin) (a b : expr)
| ENeg (a : expr)
| ENot (a : expr)
| EAnd (a b : expr)
| EOr (a b : expr)
| ECond (c a b : expr)
| ECast (t : cty) (a : expr)
| EPrim (p : prim) (es : exprs)
| ECall (f : fundef) (es : exprs)
with exprs := Enil | Econs (e : expr) (es : exprs)
with stmt :=
| SSkip
| SSeq (a b : stmt)
| SSet (x : string) (e : expr)
| SSt (p e : expr)                   (* store one cell *)
| SStA (n : nat) (p e : expr)        (* store a struct of n cells *)
| SVSt (n : nat) (p e : expr)        (* store the first n lanes *)
| SExp (e : expr)
| SIf (c : expr) (a b : stmt)
| SFor (x : string) (lo hi : expr) (body : stmt)  (* for (x = lo; x < hi; x++) *)
| SAssert (e : expr)
| SRet (e : expr)
| SRet0
with fundef := Fun (params : list (string * option nat)) (locals : list (string * option nat)) (body : stmt).
(* parameter kinds: None = scalar or pointer, Some n = struct of n cells by value;
   local kinds: None = scalar, Some n = array of n cells *)

(** ** Values, memory, outcomes *)

Inductive err :=
| XBounds | XUninit | XNull | XOverflow | XDivZero | XShift | XAssert
| XFloatDomain     (* division by zero, sqrt/acos outside the domain (exact arithmetics only) *)
| XType | XArity | XNoReturn.

Inductive res (A : Type) := Ok (a : A) | Err (e : err).
Arguments Ok {A}. Arguments Err {A}.

Definition rbind {A B} (r : res A) (k : A -> res B) : res B :=
  match r with Ok a => k a | Err e => Err e end.
Notation "'do' x <- r ; k" := (rbind r (fun x => k)) (at level 200, x pattern, r at level 100, k at level 200).

Inductive cell (F : Type) := CU | CF (t : F) | CI (z : Z) | CP (b : nat) (o : Z).
Arguments CU {F}. Arguments CF {F}. Arguments CI {F}. Arguments CP {F}.

Inductive lane (F : Type) :=
| LF (t : F)
| LS (b : bool)            (* sign-bit mask *)
| LM (b : bool)            (* comparison mask, all ones or all zeros *)
| LSel (b : bool) (t : F). (* mask & float *)
Arguments LF {F}. Arguments LS {F}. Arguments LM {F}. Arguments LSel {F}.

Inductive value (F : Type) :=
| VU                       (* uninitialised local *)
| VVoid
| VF (t : F) | VI (z : Z) | VB (b : bool)
| VP (b : nat) (o : Z)     (* pointer: block, offset *)
| VNull
| VV (l : list (lane F))
| VT (l : list (list (lane F)))
| VA (l : list (cell F)).
Arguments VU {F}. Arguments VVoid {F}. Arguments VF {F}. Arguments VI {F}. Arguments VB {F}. Arguments VP {F}.
Arguments VNull {F}. Arguments VV {F}. Arguments VT {F}. Arguments VA {F}.

Inductive flow (F : Type) := FNext | FRet (v : value F).
Arguments FNext {F}. Arguments FRet {F}.

(** Generic list access *)
Fixpoint lset {A} (l : list A) (n : nat) (a : A) : list A :=
  match l, n with
  | [], _ => []
  | _ :: t, O => a :: t
  | h :: t, S n' => h :: lset t n' a
  end.

Definition mem F := list (list (cell F)).
Definition env F := list (string * value F).

Fixpoint lookup {A} (x : string) (r : list (string * A)) : option A :=
  match r with
  | [] => None
  | (y, v) :: r' => if String.eqb x y then Some v else lookup x r'
  end.

Fixpoint assign {A} (x : string) (v : A) (r : list (string * A)) : list (string * A) :=
  match r with
  | [] => []
  | (y, w) :: r' => if String.eqb x y then (y, v) :: r' else (y, w) :: assign x v r'
  end.

Definition mread {F} (m : mem F) (b : nat) (o : Z) : option (cell F) :=
  if o <? 0 then None else
  match nth_error m b with
  | Some blk => nth_error blk (Z.to_nat o)
  | None => None
  end.

Definition mwrite {F} (m : mem F) (b : nat) (o : Z) (c : cell F) : option (mem F) :=
  match mread m b o with
  | None => None
  | Some _ =>
    match nth_error m b with
    | Some blk => Some (lset m b (lset blk (Z.to_nat o) c))
    | None => None
    end
  end.

Fixpoint mreads {F} (m : mem F) (b : nat) (o : Z) (n : nat) : option (list (cell F)) :=
  match n with
  | O => Some []
  | S n' =>
    match mread m b o, mreads m b (o + 1) n' with
    | Some c, Some cs => Some (c :: cs)
    | _, _ => None
    end
  end.

Fixpoint mwrites {F} (m : mem F) (b : nat) (o : Z) (cs : list (cell F)) : option (mem F) :=
  match cs with
  | [] => Some m
  | c :: cs' =>
    match mwrite m b o c with
    | Some m' => mwrites m' b (o + 1) cs'
    | None => None
    end
  end.

Definition of_opt {A} (e : err) (o : option A) : res A :=
  match o with Some a => Ok a | None => Err e end.

(** ** 32-bit int arithmetic; overflow is undefined behaviour *)

Definition in_int (z : Z) : bool := (-2147483648 <=? z) && (z <=? 2147483647).
Definition mkint (z : Z) : res Z := if in_int z then Ok z else Err XOverflow.
Definition shift_ok (b : Z) : bool := (0 <=? b) && (b <? 32).

Definition iarith (o : ibin) (a b : Z) : res Z :=
  match o with
  | IAdd => mkint (a + b)
  | ISub => mkint (a - b)
  | IMul => mkint (a * b)
  | IDiv => if b =? 0 then Err XDivZero else mkint (Z.quot a b)
  | IRem => if b =? 0 then Err XDivZero else do _ <- mkint (Z.quot a b); Ok (Z.rem a b)
  | IAnd => Ok (Z.land a b)
  | IOr => Ok (Z.lor a b)
  | IShl => if shift_ok b && (0 <=? a) then mkint (Z.shiftl a b) else Err XShift
  | IShr => if shift_ok b then Ok (Z.shiftr a b) else Err XShift
  end.

Definition icmp (c : cmp) (a b : Z) : bool :=
  match c with
  | CLt => a <? b | CLe => a <=? b | CGt => b <? a | CGe => b <=? a
  | CEq => a =? b | CNe => negb (a =? b)
  end.

Section Interp.
Variable S : Scalar.
Notation F := (T S).
Notation val := (value F).

Definition fop1 (o : op1) (x : F) : res F :=
  if total1 o || s_ok1 S o x then Ok (s_op1 S o x) else Err XFloatDomain.
Definition fop2 (o : op2) (x y : F) : res F :=
  if total2 o || s_ok2 S o x y then Ok (s_op2 S o x y) else Err XFloatDomain.

Definition farith (o : ibin) (x y : F) : res F :=
  match o with
  | IAdd => fop2 OAdd x y | ISub => fop2 OSub x y | IMul => fop2 OMul x y | IDiv => fop2 ODiv x y
  | _ => Err XType
  end.

Definition b2z (b : bool) : Z := if b then 1 else 0.

(** the translator inserts the usual arithmetic conversions as [ECast]s *)
Definition ev_bin (o : bin) (a b : val) : res val :=
  match a, b with
  | VF x, VF y =>
    match o with
    | BArith o => do z <- farith o x y; Ok (VF z)
    | BCmp c => Ok (VB (s_cmp S c x y))
    end
  | VI x, VI y =>
    match o with
    | BArith o => do z <- iarith o x y; Ok (VI z)
    | BCmp c => Ok (VB (icmp c x y))
    end
  | _, _ => Err XType
  end.

Definition ev_neg (a : val) : res val :=
  match a with
  | VF x => do y <- fop1 ONeg x; Ok (VF y)
  | VI x => do y <- mkint (- x); Ok (VI y)
  | _ => Err XType
  end.

Definition ev_cast (t : cty) (a : val) : res val :=
  match t, a with
  | TyF, VF _ => Ok a
  | TyF, VI z => Ok (VF (s_ofZ S z))
  | TyF, VB b => Ok (VF (s_ofZ S (b2z b)))
  | TyI, VI _ => Ok a
  | TyI, VB b => Ok (VI (b2z b))
  | TyI, VF x => do z <- of_opt XOverflow (s_toZ S x); do z <- mkint z; Ok (VI z)
  | TyB, VB _ => Ok a
  | TyB, VI z => Ok (VB (negb (z =? 0)))
  | TyB, VP _ _ => Ok (VB true)
  | TyB, VNull => Ok (VB false)
  | _, _ => Err XType
  end.

Definition to_bool (a : val) : res bool :=
  match a with VB b => Ok b | VU => Err XUninit | _ => Err XType end.

(** *** SIMD lanes *)

Fixpoint mapM {A B} (f : A -> res B) (l : list A) : res (list B) :=
  match l with
  | [] => Ok []
  | a :: l' => do b <- f a; do bs <- mapM f l'; Ok (b :: bs)
  end.

Fixpoint map2M {A B C} (f : A -> B -> res C) (l : list A) (k : list B) : res (list C) :=
  match l, k with
  | [], [] => Ok []
  | a :: l', b :: k' => do c <- f a b; do cs <- map2M f l' k'; Ok (c :: cs)
  | _, _ => Err XType
  end.

Fixpoint map3M {A B C D} (f : A -> B -> C -> res D) (l : list A) (k : list B) (j : list C) : res (list D) :=
  match l, k, j with
  | [], [], [] => Ok []
  | a :: l', b :: k', c :: j' => do d <- f a b c; do ds <- map3M f l' k' j'; Ok (d :: ds)
  | _, _, _ => Err XType
  end.

Definition lf (x : lane F) : res F := match x with LF t => Ok t | _ => Err XType end.

Definition lane1 (o : op1) (a : lane F) : res (lane F) := do x <- lf a; do z <- fop1 o x; Ok (LF z).
Definition lane2 (o : op2) (a b : lane F) : res (lane F) := do x <- lf a; do y <- lf b; do z <- fop2 o x y; Ok (LF z).
Definition lane_fma (a b c : lane F) : res (lane F) := do x <- lf a; do y <- lf b; do z <- lf c; Ok (LF (s_fma S x y z)).
Definition lane_pick (c : cmp) (a b : lane F) : res (lane F) :=
  do x <- lf a; do y <- lf b; Ok (LF (if s_cmp S c x y then x else y)).
Definition lane_cmp (c : cmp) (a b : lane F) : res (lane F) := do x <- lf a; do y <- lf b; Ok (LM (s_cmp S c x y)).
Definition lane_xor (a b : lane F) : res (lane F) :=
  match a, b with
  | LS x, LS y => Ok (LS (xorb x y))
  | LF x, LS s => if s then do y <- fop1 ONeg x; Ok (LF y) else Ok (LF x)
  | LS s, LF x => if s then do y <- fop1 ONeg x; Ok (LF y) else Ok (LF x)
  | _, _ => Err XType
  end.
Definition lane_andnot (a b : lane F) : res (lane F) :=
  match a, b with
  | LS s, LF x => if s then do y <- fop1 OAbs x; Ok (LF y) else Ok (LF x)
  | _, _ => Err XType
  end.
Definition lane_and (a b : lane F) : res (lane F) :=
  match a, b with LM m, LF x => Ok (LSel m x) | _, _ => Err XType end.
(* or of two masked floats of which at most one is selected; both unselected is +0 *)
Definition lane_or (a b : lane F) : res (lane F) :=
  match a, b with
  | LSel m x, LSel n y =>
    if m && n then Err XType else Ok (LF (if m then x else if n then y else s_lit S 0 1))
  | _, _ => Err XType
  end.

Definition ev_prim (p : prim) (vs : list val) : res val :=
  match p, vs with
  | PF1 o, [VF x] => do z <- fop1 o x; Ok (VF z)
  | PF2 o, [VF x; VF y] => do z <- fop2 o x y; Ok (VF z)
  | PTest t, [VF x] => Ok (VB (s_test S t x))
  | PAbsI, [VI x] => do z <- mkint (Z.abs x); Ok (VI z)
  | PV1 o, [VV a] => do l <- mapM (lane1 o) a; Ok (VV l)
  | PV2 o, [VV a; VV b] => do l <- map2M (lane2 o) a b; Ok (VV l)
  | PVfma, [VV a; VV b; VV c] => do l <- map3M lane_fma a b c; Ok (VV l)
  | PVpick c, [VV a; VV b] => do l <- map2M (lane_pick c) a b; Ok (VV l)
  | PVcmp c, [VV a; VV b] => do l <- map2M (lane_cmp c) a b; Ok (VV l)
  | PVperm l, _ =>
    do r <- mapM (fun ik => match nth_error vs (fst ik) with
                            | Some (VV v) => of_opt XType (nth_error v (snd ik))
                            | _ => Err XType end) l;
    Ok (VV r)
  | PVmk, _ => do r <- mapM (fun v => match v with VF x => Ok (LF x) | _ => Err XType end) vs; Ok (VV r)
  | PVsplat n, [VF x] => Ok (VV (repeat (LF x) n))
  | PVlane k, [VV a] => do l <- of_opt XType (nth_error a k); do x <- lf l; Ok (VF x)
  | PVsigns l, [] => Ok (VV (map LS l))
  | PVxor, [VV a; VV b] => do l <- map2M lane_xor a b; Ok (VV l)
  | PVand, [VV a; VV b] => do l <- map2M lane_and a b; Ok (VV l)
  | PVor, [VV a; VV b] => do l <- map2M lane_or a b; Ok (VV l)
  | PVandnot, [VV a; VV b] => do l <- map2M lane_andnot a b; Ok (VV l)
  | PTup, _ => do r <- mapM (fun v => match v with VV x => Ok x | _ => Err XType end) vs; Ok (VT r)
  | PProj k, [VT l] => do x <- of_opt XType (nth_error l k); Ok (VV x)
  | _, _ => Err XType
  end.

(** *** Memory access *)

Definition c2v (c : cell F) : res val :=
  match c with CU => Err XUninit | CF t => Ok (VF t) | CI z => Ok (VI z) | CP b o => Ok (VP b o) end.
Definition v2c (v : val) : res (cell F) :=
  match v with VF t => Ok (CF t) | VI z => Ok (CI z) | VP b o => Ok (CP b o) | VU => Err XUninit | _ => Err XType end.

Definition to_ptr (v : val) : res (nat * Z) :=
  match v with VP b o => Ok (b, o) | VNull => Err XNull | VU => Err XUninit | _ => Err XType end.

Definition load (m : mem F) (v : val) : res val :=
  do (b, o) <- to_ptr v; do c <- of_opt XBounds (mread m b o); c2v c.
Definition store (m : mem F) (p v : val) : res (mem F) :=
  do (b, o) <- to_ptr p; do c <- v2c v; of_opt XBounds (mwrite m b o c).
Definition loadA (m : mem F) (n : nat) (v : val) : res val :=
  do (b, o) <- to_ptr v; do cs <- of_opt XBounds (mreads m b o n); Ok (VA cs).
Definition storeA (m : mem F) (n : nat) (p v : val) : res (mem F) :=
  do (b, o) <- to_ptr p;
  match v with
  | VA cs => if Nat.eqb (length cs) n then of_opt XBounds (mwrites m b o cs) else Err XType
  | _ => Err XType
  end.
Definition loadV (m : mem F) (n : nat) (v : val) : res val :=
  do (b, o) <- to_ptr v; do cs <- of_opt XBounds (mreads m b o n);
  do l <- mapM (fun c => match c with CF t => Ok (LF t) | CU => Err XUninit | _ => Err XType end) cs;
  Ok (VV l).
Definition storeV (m : mem F) (n : nat) (p v : val) : res (mem F) :=
  do (b, o) <- to_ptr p;
  match v with
  | VV l =>
    if Nat.leb n (length l) then
      do cs <- mapM (fun x => do t <- lf x; Ok (CF t)) (firstn n l); of_opt XBounds (mwrites m b o cs)
    else Err XType
  | _ => Err XType
  end.

Definition var (r : env F) (x : string) : res val :=
  match lookup x r with Some VU => Err XUninit | Some v => Ok v | None => Err XType end.

(** bind parameters; by-value structs get a block of their own *)
Fixpoint bind_params (ps : list (string * option nat)) (vs : list val) (m : mem F) : res (env F * mem F) :=
  match ps, vs with
  | [], [] => Ok ([], m)
  | (x, None) :: ps', v :: vs' =>
    do (r, m') <- bind_params ps' vs' m; Ok ((x, v) :: r, m')
  | (x, Some n) :: ps', VA cs :: vs' =>
    if Nat.eqb (length cs) n then
      do (r, m') <- bind_params ps' vs' (m ++ [cs]); Ok ((x, VP (length m) 0) :: r, m')
    else Err XType
  | _, _ => Err XArity
  end.

Fixpoint bind_locals (ls : list (string * option nat)) (m : mem F) : env F * mem F :=
  match ls with
  | [] => ([], m)
  | (x, None) :: ls' => let (r, m') := bind_locals ls' m in ((x, VU) :: r, m')
  | (x, Some n) :: ls' =>
    let (r, m') := bind_locals ls' (m ++ [repeat CU n]) in ((x, VP (length m) 0) :: r, m')
  end.

(** ** The interpreter *)

Fixpoint eval (e : expr) (r : env F) (m : mem F) {struct e} : res (val * mem F) :=
  match e with
  | EF n d => Ok (VF (s_lit S n d), m)
  | EPi n d => Ok (VF (s_pi S n d), m)
  | EI z => Ok (VI z, m)
  | EB b => Ok (VB b, m)
  | EV x => do v <- var r x; Ok (v, m)
  | EIx p s i =>
    do (vp, m1) <- eval p r m; do (vi, m2) <- eval i r m1;
    do (b, o) <- to_ptr vp;
    match vi with VI k => Ok (VP b (o + k * s), m2) | _ => Err XType end
  | ELd p => do (vp, m1) <- eval p r m; do v <- load m1 vp; Ok (v, m1)
  | ELdA n p => do (vp, m1) <- eval p r m; do v <- loadA m1 n vp; Ok (v, m1)
  | EVLd n p => do (vp, m1) <- eval p r m; do v <- loadV m1 n vp; Ok (v, m1)
  | EBin o a b =>
    do (va, m1) <- eval a r m; do (vb, m2) <- eval b r m1; do v <- ev_bin o va vb; Ok (v, m2)
  | ENeg a => do (va, m1) <- eval a r m; do v <- ev_neg va; Ok (v, m1)
  | ENot a => do (va, m1) <- eval a r m; do b <- to_bool va; Ok (VB (negb b), m1)
  | EAnd a b =>
    do (va, m1) <- eval a r m; do x <- to_bool va;
    if x then do (vb, m2) <- eval b r m1; do y <- to_bool vb; Ok (VB y, m2) else Ok (VB false, m1)
  | EOr a b =>
    do (va, m1) <- eval a r m; do x <- to_bool va;
    if x then Ok (VB true, m1) else do (vb, m2) <- eval b r m1; do y <- to_bool vb; Ok (VB y, m2)
  | ECond c a b =>
    do (vc, m1) <- eval c r m; do x <- to_bool vc; if x then eval a r m1 else eval b r m1
  | ECast t a => do (va, m1) <- eval a r m; do v <- ev_cast t va; Ok (v, m1)
  | EPrim p es => do (vs, m1) <- evals es r m; do v <- ev_prim p vs; Ok (v, m1)
  | ECall f es => do (vs, m1) <- evals es r m; call f vs m1
  end
with evals (es : exprs) (r : env F) (m : mem F) {struct es} : res (list val * mem F) :=
  match es with
  | Enil => Ok ([], m)
  | Econs e es' => do (v, m1) <- eval e r m; do (vs, m2) <- evals es' r m1; Ok (v :: vs, m2)
  end
with exec (s : stmt) (r : env F) (m : mem F) {struct s} : res (flow F * env F * mem F) :=
  match s with
  | SSkip => Ok (FNext, r, m)
  | SSeq a b =>
    do (fl, r1, m1) <- exec a r m;
    match fl with FNext => exec b r1 m1 | FRet v => Ok (FRet v, r1, m1) end
  | SSet x e => do (v, m1) <- eval e r m; Ok (FNext, assign x v r, m1)
  | SSt p e =>
    do (vp, m1) <- eval p r m; do (v, m2) <- eval e r m1; do m3 <- store m2 vp v; Ok (FNext, r, m3)
  | SStA n p e =>
    do (vp, m1) <- eval p r m; do (v, m2) <- eval e r m1; do m3 <- storeA m2 n vp v; Ok (FNext, r, m3)
  | SVSt n p e =>
    do (vp, m1) <- eval p r m; do (v, m2) <- eval e r m1; do m3 <- storeV m2 n vp v; Ok (FNext, r, m3)
  | SExp e => do (v, m1) <- eval e r m; Ok (FNext, r, m1)
  | SIf c a b =>
    do (vc, m1) <- eval c r m; do x <- to_bool vc; if x then exec a r m1 else exec b r m1
  | SFor x lo hi body =>
    do (vl, m1) <- eval lo r m; do (vh, m2) <- eval hi r m1;
    match vl, vh with
    | VI l, VI h =>
      (fix loop (n : nat) (i : Z) (r : env F) (m : mem F) {struct n} : res (flow F * env F * mem F) :=
         match n with
         | O => Ok (FNext, assign x (VI i) r, m)
         | Datatypes.S n' =>
           do (fl, r1, m1) <- exec body (assign x (VI i) r) m;
           match fl with FNext => loop n' (i + 1) r1 m1 | FRet v => Ok (FRet v, r1, m1) end
         end) (Z.to_nat (h - l)) l r m2
    | _, _ => Err XType
    end
  | SAssert e => do (v, m1) <- eval e r m; do b <- to_bool v; if b then Ok (FNext, r, m1) else Err XAssert
  | SRet e => do (v, m1) <- eval e r m; Ok (FRet v, r, m1)
  | SRet0 => Ok (FRet VVoid, r, m)
  end
with call (f : fundef) (vs : list val) (m : mem F) {struct f} : res (val * mem F) :=
  match f with
  | Fun ps ls body =>
    do (r1, m1) <- bind_params ps vs m;
    let (r2, m2) := bind_locals ls m1 in
    do (fl, _, m3) <- exec body (r1 ++ r2) m2;
    (* the frame's blocks are removed on return *)
    let m4 := firstn (length m) m3 in
    match fl with FNext => Ok (VVoid, m4) | FRet v => Ok (v, m4) end
  end.

End Interp.

(** ** Notations used by the generated files *)
Declare Scope mc_scope.
Delimit Scope mc_scope with mc.
Coercion EV : string >-> expr.
Notation "p '.[' i ']'" := (EIx p 1 (EI i)) (at level 2, left associativity, i constr at level 0) : mc_scope.
Notation "p '.[' i ':' s ']'" := (EIx p s (EI i)) (at level 2, left associativity, i constr at level 0, s constr at level 0) : mc_scope.
Notation "! p" := (ELd p) (at level 3, right associativity) : mc_scope.
Notation "a + b" := (EBin (BArith IAdd) a b) : mc_scope.
Notation "a - b" := (EBin (BArith ISub) a b) : mc_scope.
Notation "a * b" := (EBin (BArith IMul) a b) : mc_scope.
Notation "a / b" := (EBin (BArith IDiv) a b) : mc_scope.
Notation "- a" := (ENeg a) : mc_scope.
Notation "a < b" := (EBin (BCmp CLt) a b) : mc_scope.
Notation "a <= b" := (EBin (BCmp CLe) a b) : mc_scope.
Notation "a > b" := (EBin (BCmp CGt) a b) : mc_scope.
Notation "a >= b" := (EBin (BCmp CGe) a b) : mc_scope.
Notation "a == b" := (EBin (BCmp CEq) a b) (at level 70) : mc_scope.
Notation "a != b" := (EBin (BCmp CNe) a b) (at level 70) : mc_scope.
Notation "p '::=' e" := (SSt p e) (at level 80) : mc_scope.
Notation "x '<~' e" := (SSet x e) (at level 80) : mc_scope.
Notation "a ;; b" := (SSeq a b) (at level 90, right associativity) : mc_scope.
Notation "f '$(' ')'" := (ECall f Enil) (at level 2) : mc_scope.
Notation "f '$(' x , .. , y ')'" := (ECall f (Econs x .. (Econs y Enil) ..)) (at level 2, x at level 75, y at level 75) : mc_scope.
Notation "'builtin' p '$(' ')'" := (EPrim p Enil) (at level 2, p at level 1) : mc_scope.
Notation "'builtin' p '$(' x , .. , y ')'" := (EPrim p (Econs x .. (Econs y Enil) ..)) (at level 2, p at level 1, x at level 75, y at level 75) : mc_scope.
