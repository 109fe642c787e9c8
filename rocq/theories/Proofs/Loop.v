(** * The for-loop of the interpreter as a function of its own (proof tool) *)

From Coq Require Import String List ZArith Bool Lia.
From Verif Require Import MiniC.
Import ListNotations.
Local Open Scope Z_scope.

Section Loop.
Variable S : Scalar.
Notation F := (T S).

Fixpoint forloop (x : string) (body : stmt) (n : nat) (i : Z) (r : env F) (m : mem F) {struct n} : res (flow F * env F * mem F) :=
  match n with
  | O => Ok (FNext, assign x (VI i) r, m)
  | Datatypes.S n' =>
    do (fl, r1, m1) <- exec S body (assign x (VI i) r) m;
    match fl with FNext => forloop x body n' (i + 1) r1 m1 | FRet v => Ok (FRet v, r1, m1) end
  end.

Lemma exec_for : forall x lo hi body r m,
  exec S (SFor x lo hi body) r m =
    do (vl, m1) <- eval S lo r m; do (vh, m2) <- eval S hi r m1;
    match vl, vh with
    | VI l, VI h => forloop x body (Z.to_nat (h - l)) l r m2
    | _, _ => Err XType
    end.
Proof.
  intros.
  change (exec S (SFor x lo hi body) r m) with (
    do (vl, m1) <- eval S lo r m; do (vh, m2) <- eval S hi r m1;
    match vl, vh with
    | VI l, VI h =>
      (fix loop (n : nat) (i : Z) (r : env F) (m : mem F) {struct n} : res (flow F * env F * mem F) :=
         match n with
         | O => Ok (FNext, assign x (VI i) r, m)
         | Datatypes.S n' =>
           do (fl, r1, m1) <- exec S body (assign x (VI i) r) m;
           match fl with FNext => loop n' (i + 1) r1 m1 | FRet v => Ok (FRet v, r1, m1) end
         end) (Z.to_nat (h - l)) l r m2
    | _, _ => Err XType
    end).
  destruct (eval S lo r m) as [[vl m1]|]; [|reflexivity]. cbn [rbind].
  destruct (eval S hi r m1) as [[vh m2]|]; [|reflexivity]. cbn [rbind].
  destruct vl; try reflexivity. destruct vh; try reflexivity. generalize (Z.to_nat (z0 - z)). intros n. clear. revert z r m2.
  induction n; intros; [reflexivity|]. cbn [forloop]. destruct (exec S body (assign x (VI z) r) m2) as [[[[|v] r1] m1]|]; try reflexivity.
  cbn [rbind]. apply IHn.
Qed.
Lemma exec_seq : forall a b r m,
  exec S (SSeq a b) r m =
    do (fl, r1, m1) <- exec S a r m;
    match fl with FNext => exec S b r1 m1 | FRet v => Ok (FRet v, r1, m1) end.
Proof. reflexivity. Qed.
Lemma call_fun : forall ps ls body vs m,
  call S (Fun ps ls body) vs m =
    do (r1, m1) <- bind_params S ps vs m;
    let (r2, m2) := bind_locals S ls m1 in
    do (fl, _, m3) <- exec S body (r1 ++ r2) m2;
    let m4 := firstn (length m) m3 in
    match fl with FNext => Ok (VVoid, m4) | FRet v => Ok (v, m4) end.
Proof. reflexivity. Qed.
Lemma exec_ret : forall e r m, exec S (SRet e) r m = do (v, m1) <- eval S e r m; Ok (FRet v, r, m1).
Proof. reflexivity. Qed.
Lemma exec_if : forall c a b r m, exec S (SIf c a b) r m =
    do (vc, m1) <- eval S c r m; do x <- to_bool S vc; if x then exec S a r m1 else exec S b r m1.
Proof. reflexivity. Qed.
Lemma exec_set : forall x e r m, exec S (SSet x e) r m = do (v, m1) <- eval S e r m; Ok (FNext, assign x v r, m1).
Proof. reflexivity. Qed.
Lemma exec_exp : forall e r m, exec S (SExp e) r m = do (v, m1) <- eval S e r m; Ok (FNext, r, m1).
Proof. reflexivity. Qed.
Lemma exec_skip : forall r m, exec S SSkip r m = Ok (FNext, r, m).
Proof. reflexivity. Qed.
Lemma forloop_S : forall x body n i r m,
  forloop x body (Datatypes.S n) i r m =
    do (fl, r1, m1) <- exec S body (assign x (VI i) r) m;
    match fl with FNext => forloop x body n (i + 1) r1 m1 | FRet v => Ok (FRet v, r1, m1) end.
Proof. reflexivity. Qed.
End Loop.
