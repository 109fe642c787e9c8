(** * Deciding memory safety by symbolic evaluation (proof tool) *)

From Coq Require Import String List ZArith Bool Lia.
From Verif Require Import MiniC Contract Sym SymSound SymCall.
From Verif.Spec Require Import Types.
Import ListNotations.
Local Open Scope nat_scope.
Local Open Scope list_scope.

(** symbolic arguments for a signature, numbering variables from [i], [b], [k] *)
Definition fvars (k n : nat) : list scell := map (fun j => KF (SVar j)) (seq k n).
Definition ivars (k n : nat) : list scell := map (fun j => KI (IVar j)) (seq k n).
Fixpoint build (ps : list param) (i b k : nat) : list (list sarg) :=
  match ps with
  | [] => [[]]
  | Float :: ps' => map (cons (SVal (XF (SVar k)))) (build ps' i b (Datatypes.S k))
  | Integer :: ps' => map (cons (SVal (XI (IVar i)))) (build ps' (Datatypes.S i) b k)
  | Index n :: ps' => flat_map (fun z => map (cons (SVal (XI (ILit (Z.of_nat z))))) (build ps' i b k)) (seq 0 n)
  | OneOf l :: ps' => flat_map (fun z => map (cons (SVal (XI (ILit z)))) (build ps' i b k)) l
  | Boolean :: ps' => map (cons (SVal (XB (BVar b)))) (build ps' i (Datatypes.S b) k)
  | Struct Flt n :: ps' => map (cons (SVal (XA (fvars k n)))) (build ps' i b (n + k))
  | Struct Int n :: ps' => map (cons (SVal (XA (ivars i n)))) (build ps' (n + i) b k)
  | Reads Flt n :: ps' => map (cons (SInA (fvars k n))) (build ps' i b (n + k))
  | Reads Int n :: ps' => map (cons (SInA (ivars i n))) (build ps' (n + i) b k)
  | Writes n :: ps' => map (cons (SOut n)) (build ps' i b k)
  | Updates Flt n :: ps' => map (cons (SInOut (fvars k n))) (build ps' i b (n + k))
  | Updates Int n :: ps' => map (cons (SInOut (ivars i n))) (build ps' (n + i) b k)
  | Apart Flt n :: ps' => map (cons (SIn (fvars k n))) (build ps' i b (n + k))
  | Apart Int n :: ps' => map (cons (SIn (ivars i n))) (build ps' (n + i) b k)
  end.
Definition floats (p : param) : nat := match p with Float => 1 | Struct Flt n | Reads Flt n | Updates Flt n | Apart Flt n => n | _ => 0 end.
Definition nfloats (ps : list param) : nat := fold_right (fun p n => floats p + n) 0 ps.
Definition safeb (K : nat) (f : fundef) (ps : list param) : bool :=
  let k := nfloats ps in forallb (fun sa => forallb (fun p => safe_at K f sa p k) (patterns sa)) (build ps 0 0 0).

Section B.
Variable S : Scalar.
Notation F := (T S).

Lemma fvars_den : forall ac pi L is bs pre (l : list F) post,
  map (cden S (mk S is bs ac (pre ++ l ++ post)) pi L) (fvars (length pre) (length l)) = fl l.
Proof.
  intros. unfold fvars, fl. rewrite map_map. revert pre. induction l; intros pre; [reflexivity|].
  simpl. f_equal.
  - f_equal. change (nth (length pre) (pre ++ a :: l ++ post) (s_lit S 0 1) = a). rewrite app_nth2 by lia. rewrite Nat.sub_diag. reflexivity.
  - specialize (IHl (pre ++ [a])). rewrite app_length in IHl. simpl in IHl. rewrite Nat.add_1_r in IHl.
    rewrite <- app_assoc in IHl. exact IHl.
Qed.
Lemma ivars_den : forall ac pi L bs fs pre (l : list Z) post,
  map (cden S (mk S (pre ++ l ++ post) bs ac fs) pi L) (ivars (length pre) (length l)) = il l.
Proof.
  intros. unfold ivars, il. rewrite map_map. revert pre. induction l; intros pre; [reflexivity|].
  simpl. f_equal.
  - f_equal. change (nth (length pre) (pre ++ a :: l ++ post) 0%Z = a). rewrite app_nth2 by lia. rewrite Nat.sub_diag. reflexivity.
  - specialize (IHl (pre ++ [a])). rewrite app_length in IHl. simpl in IHl. rewrite Nat.add_1_r in IHl.
    rewrite <- app_assoc in IHl. exact IHl.
Qed.

Lemma build_ok : forall ps args, Forall2 fits ps args -> forall is0 bs0 fs0,
  exists is bs fs sa, List.In sa (build ps (length is0) (length bs0) (length fs0)) /\ length fs = nfloats ps /\
  forall ac pi L ts, map (aden S (is0 ++ is) (bs0 ++ bs) (fs0 ++ fs) ac pi L ts) sa = args.
Proof.
  assert (N : forall A (pre : list A) x post d, nth (length pre) (pre ++ x :: post) d = x).
  { intros. rewrite app_nth2 by lia. rewrite Nat.sub_diag. reflexivity. }
  induction 1 as [|p a ps args H HF IH]; intros is0 bs0 fs0.
  - exists [], [], [], []. simpl. auto.
  - destruct p as [| |n|lz| |t n|t n|n|t n|t n]; simpl in H.
    + destruct H as [x ->]. destruct (IH is0 bs0 (fs0 ++ [x])) as (is & bs & fs & sa & I & Lf & E).
      exists is, bs, (x :: fs), (SVal (XF (SVar (length fs0))) :: sa). rewrite app_length, Nat.add_1_r in I. split; [|split].
      * simpl. apply in_map. auto.
      * simpl. auto.
      * intros. rewrite <- app_assoc in E. simpl in E. simpl. f_equal; [|apply E]. f_equal. f_equal. rewrite <- app_assoc. apply N.
    + destruct H as [x ->]. destruct (IH (is0 ++ [x]) bs0 fs0) as (is & bs & fs & sa & I & Lf & E).
      exists (x :: is), bs, fs, (SVal (XI (IVar (length is0))) :: sa). rewrite app_length, Nat.add_1_r in I. split; [|split]; auto.
      * simpl. apply in_map. auto.
      * intros. rewrite <- app_assoc in E. simpl in E. simpl. f_equal; [|apply E]. f_equal. f_equal. apply N.
    + destruct H as [z [Hz ->]]. destruct (IH is0 bs0 fs0) as (is & bs & fs & sa & I & Lf & E).
      exists is, bs, fs, (SVal (XI (ILit z)) :: sa). split; [|split]; auto.
      * simpl. apply in_flat_map. exists (Z.to_nat z). split; [apply in_seq; lia|]. rewrite Z2Nat.id by lia. apply in_map. auto.
      * intros. simpl. f_equal. apply E.
    + destruct H as [z [Hz ->]]. destruct (IH is0 bs0 fs0) as (is & bs & fs & sa & I & Lf & E).
      exists is, bs, fs, (SVal (XI (ILit z)) :: sa). split; [|split]; auto.
      * simpl. apply in_flat_map. exists z. split; auto. apply in_map. auto.
      * intros. simpl. f_equal. apply E.
    + destruct H as [x ->]. destruct (IH is0 (bs0 ++ [x]) fs0) as (is & bs & fs & sa & I & Lf & E).
      exists is, (x :: bs), fs, (SVal (XB (BVar (length bs0))) :: sa). rewrite app_length, Nat.add_1_r in I. split; [|split]; auto.
      * simpl. apply in_map. auto.
      * intros. rewrite <- app_assoc in E. simpl in E. simpl. f_equal; [|apply E]. f_equal. f_equal. apply N.
    + destruct H as [cs [H ->]]. destruct t; destruct H as [l [Hl ->]].
      * destruct (IH is0 bs0 (fs0 ++ l)) as (is & bs & fs & sa & I & Lf & E).
        exists is, bs, (l ++ fs), (SVal (XA (fvars (length fs0) n)) :: sa). rewrite app_length, Nat.add_comm in I. split; [|split].
        -- simpl. apply in_map. subst n. auto.
        -- rewrite app_length. simpl. lia.
        -- intros. rewrite <- app_assoc in E. simpl. f_equal; [|apply E]. f_equal. f_equal. subst n. rewrite <- !app_assoc. apply fvars_den.
      * destruct (IH (is0 ++ l) bs0 fs0) as (is & bs & fs & sa & I & Lf & E).
        exists (l ++ is), bs, fs, (SVal (XA (ivars (length is0) n)) :: sa). rewrite app_length, Nat.add_comm in I. split; [|split].
        -- simpl. apply in_map. subst n. auto.
        -- simpl. lia.
        -- intros. rewrite <- app_assoc in E. simpl. f_equal; [|apply E]. f_equal. f_equal. subst n. apply ivars_den.
    + destruct H as [cs [H ->]]. destruct t; destruct H as [l [Hl ->]].
      * destruct (IH is0 bs0 (fs0 ++ l)) as (is & bs & fs & sa & I & Lf & E).
        exists is, bs, (l ++ fs), (SInA (fvars (length fs0) n) :: sa). rewrite app_length, Nat.add_comm in I. split; [|split].
        -- simpl. apply in_map. subst n. auto.
        -- rewrite app_length. simpl. lia.
        -- intros. rewrite <- app_assoc in E. simpl. f_equal; [|apply E]. f_equal. subst n. rewrite <- !app_assoc. apply fvars_den.
      * destruct (IH (is0 ++ l) bs0 fs0) as (is & bs & fs & sa & I & Lf & E).
        exists (l ++ is), bs, fs, (SInA (ivars (length is0) n) :: sa). rewrite app_length, Nat.add_comm in I. split; [|split].
        -- simpl. apply in_map. subst n. auto.
        -- simpl. lia.
        -- intros. rewrite <- app_assoc in E. simpl. f_equal; [|apply E]. f_equal. subst n. apply ivars_den.
    + subst a. destruct (IH is0 bs0 fs0) as (is & bs & fs & sa & I & Lf & E).
      exists is, bs, fs, (SOut n :: sa). split; [|split]; auto. simpl. apply in_map. auto. intros. simpl. f_equal. apply E.
    + destruct H as [cs [H ->]]. destruct t; destruct H as [l [Hl ->]].
      * destruct (IH is0 bs0 (fs0 ++ l)) as (is & bs & fs & sa & I & Lf & E).
        exists is, bs, (l ++ fs), (SInOut (fvars (length fs0) n) :: sa). rewrite app_length, Nat.add_comm in I. split; [|split].
        -- simpl. apply in_map. subst n. auto.
        -- rewrite app_length. simpl. lia.
        -- intros. rewrite <- app_assoc in E. simpl. f_equal; [|apply E]. f_equal. subst n. rewrite <- !app_assoc. apply fvars_den.
      * destruct (IH (is0 ++ l) bs0 fs0) as (is & bs & fs & sa & I & Lf & E).
        exists (l ++ is), bs, fs, (SInOut (ivars (length is0) n) :: sa). rewrite app_length, Nat.add_comm in I. split; [|split].
        -- simpl. apply in_map. subst n. auto.
        -- simpl. lia.
        -- intros. rewrite <- app_assoc in E. simpl. f_equal; [|apply E]. f_equal. subst n. apply ivars_den.
    + destruct H as [cs [H ->]]. destruct t; destruct H as [l [Hl ->]].
      * destruct (IH is0 bs0 (fs0 ++ l)) as (is & bs & fs & sa & I & Lf & E).
        exists is, bs, (l ++ fs), (SIn (fvars (length fs0) n) :: sa). rewrite app_length, Nat.add_comm in I. split; [|split].
        -- simpl. apply in_map. subst n. auto.
        -- rewrite app_length. simpl. lia.
        -- intros. rewrite <- app_assoc in E. simpl. f_equal; [|apply E]. f_equal. subst n. rewrite <- !app_assoc. apply fvars_den.
      * destruct (IH (is0 ++ l) bs0 fs0) as (is & bs & fs & sa & I & Lf & E).
        exists (l ++ is), bs, fs, (SIn (ivars (length is0) n) :: sa). rewrite app_length, Nat.add_comm in I. split; [|split].
        -- simpl. apply in_map. subst n. auto.
        -- simpl. lia.
        -- intros. rewrite <- app_assoc in E. simpl. f_equal; [|apply E]. f_equal. subst n. apply ivars_den.
Qed.
End B.

Theorem safeb_ok : forall K f ps, safeb K f ps = true -> safe f ps.
Proof.
  intros K f ps H S args HF. destruct (build_ok S ps args HF [] [] []) as (is & bs & fs & sa & I & Lf & E). simpl in E.
  apply (safe_intro S K f sa args is bs fs E). rewrite Lf. unfold safeb in H. rewrite forallb_forall in H. apply H. exact I.
Qed.
