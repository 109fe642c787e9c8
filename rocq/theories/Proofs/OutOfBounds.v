(** * Out-of-range indices (C11) *)

From Coq Require Import String List ZArith Bool Lia.
From Verif Require Import Cglm.
From Verif.Spec Require Import Exchange.
From Verif.Proofs Require Import Layout RExact MatMisc.
Import ListNotations.
Local Open Scope Z_scope.

Lemma mread_out : forall F (m : mem F) l b o, nth_error m b = Some l -> o < 0 \/ Z.of_nat (length l) <= o -> mread m b o = None.
Proof.
  intros F m l b o E H. unfold mread. destruct (Z.ltb_spec o 0); [reflexivity|]. rewrite E. apply nth_error_None. lia.
Qed.
Ltac rd :=
  match goal with
  | |- context [mread ?m ?b ?o] =>
    first [ erewrite (mread_out _ m _ b o) by (first [reflexivity | cbn [length]; lia])
          | let r := eval vm_compute in (mread m b o) in
            lazymatch r with Some _ => change (mread m b o) with r | None => change (mread m b o) with r end ]
  | |- context [mwrite ?m ?b ?o ?c] =>
    let r := eval vm_compute in (mwrite m b o c) in
    lazymatch r with Some _ => change (mwrite m b o c) with r | None => change (mwrite m b o c) with r end end.
Ltac st := cbn -[mread mwrite Z.add Z.mul]; try reflexivity.


Lemma mat2_col_out : forall (S : Scalar) A i j, length A = 4%nat -> ~ (0 <= i < 2 /\ 0 <= j < 2) ->
  call S glm_mat2_swap_col [VP 0 0; VI i; VI j] [fl A] = Err XBounds.
Proof.
  intros S A i j L H. unlists. assert (D : i < 0 \/ 2 <= i \/ i = 0 \/ i = 1) by lia.
  destruct D as [D|[D|D]]; [st; repeat (rd; st).. |].
  assert (Hj : j < 0 \/ 2 <= j) by lia. clear H.
  repeat (destruct D as [->|D]; [st; repeat (rd; st)|]). subst i. st; repeat (rd; st).
Qed.
Lemma mat2_row_out : forall (S : Scalar) A i j, length A = 4%nat -> ~ (0 <= i < 2 /\ 0 <= j < 2) ->
  call S glm_mat2_swap_row [VP 0 0; VI i; VI j] [fl A] = Err XBounds.
Proof.
  intros S A i j L H. unlists. assert (D : i < 0 \/ 4 <= i \/ (i = 2 \/ i = 3) \/ i = 0 \/ i = 1) by lia.
  destruct D as [D|[D|[D|D]]]; [st; repeat (rd; st).. | |].
  - clear H. repeat (destruct D as [->|D]; [vm_compute; reflexivity|]). subst i. vm_compute. reflexivity.
  - assert (J : j < 0 \/ 4 <= j \/ j = 2 \/ j = 3) by lia. clear H. destruct J as [J|[J|J]].
    + repeat (destruct D as [->|D]; [st; repeat (rd; st)|]). subst i. st; repeat (rd; st).
    + repeat (destruct D as [->|D]; [st; repeat (rd; st)|]). subst i. st; repeat (rd; st).
    + repeat (destruct J as [->|J]; [repeat (destruct D as [->|D]; [vm_compute; reflexivity|]); subst i; vm_compute; reflexivity|]).
      subst j. repeat (destruct D as [->|D]; [vm_compute; reflexivity|]); subst i; vm_compute; reflexivity.
Qed.

Lemma mat3_col_out : forall (S : Scalar) A i j, length A = 9%nat -> ~ (0 <= i < 3 /\ 0 <= j < 3) ->
  call S glm_mat3_swap_col [VP 0 0; VI i; VI j] [fl A] = Err XBounds.
Proof.
  intros S A i j L H. unlists. assert (D : i < 0 \/ 3 <= i \/ i = 0 \/ i = 1 \/ i = 2) by lia.
  destruct D as [D|[D|D]]; [st; repeat (rd; st).. |].
  assert (Hj : j < 0 \/ 3 <= j) by lia. clear H.
  repeat (destruct D as [->|D]; [st; repeat (rd; st)|]). subst i. st; repeat (rd; st).
Qed.
Lemma mat3_row_out : forall (S : Scalar) A i j, length A = 9%nat -> ~ (0 <= i < 3 /\ 0 <= j < 3) ->
  call S glm_mat3_swap_row [VP 0 0; VI i; VI j] [fl A] = Err XBounds.
Proof.
  intros S A i j L H. unlists. assert (D : i < 0 \/ 9 <= i \/ (i = 3 \/ i = 4 \/ i = 5 \/ i = 6 \/ i = 7 \/ i = 8) \/ i = 0 \/ i = 1 \/ i = 2) by lia.
  destruct D as [D|[D|[D|D]]]; [st; repeat (rd; st).. | |].
  - clear H. repeat (destruct D as [->|D]; [vm_compute; reflexivity|]). subst i. vm_compute. reflexivity.
  - assert (J : j < 0 \/ 9 <= j \/ j = 3 \/ j = 4 \/ j = 5 \/ j = 6 \/ j = 7 \/ j = 8) by lia. clear H. destruct J as [J|[J|J]].
    + repeat (destruct D as [->|D]; [st; repeat (rd; st)|]). subst i. st; repeat (rd; st).
    + repeat (destruct D as [->|D]; [st; repeat (rd; st)|]). subst i. st; repeat (rd; st).
    + repeat (destruct J as [->|J]; [repeat (destruct D as [->|D]; [vm_compute; reflexivity|]); subst i; vm_compute; reflexivity|]).
      subst j. repeat (destruct D as [->|D]; [vm_compute; reflexivity|]); subst i; vm_compute; reflexivity.
Qed.

Lemma mat4_col_out : forall (S : Scalar) A i j, length A = 16%nat -> ~ (0 <= i < 4 /\ 0 <= j < 4) ->
  call S glm_mat4_swap_col [VP 0 0; VI i; VI j] [fl A] = Err XBounds.
Proof.
  intros S A i j L H. unlists. assert (D : i < 0 \/ 4 <= i \/ i = 0 \/ i = 1 \/ i = 2 \/ i = 3) by lia.
  destruct D as [D|[D|D]]; [st; repeat (rd; st).. |].
  assert (Hj : j < 0 \/ 4 <= j) by lia. clear H.
  repeat (destruct D as [->|D]; [st; repeat (rd; st)|]). subst i. st; repeat (rd; st).
Qed.
Lemma mat4_row_out : forall (S : Scalar) A i j, length A = 16%nat -> ~ (0 <= i < 4 /\ 0 <= j < 4) ->
  call S glm_mat4_swap_row [VP 0 0; VI i; VI j] [fl A] = Err XBounds.
Proof.
  intros S A i j L H. unlists. assert (D : i < 0 \/ 16 <= i \/ (i = 4 \/ i = 5 \/ i = 6 \/ i = 7 \/ i = 8 \/ i = 9 \/ i = 10 \/ i = 11 \/ i = 12 \/ i = 13 \/ i = 14 \/ i = 15) \/ i = 0 \/ i = 1 \/ i = 2 \/ i = 3) by lia.
  destruct D as [D|[D|[D|D]]]; [st; repeat (rd; st).. | |].
  - clear H. repeat (destruct D as [->|D]; [vm_compute; reflexivity|]). subst i. vm_compute. reflexivity.
  - assert (J : j < 0 \/ 16 <= j \/ j = 4 \/ j = 5 \/ j = 6 \/ j = 7 \/ j = 8 \/ j = 9 \/ j = 10 \/ j = 11 \/ j = 12 \/ j = 13 \/ j = 14 \/ j = 15) by lia. clear H. destruct J as [J|[J|J]].
    + repeat (destruct D as [->|D]; [st; repeat (rd; st)|]). subst i. st; repeat (rd; st).
    + repeat (destruct D as [->|D]; [st; repeat (rd; st)|]). subst i. st; repeat (rd; st).
    + repeat (destruct J as [->|J]; [repeat (destruct D as [->|D]; [vm_compute; reflexivity|]); subst i; vm_compute; reflexivity|]).
      subst j. repeat (destruct D as [->|D]; [vm_compute; reflexivity|]); subst i; vm_compute; reflexivity.
Qed.

Lemma alone : forall (S : Scalar) n (A : list (T S)) i j, (2 <= n <= 4)%nat -> length A = (n * n)%nat ->
  layout [fl A] [InOut (fl A); Val (VI i); Val (VI j)] [(0%nat, 0); (0%nat, 0); (0%nat, 0)].
Proof.
  intros S n A i j Hn L. split.
  - repeat constructor. unfold placed. simpl. unfold holds. assert (n = 2 \/ n = 3 \/ n = 4)%nat as [E|[E|E]] by lia; subst n; unlists; reflexivity.
  - intros a b x y p q N Ea Eb Ep Eq. unfold compatible.
    destruct a as [|[|[|a]]]; simpl in Ea; try discriminate; try (destruct a; discriminate); injection Ea as <-; simpl; try discriminate.
    destruct b as [|[|[|b]]]; simpl in Eb; try discriminate; try (destruct b; discriminate); injection Eb as <-; simpl; try discriminate; try lia.
Qed.
(** an index out of range accesses memory outside the matrix: shown where the matrix is alone in memory *)
Lemma C11_outside_ok : forall (S : Scalar) n A i j, (2 <= n <= 4)%nat -> length A = (n * n)%nat ->
  ~ (0 <= i < Z.of_nat n /\ 0 <= j < Z.of_nat n) -> forall cols, exists m ps,
  layout m [InOut (fl A); Val (VI i); Val (VI j)] ps /\
  call S (exchange n cols) (actuals [InOut (fl A); Val (VI i); Val (VI j)] ps) m = Err XBounds.
Proof.
  intros S n A i j Hn L H cols. exists [fl A], [(0%nat, 0); (0%nat, 0); (0%nat, 0)]. split; [exact (alone S n A i j Hn L)|].
  simpl. assert (n = 2 \/ n = 3 \/ n = 4)%nat as [E|[E|E]] by lia; subst n; destruct cols;
    [apply mat2_col_out|apply mat2_row_out|apply mat3_col_out|apply mat3_row_out|apply mat4_col_out|apply mat4_row_out]; assumption.
Qed.
Lemma C11_outside_ex : forall S : Scalar, let A := map (fun n => s_lit S (Z.of_nat n) 1) (seq 0 9) in
  call S glm_mat3_swap_row [VP 0 0; VI 1; VI 3] [fl A] = Err XBounds.
Proof. vm_compute. reflexivity. Qed.
