(** * Loops over arrays of any length (C56, C58) *)

From Coq Require Import String List ZArith Bool Reals Lia.
From Verif Require Import MiniC Contract SymCall SymTac Tac RScalar Cglm.
From Verif.Gen Require Import struct_vec2 struct_vec3 struct_vec4 struct_ivec2 struct_ivec3 struct_ivec4 struct_mat2 struct_mat3 struct_mat4 struct_quat.
From Verif.Proofs Require Import Loop Shape Struct Region.
(* props: From Verif.Gen Require Import struct_vec2 struct_vec3 struct_vec4 struct_ivec2 struct_ivec3 struct_ivec4 struct_mat2 struct_mat3 struct_mat4 struct_quat. *)
Import ListNotations.
Local Open Scope string_scope.
Local Open Scope Z_scope.
Local Open Scope list_scope.

Definition packfun (g : fundef) (k : Z) : fundef :=
  Fun [("dst", None); ("src", None); ("len", None)] [("i", None)]
    (SFor "i" (EI 0) (EV "len") (SExp (ECall g (Econs (EIx (EV "src") k (EV "i")) (Econs (EIx (EV "dst") k (EV "i")) Enil))))).

Section A.
Variable S : Scalar.
Notation F := (T S).

Lemma firstn_chunk : forall A (l : list A) i j, firstn (i + j) l = firstn i l ++ firstn j (skipn i l).
Proof. induction l; destruct i; simpl; intros; auto. rewrite !firstn_nil; auto. f_equal. apply IHl. Qed.

(** a function that copies [k] cells with property [Q] *)
Definition copies (g : fundef) (k : nat) (Q : cell F -> Prop) : Prop :=
  forall cs, length cs = k -> Forall Q cs -> computes S g [InA cs; Out k] VVoid [cs].

Lemma pack_ok : forall g k Q, copies g k Q -> (0 < k)%nat -> forall n cs, length cs = (n * k)%nat -> Forall Q cs ->
  computes S (packfun g (Z.of_nat k)) [Out (n * k); InA cs; Val (VI (Z.of_nat n))] VVoid [cs].
Proof.
  intros g k Q C K n cs L HQ m ps Y.
  pose proof (lay_placed _ _ _ Y) as PL. inversion PL as [|? dst ? ? Hd PL1 E1]; subst. inversion PL1 as [|? src ? ? Hs PL2 E2]; subst.
  inversion PL2 as [|? z ? ? _ PL3 E3]; subst. inversion PL3; subst. simpl in Hd, Hs.
  assert (Ap : apart dst (n * k) src (n * k) \/ dst = src).
  { pose proof (lay_compat _ _ _ Y 0%nat 1%nat _ _ _ _ ltac:(lia) eq_refl eq_refl eq_refl eq_refl eq_refl eq_refl) as H. rewrite <- L at 2. destruct H as [H|(_ & H & _)]; auto. }
  apply valid_readable in Hd. clear PL PL1 PL2 PL3 Y.
  change (combine (wptrs _ _) _) with [(dst, cs)]. change (upds m [(dst, cs)]) with (upd m dst cs).
  unfold packfun. cbn [actuals actual]. rewrite call_fun. cbn [bind_params rbind bind_locals app].
  rewrite exec_for. change (eval S (EI 0) ?r ?mm) with (@Ok (value F * mem F) (VI 0, mm)). cbn [rbind].
  match goal with |- context [eval S (EV "len") ?r ?mm] => change (eval S (EV "len") r mm) with (@Ok (value F * mem F) (VI (Z.of_nat n), mm)) end. cbn [rbind].
  rewrite Z.sub_0_r, Nat2Z.id.
  assert (X : forall j i x, (i + j = n)%nat ->
    exists r, forloop S "i" (SExp (ECall g (Econs (EIx (EV "src") (Z.of_nat k) (EV "i")) (Econs (EIx (EV "dst") (Z.of_nat k) (EV "i")) Enil))))
      j (Z.of_nat i) [("dst", VP (fst dst) (snd dst)); ("src", VP (fst src) (snd src)); ("len", VI (Z.of_nat n)); ("i", x)] (upd m dst (firstn (i * k) cs))
      = Ok (FNext, r, upd m dst cs)).
  { induction j; intros i x Hij.
    - replace (i * k)%nat with (length cs) by nia. rewrite firstn_all. eexists. reflexivity.
    - assert (Lf : length (firstn (i * k) cs) = (i * k)%nat) by (rewrite firstn_length; nia).
      assert (Lc : length (firstn k (skipn (i * k) cs)) = k) by (rewrite firstn_length, skipn_length; nia).
      assert (Hd' : readable S m dst (length (firstn (i * k) cs))).
      { rewrite Lf. pose proof (readable_part m dst _ 0 (i * k) Hd ltac:(nia)) as R. rewrite Z.add_0_r in R. destruct dst; exact R. }
      rewrite forloop_S, exec_exp. cbn [assign String.eqb Ascii.eqb Bool.eqb].
      match goal with |- context [eval S (ECall g ?es) ?r ?mm] => rewrite (eval_call S g es r [VP (fst src) (snd src + Z.of_nat i * Z.of_nat k); VP (fst dst) (snd dst + Z.of_nat i * Z.of_nat k)] mm eq_refl) end.
      rewrite <- Nat2Z.inj_mul.
      rewrite (call2 g (firstn k (skipn (i * k) cs)) k (firstn k (skipn (i * k) cs)) _ (fst src, snd src + Z.of_nat (i * k)) (fst dst, snd dst + Z.of_nat (i * k))).
      + cbn [rbind]. pose proof (upd_app m dst (firstn (i * k) cs) (firstn k (skipn (i * k) cs))) as U. rewrite Lf in U. rewrite U.
        * rewrite <- firstn_chunk. replace (i * k + k)%nat with (Datatypes.S i * k)%nat by lia. replace (Z.of_nat i + 1) with (Z.of_nat (Datatypes.S i)) by lia. apply IHj. lia.
        * rewrite Lc. pose proof (readable_part m dst _ 0 (i * k + k) Hd ltac:(nia)) as R; rewrite Z.add_0_r in R; destruct dst; exact R.
      + apply C; auto. apply Forall_forall. intros c I. rewrite Forall_forall in HQ. apply HQ.
        rewrite <- (firstn_skipn (i * k) cs). apply in_or_app. right. rewrite <- (firstn_skipn k (skipn (i * k) cs)). apply in_or_app. auto.
      + apply holds_upd_apart; auto.
        * rewrite Lf, Lc. destruct Ap as [Ap|<-].
          -- apply apart_sym, apart_part with (n := (n * k)%nat); [|nia]. apply apart_sym. pose proof (apart_part dst (n * k) src (n * k) 0 (i * k) Ap ltac:(nia)) as R. rewrite Z.add_0_r in R. destruct dst; exact R.
          -- right. left. simpl. lia.
        * apply holds_part; auto. nia.
      + apply readable_upd; auto. apply readable_part with (n := (n * k)%nat); auto. nia.
      + rewrite Lc. simpl. destruct Ap as [Ap|<-]; [left|right; auto].
        apply apart_part with (n := (n * k)%nat); [|nia]. apply apart_sym, apart_part with (n := (n * k)%nat); [|nia]. apply apart_sym. auto. }
  destruct (X n O VU eq_refl) as [r E]. cbn [Nat.mul firstn Z.of_nat] in E. rewrite upd_nil in E. rewrite E. cbn [rbind]. rewrite <- (upd_len m dst cs) at 1. rewrite firstn_all. reflexivity.
Qed.

(** ** Filling an array with copies of a local object *)
Lemma forloop_fill : forall g k cs dst mat t, (0 < k)%nat -> length cs = k -> computes S g [InA cs; Out k] VVoid [cs] ->
  mat <> "i" -> t <> "i" -> forall n r m bt, readable S m dst (n * k) ->
  (forall x, var S (assign "i" x r) mat = Ok (VP (fst dst) (snd dst))) -> (forall x, var S (assign "i" x r) t = Ok (VP bt 0)) ->
  (forall x y, assign "i" x (assign "i" y r) = assign "i" x r) -> (forall z, var S (assign "i" (VI z) r) "i" = Ok (VI z)) ->
  bt = length m ->
  exists r', forloop S "i" (SExp (ECall g (Econs (EV t) (Econs (EIx (EV mat) (Z.of_nat k) (EV "i")) Enil)))) n 0 r (m ++ [cs])
    = Ok (FNext, r', upd m dst (List.concat (repeat cs n)) ++ [cs]).
Proof.
  intros g k cs dst mat t K L C Nm Nt n r m bt Hd Vm Vt As Vi Hbt.
  destruct n as [|n']; [eexists; reflexivity|]. remember (Datatypes.S n') as n eqn:En.
  assert (Hb : (fst dst < length m)%nat).
  { destruct (mread m (fst dst) (snd dst)) eqn:E; [apply (mread_lt _ _ _ _ _ E)|]. exfalso. apply (Hd (fst dst) (snd dst)); auto. split; nia. }
  assert (X : forall j i y, (i + j = n)%nat -> exists r',
    forloop S "i" (SExp (ECall g (Econs (EV t) (Econs (EIx (EV mat) (Z.of_nat k) (EV "i")) Enil)))) j (Z.of_nat i) (assign "i" y r) (upd m dst (List.concat (repeat cs i)) ++ [cs])
    = Ok (FNext, r', upd m dst (List.concat (repeat cs n)) ++ [cs])).
  { assert (LL : forall i, length (List.concat (repeat cs i)) = (i * k)%nat).
    { induction i; simpl; auto. rewrite app_length, IHi. lia. }
    assert (PP : forall i, (i <= n)%nat -> readable S m dst (i * k)).
    { intros i Hi. pose proof (readable_part m dst _ 0 (i * k) Hd ltac:(nia)) as R. rewrite Z.add_0_r in R. destruct dst; exact R. }
    induction j; intros i y Hij.
    - replace i with n by lia. eexists. reflexivity.
    - rewrite forloop_S, exec_exp, As.
      match goal with |- context [eval S (ECall g ?es) ?rr ?mm] => rewrite (eval_call S g es rr [VP bt 0; VP (fst dst) (snd dst + Z.of_nat i * Z.of_nat k)] mm) end.
      2:{ cbn [evals eval]. fold (eval S) (evals S). rewrite Vt. cbn [rbind]. rewrite Vm. cbn [rbind]. rewrite Vi. reflexivity. }
      rewrite <- Nat2Z.inj_mul.
      rewrite (call2 g cs k cs _ (bt, 0) (fst dst, snd dst + Z.of_nat (i * k))); auto.
      + cbn [rbind]. rewrite upd_l by (rewrite upd_len; exact Hb).
        pose proof (upd_app m dst (List.concat (repeat cs i)) cs) as U. rewrite LL in U. rewrite U by (rewrite L; replace (i * k + k)%nat with (Datatypes.S i * k)%nat by lia; apply PP; lia).
        replace (List.concat (repeat cs i) ++ cs) with (List.concat (repeat cs (Datatypes.S i))).
        2:{ clear. induction i; simpl. rewrite app_nil_r; auto. rewrite <- app_assoc. f_equal. simpl in IHi. exact IHi. }
        replace (Z.of_nat i + 1) with (Z.of_nat (Datatypes.S i)) by lia. apply IHj. lia.
      + subst bt. rewrite <- (upd_len m dst (List.concat (repeat cs i))). apply holds_block.
      + intros b o I. rewrite mread_l by (destruct I as [-> _]; rewrite upd_len; exact Hb). revert b o I. apply readable_upd. rewrite LL. apply PP. lia.
        apply readable_part with (n := (n * k)%nat); auto. nia.
      + left. left. simpl. lia. }
  subst n.
  assert (E0 : upd m dst (List.concat (repeat cs 0)) = m) by reflexivity.
  specialize (X (Datatypes.S n') 0%nat (VI 0) eq_refl). rewrite E0 in X. destruct X as [r' X]. rewrite forloop_S in X |- *. rewrite As in X. eauto.
Qed.

Lemma init_step : forall p n d rest r (m : mem F) blk z, eval S p r (m ++ [blk]) = Ok (VP (length m) z, m ++ [blk]) -> 0 <= z < Z.of_nat (length blk) ->
  exec S (SSeq (SSt p (EF n d)) rest) r (m ++ [blk]) = exec S rest r (m ++ [lset blk (Z.to_nat z) (CF (s_lit S n d))]).
Proof.
  intros p n d rest r m blk z E H. rewrite exec_seq.
  change (exec S (SSt p (EF n d)) r (m ++ [blk])) with
    (do (vp, m1) <- eval S p r (m ++ [blk]); do (v, m2) <- eval S (EF n d) r m1; do m3 <- store S m2 vp v; @Ok (flow F * env F * mem F) (FNext, r, m3)).
  rewrite E. cbn [rbind]. change (eval S (EF n d) r (m ++ [blk])) with (@Ok (value F * mem F) (VF (s_lit S n d), m ++ [blk])). cbn [rbind].
  unfold store. cbn [to_ptr rbind v2c]. unfold mwrite, mread. destruct (Z.ltb_spec z 0); [lia|].
  rewrite nth_error_app2, Nat.sub_diag by lia. cbn [nth_error]. destruct (nth_error blk (Z.to_nat z)) eqn:X.
  2:{ apply nth_error_None in X. lia. }
  cbn [of_opt rbind]. do 2 f_equal. replace (length m) with (length m + 0)%nat by lia. rewrite lset_app_r. reflexivity.
Qed.

End A.
