(** * The helpers on vector registers in the SIMD headers (C71) *)
(* props: From Coq Require Import Reals. *)
(* props: From Verif Require Import RScalar. *)
(* props: From Verif.Simd Require Import sse2 avx fma neon neon32 wasm. *)
(* props: From Verif.Spec Require Import Lanes Linear. *)
From Coq Require Import List ZArith Reals Lra Lia.
From Verif Require Import MiniC Sym SymSound Contract SymCall SymTac Tac RScalar.
From Verif.Simd Require Import sse2 avx fma neon neon32 wasm.
From Verif.Spec Require Import Lanes Linear.
From Verif.Proofs Require Import RTac.
Import ListNotations.
Open Scope R_scope.

Lemma takes_intro : forall S f regs v,
  (forall m, call S f (map lanes regs) m = Ok (v, m)) -> takes S f regs v.
Proof.
  intros S f regs v H m ps [P _].
  assert (A : actuals (map (fun l => Val (lanes l)) regs) ps = map lanes regs).
  { clear H. revert ps P. induction regs as [|r regs IH]; intros ps P; inversion P; subst; simpl; auto. f_equal. apply IH. auto. }
  assert (W : wptrs (F := T S) (map (fun l => Val (lanes l)) regs) ps = []).
  { clear. revert ps. induction regs; destruct ps; simpl; auto. }
  rewrite A, W, H. reflexivity.
Qed.
Lemma four_inv : forall A (l : list A), four l -> exists x y z w, l = [x; y; z; w].
Proof. intros A l H. do 5 (destruct l as [|? l]; try discriminate). repeat eexists. Qed.
Lemma eight_inv : forall A (l : list A), eight l -> exists x y z w p q r s, l = [x; y; z; w; p; q; r; s].
Proof. intros A l H. do 9 (destruct l as [|? l]; try discriminate). repeat eexists. Qed.
Ltac un := repeat match goal with
  | H : four ?l |- _ => apply four_inv in H; destruct H as (? & ? & ? & ? & ->)
  | H : eight ?l |- _ => apply eight_inv in H; destruct H as (? & ? & ? & ? & ? & ? & ? & ? & ->) end.
Ltac fcbv := cbv -[firstn length Rplus Rmult Rminus Ropp Rdiv Rinv Rabs Rmin Rmax sqrt IZR Rltb Rleb Reqb]; rewrite ?firstn_all.
Ltac each := repeat (apply Forall_cons || apply Forall_nil).
Lemma min_if : forall x y, (if Rltb x y then x else y) = Rmin x y.
Proof. intros. unfold Rmin. destruct (Rltb x y) eqn:E; [apply Rltb_true in E|apply Rltb_false in E]; destruct (Rle_dec x y); lra. Qed.
Lemma max_if : forall x y, (if Rltb y x then x else y) = Rmax x y.
Proof. intros. unfold Rmax. destruct (Rltb y x) eqn:E; [apply Rltb_true in E|apply Rltb_false in E]; destruct (Rle_dec x y); lra. Qed.
Lemma nz_if : forall x, x <> 0 -> Reqb x 0 = false.
Proof. intros. apply Reqb_false. auto. Qed.
Ltac lane := apply takes_intro; intros m; fcbv; rewrite ?min_if, ?max_if.
Ltac apartl := rewrite ?firstn_all; f_equal; f_equal; try reflexivity;
  repeat match goal with |- VV _ = VV _ => f_equal | |- LF _ = LF _ => f_equal | |- cons _ _ = cons _ _ => apply f_equal2 | |- VF _ = VF _ => f_equal end; try reflexivity.
Ltac lanego := intros; un; each; lane; apartl; try ring.

Lemma C71_abs_ok : forall a, four a ->
  Forall (fun f => takes RS f [a] (lanes (map Rabs a)))
    [sse2_glmm_abs; avx_glmm_abs; fma_glmm_abs; neon_glmm_abs; neon32_glmm_abs; wasm_glmm_abs].
Proof. lanego. Qed.
Lemma C71_min_ok : forall a b, four a -> four b ->
  Forall (fun f => takes RS f [a; b] (lanes (each2 Rmin a b)))
    [sse2_glmm_min; avx_glmm_min; fma_glmm_min; neon_glmm_min; neon32_glmm_min; wasm_glmm_min].
Proof. lanego. Qed.
Lemma C71_max_ok : forall a b, four a -> four b ->
  Forall (fun f => takes RS f [a; b] (lanes (each2 Rmax a b)))
    [sse2_glmm_max; avx_glmm_max; fma_glmm_max; neon_glmm_max; neon32_glmm_max; wasm_glmm_max].
Proof. lanego. Qed.
(** neon32: two Newton steps from an estimate that the model over the reals takes as exact *)
Lemma C71_div_ok : forall a b, four a -> four b -> Forall (fun y => y <> 0) b ->
  Forall (fun f => takes RS f [a; b] (lanes (each2 Rdiv a b)))
    [sse2_glmm_div; avx_glmm_div; fma_glmm_div; neon_glmm_div; neon32_glmm_div; wasm_glmm_div].
Proof.
  intros a b A B N. un. repeat match goal with H : Forall _ (_ :: _) |- _ => inversion H; clear H; subst end.
  each; lane; rewrite !nz_if by auto; cbn [negb]; apartl; try (field; auto).
Qed.
Lemma C71_fused_ok : forall a b c, four a -> four b -> four c ->
  Forall (fun f => takes RS f [a; b; c] (lanes (each3 (fun x y z => x * y + z) a b c)))
    [sse2_glmm_fmadd; avx_glmm_fmadd; fma_glmm_fmadd; neon_glmm_fmadd; neon32_glmm_fmadd; wasm_glmm_fmadd] /\
  Forall (fun f => takes RS f [a; b; c] (lanes (each3 (fun x y z => - (x * y) + z) a b c)))
    [sse2_glmm_fnmadd; avx_glmm_fnmadd; fma_glmm_fnmadd; neon_glmm_fnmadd; neon32_glmm_fnmadd; wasm_glmm_fnmadd] /\
  Forall (fun f => takes RS f [a; b; c] (lanes (each3 (fun x y z => x * y - z) a b c)))
    [sse2_glmm_fmsub; avx_glmm_fmsub; fma_glmm_fmsub; neon_glmm_fmsub; neon32_glmm_fmsub; wasm_glmm_fmsub] /\
  Forall (fun f => takes RS f [a; b; c] (lanes (each3 (fun x y z => - (x * y) - z) a b c)))
    [sse2_glmm_fnmsub; avx_glmm_fnmsub; fma_glmm_fnmsub; neon_glmm_fnmsub; neon32_glmm_fnmsub; wasm_glmm_fnmsub].
Proof. intros. repeat split; lanego. Qed.
Lemma C71_fused256_ok : forall a b c, eight a -> eight b -> eight c ->
  Forall (fun f => takes RS f [a; b; c] (lanes (each3 (fun x y z => x * y + z) a b c))) [avx_glmm256_fmadd; fma_glmm256_fmadd] /\
  Forall (fun f => takes RS f [a; b; c] (lanes (each3 (fun x y z => - (x * y) + z) a b c))) [avx_glmm256_fnmadd; fma_glmm256_fnmadd] /\
  Forall (fun f => takes RS f [a; b; c] (lanes (each3 (fun x y z => x * y - z) a b c))) [avx_glmm256_fmsub; fma_glmm256_fmsub].
Proof. intros. repeat split; lanego. Qed.

Lemma C71_hadd_ok : forall a, four a ->
  Forall (fun f => takes RS f [a] (VF (total a)))
    [sse2_glmm_hadd; avx_glmm_hadd; fma_glmm_hadd; neon_glmm_hadd; neon32_glmm_hadd; wasm_glmm_hadd] /\
  Forall (fun f => takes RS f [a] (lanes (repeat (total a) 4)))
    [sse2_glmm_vhadd; avx_glmm_vhadd; fma_glmm_vhadd; neon_glmm_vhadd; neon32_glmm_vhadd; wasm_glmm_vhadd] /\
  Forall (fun f => lowest RS f [a] (total a)) [sse2_glmm_vhadds; avx_glmm_vhadds; fma_glmm_vhadds; wasm_glmm_vhadds].
Proof.
  intros a A. un. split; [lanego|split; [lanego|]].
  each; eapply (ex_intro _ [_; _; _]); (split; [|apply takes_intro; intros m; fcbv; apartl; [ring|..]; reflexivity]); reflexivity.
Qed.
Lemma least_unique : forall x y l, least x l -> least y l -> x = y.
Proof. intros x y l [A B] [C D]. rewrite Forall_forall in B, D. apply Rle_antisym; auto. Qed.
Lemma greatest_unique : forall x y l, greatest x l -> greatest y l -> x = y.
Proof. intros x y l [A B] [C D]. rewrite Forall_forall in B, D. apply Rle_antisym; auto. Qed.
Lemma least4 : forall x y z w, least (Rmin (Rmin x y) (Rmin z w)) [x; y; z; w].
Proof.
  intros. split; [|each; unfold Rmin; repeat destruct (Rle_dec _ _); lra].
  unfold Rmin. repeat destruct (Rle_dec _ _); simpl; auto.
Qed.
Lemma greatest4 : forall x y z w, greatest (Rmax (Rmax x y) (Rmax z w)) [x; y; z; w].
Proof.
  intros. split; [|each; unfold Rmax; repeat destruct (Rle_dec _ _); lra].
  unfold Rmax. repeat destruct (Rle_dec _ _); simpl; auto.
Qed.
Lemma C71_hmin_ok : forall a x, four a -> least x a ->
  Forall (fun f => takes RS f [a] (VF x))
    [sse2_glmm_hmin; avx_glmm_hmin; fma_glmm_hmin; neon_glmm_hmin; neon32_glmm_hmin; wasm_glmm_hmin] /\
  Forall (fun f => lowest RS f [a] x) [sse2_glmm_vhmin; avx_glmm_vhmin; fma_glmm_vhmin; wasm_glmm_vhmin].
Proof.
  intros a x A L. un. pose proof (least_unique _ _ _ L (least4 _ _ _ _)) as ->. split.
  - each; lane; apartl; unfold Rmin; repeat destruct (Rle_dec _ _); lra.
  - each; eapply (ex_intro _ [_; _; _]); (split; [|apply takes_intro; intros m; fcbv; rewrite ?min_if; apartl; [unfold Rmin; repeat destruct (Rle_dec _ _); lra|..]; reflexivity]); reflexivity.
Qed.
Lemma C71_hmax_ok : forall a x, four a -> greatest x a ->
  Forall (fun f => takes RS f [a] (VF x))
    [sse2_glmm_hmax; avx_glmm_hmax; fma_glmm_hmax; neon_glmm_hmax; neon32_glmm_hmax; wasm_glmm_hmax] /\
  Forall (fun f => lowest RS f [a] x) [sse2_glmm_vhmax; avx_glmm_vhmax; fma_glmm_vhmax; wasm_glmm_vhmax].
Proof.
  intros a x A L. un. pose proof (greatest_unique _ _ _ L (greatest4 _ _ _ _)) as ->. split.
  - each; lane; apartl; unfold Rmax; repeat destruct (Rle_dec _ _); lra.
  - each; eapply (ex_intro _ [_; _; _]); (split; [|apply takes_intro; intros m; fcbv; rewrite ?max_if; apartl; [unfold Rmax; repeat destruct (Rle_dec _ _); lra|..]; reflexivity]); reflexivity.
Qed.
Lemma C71_dot_ok : forall a b, four a -> four b ->
  Forall (fun f => takes RS f [a; b] (VF (rdot a b)))
    [sse2_glmm_dot; avx_glmm_dot; fma_glmm_dot; neon_glmm_dot; neon32_glmm_dot; wasm_glmm_dot] /\
  Forall (fun f => takes RS f [a; b] (lanes (repeat (rdot a b) 4)))
    [sse2_glmm_vdot; avx_glmm_vdot; fma_glmm_vdot; neon_glmm_vdot; neon32_glmm_vdot; wasm_glmm_vdot] /\
  Forall (fun f => lowest RS f [a; b] (rdot a b)) [sse2_glmm_vdots; avx_glmm_vdots; fma_glmm_vdots; wasm_glmm_vdots].
Proof.
  intros a b A B. un. split; [lanego|split; [lanego|]].
  each; eapply (ex_intro _ [_; _; _]); (split; [|apply takes_intro; intros m; fcbv; apartl; [ring|..]; reflexivity]); reflexivity.
Qed.
Lemma C71_norm_ok : forall a, four a ->
  Forall (fun f => takes RS f [a] (VF (sqrt (rdot a a))))
    [sse2_glmm_norm; avx_glmm_norm; fma_glmm_norm; neon_glmm_norm; neon32_glmm_norm; wasm_glmm_norm] /\
  Forall (fun f => takes RS f [a] (VF (rdot a a)))
    [sse2_glmm_norm2; avx_glmm_norm2; fma_glmm_norm2; neon_glmm_norm2; neon32_glmm_norm2; wasm_glmm_norm2] /\
  Forall (fun f => takes RS f [a] (VF (total (map Rabs a))))
    [sse2_glmm_norm_one; avx_glmm_norm_one; fma_glmm_norm_one; neon_glmm_norm_one; neon32_glmm_norm_one; wasm_glmm_norm_one] /\
  (forall x, greatest x (map Rabs a) -> Forall (fun f => takes RS f [a] (VF x))
    [sse2_glmm_norm_inf; avx_glmm_norm_inf; fma_glmm_norm_inf; neon_glmm_norm_inf; neon32_glmm_norm_inf; wasm_glmm_norm_inf]).
Proof.
  intros a A. un. split; [|split; [lanego|split; [lanego|]]].
  - each; lane; repeat match goal with |- context [Rleb 0 ?t] => rewrite (proj2 (Rleb_true 0 t)) by nra end; apartl; apply f_equal; ring.
  - intros w G. pose proof (greatest_unique _ _ _ G (greatest4 _ _ _ _)) as ->.
    each; lane; apartl; unfold Rmax; repeat destruct (Rle_dec _ _); lra.
Qed.

(** the eight-lane negated multiply-subtract: without fused operations it is c - ab, with them ab - c *)
Lemma C71_fnmsub256_actual_ok : forall a b c, eight a -> eight b -> eight c ->
  takes RS avx_glmm256_fnmsub [a; b; c] (lanes (each3 (fun x y z => z - x * y) a b c)) /\
  takes RS fma_glmm256_fnmsub [a; b; c] (lanes (each3 (fun x y z => x * y - z) a b c)).
Proof. intros. un. split; lane; apartl; ring. Qed.
Lemma takes_fun : forall S f regs v w, takes S f regs v -> takes S f regs w -> v = w.
Proof.
  intros S f regs v w H1 H2.
  assert (L : layout (F := T S) [] (map (fun l => Val (lanes l)) regs) (map (fun _ => (0%nat, 0%Z)) regs)).
  { split.
    - clear. induction regs; simpl; constructor; simpl; auto.
    - intros i j p q x y _ P _ _ _ W. rewrite nth_error_map in P. destruct (nth_error regs i); inversion P; subst. discriminate. }
  specialize (H1 _ _ L). specialize (H2 _ _ L). congruence.
Qed.
Lemma C71_fnmsub256_refuted_ok : Forall (fun f => exists a b c, eight a /\ eight b /\ eight c /\
  ~ takes RS f [a; b; c] (lanes (each3 (fun x y z => - (x * y) - z) a b c))) [avx_glmm256_fnmsub; fma_glmm256_fnmsub].
Proof.
  each; exists (repeat 1 8), (repeat 1 8), (repeat 1 8); (split; [reflexivity|]); (split; [reflexivity|]); (split; [reflexivity|]); intros H;
    destruct (C71_fnmsub256_actual_ok (repeat 1 8) (repeat 1 8) (repeat 1 8) eq_refl eq_refl eq_refl) as [A B].
  - pose proof (takes_fun _ _ _ _ _ H A) as E. cbv -[Rplus Rmult Rminus Ropp IZR] in E. inversion E. lra.
  - pose proof (takes_fun _ _ _ _ _ H B) as E. cbv -[Rplus Rmult Rminus Ropp IZR] in E. inversion E. lra.
Qed.

Lemma C71_load3_ok : forall x y z,
  Forall (fun f => computes RS f [In (fl [x; y; z])] (lanes [x; y; z; 0]) []) [sse2_glmm_load3; avx_glmm_load3; fma_glmm_load3; wasm_glmm_load3].
Proof. intros. each; unfold lanes; symr; rprep. Qed.
Lemma C71_store3_ok : forall x y z w,
  Forall (fun f => computes RS f [Out 3; Val (lanes [x; y; z; w])] VVoid [fl [x; y; z]]) [sse2_glmm_store3; avx_glmm_store3; fma_glmm_store3; wasm_glmm_store3].
Proof.
  intros. each.
  all: apply (computes_intro RS 20%nat _ [SOut 3; SVal (XV [YF (SVar 0); YF (SVar 1); YF (SVar 2); YF (SVar 3)])] _ _ _ [] [] [x; y; z; w]); [intros; reflexivity|].
  all: match goal with |- Forall _ (patterns ?a) => let p := eval vm_compute in (patterns a) in change (patterns a) with p end; each; sym_obl; rprep.
Qed.

(** registers meeting the hypotheses *)
Lemma C71_div_ex : four [1; 2; 3; 4] /\ four [4; 3; 2; 1] /\ Forall (fun y => y <> 0) [4; 3; 2; 1] /\ each2 Rdiv [1; 2; 3; 4] [4; 3; 2; 1] = [/ 4; 2 / 3; 3 / 2; 4].
Proof. split; [reflexivity|]. split; [reflexivity|]. split; [repeat (apply Forall_cons; [lra|]); apply Forall_nil|]. simpl. repeat apply f_equal2; try reflexivity; lra. Qed.
Lemma C71_hmin_ex : four [3; 1; 4; 2] /\ least 1 [3; 1; 4; 2].
Proof. split; [reflexivity|]. split; [simpl; tauto|]. repeat (apply Forall_cons; [lra|]). apply Forall_nil. Qed.
Lemma C71_hmax_ex : four [3; 1; 4; 2] /\ greatest 4 [3; 1; 4; 2].
Proof. split; [reflexivity|]. split; [simpl; tauto|]. repeat (apply Forall_cons; [lra|]). apply Forall_nil. Qed.
Lemma C71_fused_ex : four [1; 2; 3; 4] /\ each3 (fun x y z => - (x * y) - z) [1; 2; 3; 4] [1; 1; 2; 2] [5; 5; 5; 5] = [- 6; - 7; - 11; - 13].
Proof. split; [reflexivity|]. simpl. repeat apply f_equal2; try reflexivity; lra. Qed.
Lemma C71_dot_ex : four [1; 2; 3; 4] /\ rdot [1; 2; 3; 4] [4; 3; 2; 1] = 20.
Proof. split; [reflexivity|]. cbv -[Rplus Rmult IZR]. lra. Qed.
Lemma C71_norm_ex : four [1; -1; 1; -1] /\ sqrt (rdot [1; -1; 1; -1] [1; -1; 1; -1]) = 2.
Proof. split; [reflexivity|]. replace (rdot [1; -1; 1; -1] [1; -1; 1; -1]) with (2 * 2) by (cbv -[Rplus Rmult IZR]; lra). apply sqrt_square. lra. Qed.
