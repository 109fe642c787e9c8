(** * Independence of the placement of the arguments (C68) *)

From Coq Require Import String List ZArith Bool Lia Floats.SpecFloat.
From Verif Require Import MiniC B32 Contract Sym SymSound SymCall Cglm.
From Verif.Gen Require Import struct_box struct_ray.
From Verif.Simd Require sse2 avx fma neon neon32 wasm.
From Verif.Spec Require Import Types Agree Signatures Builds Placed.
From Verif.Proofs Require Import Safe Placed.
(* props: From Verif Require Import B32. *)
(* props: From Verif.Gen Require Import struct_box struct_ray. *)
(* props: From Verif.Simd Require sse2. *)
Import ListNotations.
Local Open Scope list_scope.

(** ** All but the listed functions *)
Definition skip_idx : list nat := [5; 24; 25; 75; 260; 401; 402; 416; 423; 429; 447; 454; 462; 469; 486; 493; 503; 524; 543; 596; 995; 1293; 1381; 1456; 1457]%nat.
Definition simd_skip_idx : list nat := [50; 51; 81; 82; 160; 242; 243; 273; 274; 352; 434; 435; 465; 466; 544; 622; 623; 651; 652; 730; 808; 809; 837; 838; 916; 999; 1000; 1037; 1038; 1116]%nat.
Definition rest_ok (skip : list nat) (l : list (fundef * list param)) : bool :=
  forallb (fun ip => if existsb (Nat.eqb (fst ip)) skip then true else detb 2 (fst (snd ip)) (snd (snd ip))) (combine (seq 0 (length l)) l).
Lemma rest_det : forall skip l (d : fundef * list param), rest_ok skip l = true ->
  forall p, List.In p l -> determined (fst p) (snd p) \/ List.In p (map (fun i => nth i l d) skip).
Proof.
  intros skip l d H p I. destruct (In_nth _ _ d I) as (i & Hi & <-). unfold rest_ok in H. rewrite forallb_forall in H.
  assert (J : List.In (i, nth i l d) (combine (seq 0 (length l)) l)).
  { replace (i, nth i l d) with (nth i (combine (seq 0 (length l)) l) (O, d)).
    - apply nth_In. rewrite combine_length, seq_length. lia.
    - rewrite combine_nth by apply seq_length. rewrite seq_nth by auto. reflexivity. }
  specialize (H _ J). simpl in H. destruct (existsb (Nat.eqb i) skip) eqn:E.
  - right. apply existsb_exists in E. destruct E as (j & Hj & E). apply Nat.eqb_eq in E. subst. apply (in_map (fun i => nth i l d)). auto.
  - left. apply (detb_ok 2). auto.
Qed.
Definition dflt : fundef * list param := (glm_vec3_zero, []).


(** ** The listed functions depend on the placement *)
Definition sf_eqb (x y : spec_float) : bool :=
  match x, y with
  | S754_zero a, S754_zero b | S754_infinity a, S754_infinity b => eqb a b
  | S754_nan, S754_nan => true
  | S754_finite s m e, S754_finite s' m' e' => eqb s s' && Pos.eqb m m' && Z.eqb e e'
  | _, _ => false
  end.
Lemma sf_eqb_eq : forall x y, sf_eqb x y = true -> x = y.
Proof.
  intros [a|a| |s m e] [b|b| |s' m' e'] H; simpl in H; try discriminate; auto; try (apply eqb_prop in H; congruence).
  apply andb_prop in H. destruct H as [H H3]. apply andb_prop in H. destruct H as [H1 H2].
  apply eqb_prop in H1. apply Pos.eqb_eq in H2. apply Z.eqb_eq in H3. congruence.
Qed.
Notation bcell := (cell spec_float).
Definition cell_eqb (x y : bcell) : bool := match x, y with CF a, CF b => sf_eqb a b | CI a, CI b => Z.eqb a b | _, _ => false end.
Lemma cell_eqb_eq : forall x y, cell_eqb x y = true -> x = y.
Proof. intros [ | | | ] [ | | | ] H; simpl in H; try discriminate; f_equal; [apply sf_eqb_eq|apply Z.eqb_eq]; auto. Qed.
Definition placedb (m : mem spec_float) (a : arg spec_float) (p : ptr) : bool :=
  match a with
  | In cs | InA cs | InOut cs => match mreads m (fst p) (snd p) (length cs) with Some l => list_eqb cell_eqb l cs | None => false end
  | Out n => match mreads m (fst p) (snd p) n with Some _ => true | None => false end
  | Val _ => true
  end.
Definition apartb (p : ptr) (n : nat) (q : ptr) (k : nat) : bool :=
  negb (Nat.eqb (fst p) (fst q)) || Z.leb (snd p + Z.of_nat n) (snd q) || Z.leb (snd q + Z.of_nat k) (snd p).
Definition compatb (ap bq : arg spec_float * ptr) : bool :=
  let '(a, p) := ap in let '(b, q) := bq in
  negb (written a) || negb (pointer b) || apartb p (size a) q (size b) ||
  (aliasable b && Nat.eqb (fst p) (fst q) && Z.eqb (snd p) (snd q) && Nat.eqb (size a) (size b)).
Fixpoint pairwise {A} (r : A -> A -> bool) (l : list A) : bool :=
  match l with [] => true | x :: l' => forallb (fun y => r x y && r y x) l' && pairwise r l' end.
Definition layoutb (m : mem spec_float) (args : list (arg spec_float)) (ps : list ptr) : bool :=
  Nat.eqb (length args) (length ps) && forallb (fun ap => placedb m (fst ap) (snd ap)) (combine args ps) && pairwise compatb (combine args ps).
Lemma compatb_ok : forall a p b q, compatb (a, p) (b, q) = true -> compatible a p b q.
Proof.
  intros a p b q H W P. unfold compatb in H. rewrite W, P in H. simpl in H. apply orb_prop in H. destruct H as [H|H].
  - left. unfold apartb in H. unfold Contract.apart. apply orb_prop in H. destruct H as [H|H]; [apply orb_prop in H; destruct H as [H|H]|].
    + left. apply negb_true_iff, Nat.eqb_neq in H. auto.
    + right; left. apply Z.leb_le. auto.
    + right; right. apply Z.leb_le. auto.
  - right. apply andb_prop in H. destruct H as [H H4]. apply andb_prop in H. destruct H as [H H3]. apply andb_prop in H. destruct H as [H1 H2].
    apply Nat.eqb_eq in H2. apply Z.eqb_eq in H3. apply Nat.eqb_eq in H4. destruct p, q. simpl in *. subst. auto.
Qed.
Lemma pairwise_nth : forall A (r : A -> A -> bool) l, pairwise r l = true -> forall i j x y, i <> j -> nth_error l i = Some x -> nth_error l j = Some y -> r x y = true.
Proof.
  induction l as [|z l IH]; intros H i j x y N Hx Hy; [destruct i; discriminate|]. simpl in H. apply andb_prop in H. destruct H as [H1 H2].
  rewrite forallb_forall in H1. destruct i, j; simpl in *; try congruence.
  - injection Hx as <-. apply nth_error_In in Hy. specialize (H1 _ Hy). apply andb_prop in H1. tauto.
  - injection Hy as <-. apply nth_error_In in Hx. specialize (H1 _ Hx). apply andb_prop in H1. tauto.
  - apply (IH H2 i j x y); auto.
Qed.
Lemma combine_nth_error : forall A B (l : list A) (k : list B) i x y, nth_error l i = Some x -> nth_error k i = Some y -> nth_error (combine l k) i = Some (x, y).
Proof. induction l; intros k i x y H1 H2; destruct i, k; simpl in *; try discriminate; try congruence. eauto. Qed.
Lemma layoutb_ok : forall m args ps, layoutb m args ps = true -> layout m args ps.
Proof.
  intros m args ps H. unfold layoutb in H. apply andb_prop in H. destruct H as [H H3]. apply andb_prop in H. destruct H as [H1 H2]. apply Nat.eqb_eq in H1.
  split.
  - clear H3. revert ps H1 H2. induction args as [|a args IH]; intros ps H1 H2; destruct ps as [|p ps]; try discriminate; constructor.
    + simpl in H2. apply andb_prop in H2. destruct H2 as [H2 _]. unfold placedb in H2. unfold placed, holds, valid.
      destruct a; auto; destruct (mreads m (fst p) (snd p) _) as [l|]; try discriminate; f_equal; apply (list_eqb_eq _ _ cell_eqb_eq); auto.
    + apply IH; auto. simpl in H2. apply andb_prop in H2. tauto.
  - intros i j a b p q N Ha Hb Hp Hq. apply compatb_ok. eapply (pairwise_nth _ _ _ H3 i j); eauto using combine_nth_error.
Qed.

(** arguments that fit: the numbers [zs] one after the other *)
Definition zs := list (Z * positive).
Definition fcells (l : zs) (n : nat) : list bcell := map (fun i => let z := nth i l (0%Z, 1%positive) in CF (b_lit (fst z) (snd z))) (seq 0 n).
Definition icells (l : zs) (n : nat) : list bcell := map (fun i => CI (fst (nth i l (0%Z, 1%positive)))) (seq 0 n).
Definition cells_of (t : elem) := match t with Flt => fcells | Int => icells end.
Fixpoint inst (ps : list param) (l : zs) : option (list (arg spec_float)) :=
  match ps with
  | [] => Some []
  | p :: ps' =>
    let go (a : arg spec_float) n := option_map (cons a) (inst ps' (skipn n l)) in
    let z := nth 0 l (0%Z, 1%positive) in
    match p with
    | Float => go (Val (VF (b_lit (fst z) (snd z)))) 1%nat
    | Integer => go (Val (VI (fst z))) 1%nat
    | Struct t n => go (Val (VA (cells_of t l n))) n
    | Reads t n => go (InA (cells_of t l n)) n
    | Writes n => go (Out n) 0%nat
    | Updates t n => go (InOut (cells_of t l n)) n
    | Apart t n => go (In (cells_of t l n)) n
    | _ => None
    end
  end.
Lemma cells_of_ok : forall t l n, cells t n (cells_of t l n).
Proof.
  intros [ ] l n; simpl.
  - exists (map (fun i => let z := nth i l (0%Z, 1%positive) in b_lit (fst z) (snd z)) (seq 0 n)). split; [rewrite map_length; apply seq_length|].
    unfold fl, fcells. rewrite map_map. reflexivity.
  - exists (map (fun i => fst (nth i l (0%Z, 1%positive))) (seq 0 n)). split; [rewrite map_length; apply seq_length|].
    unfold il, icells. rewrite map_map. reflexivity.
Qed.
Lemma inst_ok : forall ps l args, inst ps l = Some args -> Forall2 fits ps args.
Proof.
  induction ps as [|p ps IH]; intros l args H; simpl in H; [injection H as <-; constructor|].
  destruct p; try discriminate;
    match type of H with option_map _ (inst ps ?k) = _ => destruct (inst ps k) eqn:E; [|discriminate] end; injection H as <-; constructor; eauto; simpl; eauto using cells_of_ok.
Qed.

(** one block per argument, filled with [junk] where it is only written; [al i = Some j] puts
    argument [i] into the block of argument [j] *)
Definition contents (a : arg spec_float) (junk : Z) : list bcell :=
  match a with In cs | InA cs | InOut cs => cs | Out n => repeat (CF (b_lit junk 1)) n | Val _ => [] end.
Definition ptrs_of (args : list (arg spec_float)) (al : list (nat * nat)) : list ptr :=
  map (fun i => (match find (fun x => Nat.eqb (fst x) i) al with Some x => snd x | None => i end, 0%Z)) (seq 0 (length args)).
Definition mem_of (args : list (arg spec_float)) (al : list (nat * nat)) (junk : Z) : mem spec_float :=
  map (fun i => match find (fun x => Nat.eqb (snd x) i) al with
                | Some x => contents (nth (fst x) args (Val VVoid)) junk | None => contents (nth i args (Val VVoid)) junk end) (seq 0 (length args)).
Definition differ (x y : option bcell) : bool :=
  match x, y with Some (CF a), Some (CF b) => SFltb a b || SFltb b a | _, _ => false end.
Lemma sfltb_irrefl : forall x, SFltb x x = false.
Proof.
  intros [[]|[]| |[] m e]; unfold SFltb; simpl; auto; rewrite Z.compare_refl, Pos.compare_cont_refl; reflexivity.
Qed.
Lemma differ_ok : forall x y, differ x y = true -> x <> y.
Proof. intros x y H <-. destruct x as [[ ]|]; simpl in H; try discriminate. rewrite sfltb_irrefl in H. discriminate. Qed.

(** values, aliases, what the written objects held before (in the two memories), cell *)
Definition witness := (zs * list (nat * nat) * Z * Z * nat * nat)%type.
Definition refutes (l : libm) (p : fundef * list param) (w : witness) : bool :=
  let '(v, al, j, j', k, o) := w in
  match inst (snd p) v with
  | None => false
  | Some args =>
    let m := mem_of args [] j in let q := ptrs_of args [] in
    let m' := mem_of args al j' in let q' := ptrs_of args al in
    layoutb m args q && layoutb m' args q' &&
    match nth_error (filter written args) k with Some a => Nat.ltb o (size a) | None => false end &&
    match nth_error (wptrs args q) k, nth_error (wptrs args q') k, call (B32 l) (fst p) (actuals args q) m, call (B32 l) (fst p) (actuals args q') m' with
    | Some x, Some x', Ok (_, n), Ok (_, n') => differ (mread n (fst x) (snd x + Z.of_nat o)) (mread n' (fst x') (snd x' + Z.of_nat o))
    | _, _, _, _ => false
    end
  end.
Lemma refutes_ok : forall l p w, refutes l p w = true -> placement_matters (B32 l) (fst p) (snd p).
Proof.
  intros l [f ps] [[[[[v al] j] j'] k] o] H. unfold refutes in H. simpl in H. destruct (inst ps v) as [args|] eqn:EI; [|discriminate].
  apply andb_prop in H. destruct H as [H H4]. apply andb_prop in H. destruct H as [H H3]. apply andb_prop in H. destruct H as [H1 H2].
  destruct (nth_error (wptrs args (ptrs_of args [])) k) as [x|] eqn:E1; [|discriminate].
  destruct (nth_error (wptrs args (ptrs_of args al)) k) as [x'|] eqn:E2; [|discriminate].
  destruct (call (B32 l) f (actuals args (ptrs_of args [])) (mem_of args [] j)) as [[v1 n]|] eqn:E3; [|discriminate].
  destruct (call (B32 l) f (actuals args (ptrs_of args al)) (mem_of args al j')) as [[v2 n']|] eqn:E4; [|discriminate].
  destruct (nth_error (filter written args) k) as [a|] eqn:E5; [|discriminate]. apply Nat.ltb_lt in H3.
  exists args, (mem_of args [] j), (mem_of args al j'), (ptrs_of args []), (ptrs_of args al), v1, v2, n, n', k, x, x', (Z.of_nat o).
  repeat split; auto; try (eapply inst_ok; eauto); try apply (layoutb_ok _ _ _ H1); try apply (layoutb_ok _ _ _ H2).
  - exists a. split; [exact E5|]. split; [apply Nat2Z.is_nonneg|apply Nat2Z.inj_lt; exact H3].
  - apply differ_ok. exact H4.
Qed.
Fixpoint refutes_all (l : libm) (ps : list (fundef * list param)) (ws : list witness) : bool :=
  match ps, ws with
  | [], [] => true
  | p :: ps', w :: ws' => refutes l p w && refutes_all l ps' ws'
  | _, _ => false
  end.
Lemma refutes_all_ok : forall l ps ws, refutes_all l ps ws = true -> Forall (fun p => placement_matters (B32 l) (fst p) (snd p)) ps.
Proof.
  induction ps as [|p ps IH]; intros [|w ws] H; simpl in H; try discriminate; constructor; apply andb_prop in H; destruct H; eauto using refutes_ok.
Qed.

Definition z (l : list Z) : zs := map (fun x => (x, 1%positive)) l.
Definition upto (n : nat) : zs := map (fun i => (Z.of_nat i, 1%positive)) (seq 1 n).
Definition tiny : zs := map (fun x => (x, 1000000000000000000%positive)) [1;0;0;0; 0;1;0;0; 0;0;-1;0; 0;0;0;0]%Z.

Definition w_crop2 : witness := (z [0;0;3;3; 1;1;5;5; 0;0;10;10]%Z, [(2, 3)]%nat, 7%Z, 7%Z, 0%nat, 0%nat).
Definition w_crop3 : witness := (z [0;0;0;3;3;3; 1;1;1;5;5;5; 0;0;0;10;10;10]%Z, [(2, 3)]%nat, 7%Z, 7%Z, 0%nat, 0%nat).
Definition w_dec_rs : witness := (tiny, [(0, 1)]%nat, 7%Z, 7%Z, 0%nat, 0%nat).
Definition w_dec : witness := (tiny, [(0, 2)]%nat, 7%Z, 7%Z, 1%nat, 0%nat).
Definition w_tr (n o : nat) : witness := (upto n, [(0, 1)]%nat, 7%Z, 7%Z, 0%nat, o).
Definition w_pick : witness := (z [1;1; 0;0; 0;0;4;4]%Z, [], 7%Z, 8%Z, 0%nat, 0%nat).
Definition w_ray : witness := (z [0;0;0; 0;0;1; 5;5;5;1]%Z, [], 7%Z, 8%Z, 0%nat, 0%nat).
Definition w_refl4 : witness := (z [0;-1;0;1; 0;1;0;2]%Z, [(0, 2)]%nat, 7%Z, 7%Z, 0%nat, 3%nat).
Definition w_refr (v n : list Z) : witness := (z (v ++ n) ++ [(1%Z, 2%positive)], [(1, 3)]%nat, 7%Z, 7%Z, 0%nat, 1%nat).
Definition w_refr4 := w_refr [0;-1;0;0]%Z [0;1;0;0]%Z.
Definition ws1 : list witness :=
  [w_crop2; w_dec_rs; w_dec; w_crop3;
   (z [1;2;3;99]%Z, [], 7%Z, 8%Z, 0%nat, 0%nat);
   (upto 6, [(1, 2)]%nat, 7%Z, 7%Z, 0%nat, 1%nat);
   w_tr 4 2; w_tr 6 2; w_tr 8 2; w_tr 9 3; w_tr 6 3; w_tr 12 3;
   (upto 9, [], 7%Z, 8%Z, 0%nat, 15%nat);
   w_tr 16 1; w_tr 8 4; w_tr 12 4; w_pick;
   (upto 8, [(0, 2)]%nat, 7%Z, 7%Z, 0%nat, 1%nat);
   w_ray; w_crop3; w_ray; w_refr [0;-1]%Z [0;1]%Z; w_refr [0;-1;0]%Z [0;1;0]%Z; w_refl4; w_refr4].
Definition ws2 : list witness := flat_map (fun _ => [w_refl4; w_refr4; w_dec_rs; w_dec; w_pick]) (seq 0 6).

Lemma C68_placement_refuted_ok : forall l, Forall (fun p => placement_matters (B32 l) (fst p) (snd p)) not_determined.
Proof. intros l. apply (refutes_all_ok l not_determined ws1). vm_cast_no_check (eq_refl true). Qed.
Lemma C68_simd_placement_refuted_ok : forall l, Forall (fun p => placement_matters (B32 l) (fst p) (snd p)) simd_not_determined.
Proof. intros l. apply (refutes_all_ok l simd_not_determined ws2). vm_cast_no_check (eq_refl true). Qed.

Lemma C68_determined_ok : forall p, List.In p signatures -> determined (fst p) (snd p) \/ List.In p not_determined.
Proof.
  intros p I. change not_determined with (map (fun i => nth i signatures dflt) skip_idx). refine (rest_det _ _ dflt _ p I).
  vm_cast_no_check (eq_refl true).
Qed.
(** in-place cross product: one of the placements, and where the list has the function *)
Lemma C68_determined_ex : length signatures = 1479%nat /\ length not_determined = 25%nat /\
  nth_error signatures 1350 = Some (glm_vec3_cross, [Reads Flt 3; Reads Flt 3; Writes 3]) /\
  forall l, let a := fl (map b_int [1; 2; 3]%Z) in let b := fl (map b_int [4; 5; 6]%Z) in
    layout [a; b] [InA a; InA b; Out 3] [(0%nat, 0%Z); (1%nat, 0%Z); (0%nat, 0%Z)] /\
    call (B32 l) glm_vec3_cross [VP 0 0; VP 1 0; VP 0 0] [a; b] = Ok (VVoid, [fl (map b_int [-3; 6; -3]%Z); b]).
Proof.
  split; [reflexivity|]. split; [reflexivity|]. split; [reflexivity|]. intros l a b. split; [|vm_compute; reflexivity]. apply layoutb_ok. vm_compute. reflexivity.
Qed.
Lemma C68_simd_determined_ok : forall p, List.In p simd_signatures -> determined (fst p) (snd p) \/ List.In p simd_not_determined.
Proof.
  intros p I. change simd_not_determined with (map (fun i => nth i simd_signatures dflt) simd_skip_idx). refine (rest_det _ _ dflt _ p I).
  vm_cast_no_check (eq_refl true).
Qed.

(** the in-place transposition and quaternion product of the SIMD builds are among the determined *)
Lemma C68_simd_determined_ex : length simd_signatures = 1148%nat /\ length simd_not_determined = 30%nat /\
  forall l, let a := fl (map b_int [1; 0; 0; 1]%Z) in let b := fl (map b_int [0; 1; 0; 1]%Z) in
    call (B32 l) sse2.sse2_glm_quat_mul [VP 0 0; VP 1 0; VP 0 0] [a; b] = Ok (VVoid, [fl (map b_int [1; 1; 1; 1]%Z); b]) /\
    call (B32 l) glm_quat_mul [VP 0 0; VP 1 0; VP 0 0] [a; b] <> Ok (VVoid, [fl (map b_int [1; 1; 1; 1]%Z); b]).
Proof.
  split; [reflexivity|]. split; [reflexivity|]. intros l a b. split; [vm_compute; reflexivity|]. intros H. vm_compute in H. discriminate.
Qed.
