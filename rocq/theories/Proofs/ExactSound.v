(** * Deciding exactness in single precision by symbolic evaluation (proof tool) *)

From Coq Require Import String List ZArith Bool Lia Reals Lra Floats.SpecFloat.
From Flocq Require Import Core BinarySingleNaN.
From Verif Require Import MiniC Contract RScalar B32 Sym SymSound SymCall.
From Verif.Spec Require Import Float32 Types Exact.
From Verif.Proofs Require Import Safe Outcome Flo.
Import ListNotations.
Local Open Scope Z_scope.
Local Open Scope list_scope.

(** a number; or a multiple of 2^-k of magnitude at most n 2^-k *)
Inductive knd := Any | Dy (n k : Z).
Definition lim : Z := 16777216.
Definition fit (n k : Z) : option knd := if (n <? lim) && (0 <=? k) && (k <=? 149) then Some (Dy n k) else None.
Definition plus (a b : knd) : option knd :=
  match a, b with
  | Dy n k, Dy n' k' => let j := Z.max k k' in fit (n * 2 ^ (j - k) + n' * 2 ^ (j - k')) j
  | _, _ => None
  end.
Definition times (a b : knd) : option knd :=
  match a, b with Dy n k, Dy n' k' => fit (n * n') (k + k') | _, _ => None end.
Definition join (a b : knd) : knd :=
  match a, b with
  | Dy n k, Dy n' k' => let j := Z.max k k' in Dy (Z.max (n * 2 ^ (j - k)) (n' * 2 ^ (j - k'))) j
  | _, _ => Any
  end.
(** rounded down to an integer *)
Definition down (a : knd) : knd := match a with Dy n k => if 0 <=? k then Dy (n / 2 ^ k + 1) 0 else Any | Any => Any end.
(** an exactly represented literal *)
Definition litb (n : Z) (d : positive) : bool :=
  let x := b_lit n d in
  inb32 x &&
  match x with
  | S754_zero _ => n =? 0
  | S754_finite s m e =>
    let z := if s then Zneg m else Zpos m in if 0 <=? e then z * 2 ^ e * Zpos d =? n else z * Zpos d =? n * 2 ^ (- e)
  | _ => false
  end.
Definition litk (n : Z) (d : positive) : option knd :=
  if litb n d then
    let g := Z.gcd n (Zpos d) in
    let n' := n / g in
    let j := Z.log2 (Zpos d / g) in
    if (0 <=? j) && (n * 2 ^ j =? n' * Zpos d) then Some (Dy (Z.abs n') j) else Some Any
  else None.

Section K.
Variable e : list knd.
Fixpoint sk (s : sexp) : option knd :=
  match s with
  | SVar n => nth_error e n
  | SLit n d => litk n d
  | SOp1 ONeg a | SOp1 OAbs a => sk a
  | SOp2 OAdd a b | SOp2 OSub a b => match sk a, sk b with Some x, Some y => plus x y | _, _ => None end
  | SOp2 OMul a b => match sk a, sk b with Some x, Some y => times x y | _, _ => None end
  | SOp2 OFmin a b => match sk a, sk b with Some x, Some y => Some (join x y) | _, _ => None end
  | SOp1 OFloor a => match sk a with Some x => Some (down x) | None => None end
  | SFma a b c => match sk a, sk b, sk c with Some x, Some y, Some z => match times x y with Some t => plus t z | None => None end | _, _, _ => None end
  | SIte c a b => if bk c then match sk a, sk b with Some x, Some y => Some (join x y) | _, _ => None end else None
  | SOfZ i => if ik i then match irange i with Some (l, h) => fit (Z.max (Z.abs l) (Z.abs h)) 0 | None => None end else None
  | _ => None
  end
with bk (b : bexp) : bool :=
  match b with
  | BLit _ | BVar _ => true
  | BCmpF _ a b => match sk a, sk b with Some _, Some _ => true | _, _ => false end
  | BTest _ a => match sk a with Some _ => true | None => false end
  | BCmpI _ a b => ik a && ik b
  | BNot a => bk a
  | BIte c a b => bk c && bk a && bk b
  | BOk1 _ _ | BOk2 _ _ _ => false
  | BIn i => ik i
  end
with ik (i : iexp) : bool :=
  match i with
  | ILit _ | IVar _ => true
  | IOp _ a b => ik a && ik b
  | INeg a | IAbs a => ik a
  | IOfB b => bk b
  | IIte c a b => bk c && ik a && ik b
  end.
Fixpoint kk (c : scell) : bool :=
  match c with KF s => match sk s with Some _ => true | None => false end | KI i => ik i | KIte c a b => bk c && kk a && kk b | _ => false end.
Fixpoint vk (v : sval) : bool :=
  match v with
  | XF s => match sk s with Some _ => true | None => false end
  | XI i => ik i | XB b => bk b | XVoid => true | XA l => forallb kk l | XIte c a b => bk c && vk a && vk b | _ => false
  end.
Fixpoint tk (wi sz : list nat) (t : tree (sval * smem)) : bool :=
  match t with
  | TLeaf (v, sm) => vk v && forallb (fun i => forallb kk (nth i sm [])) wi && list_eqb Nat.eqb (map (fun i => length (nth i sm [])) wi) sz
  | TErr => false
  | TIf b t u => bk b && tk wi sz t && tk wi sz u
  | TGuard _ _ _ => false
  end.
End K.
Fixpoint wk (e : list knd) (w : binds) : option (list knd) :=
  match w with
  | [] => Some e
  | (_, s) :: w' => match sk e s with Some k => wk (e ++ [k]) w' | None => None end
  end.
Definition exact_at (K : nat) (k0 : knd) (f : fundef) (sa : list sarg) (n : nat) (pat : list (option nat)) : bool :=
  let '(t, _, w) := y_call K (sro sa) f (sactuals sa pat) (sregions sa pat) n in
  scoped n w && safe_tree (map (@length _) (sregions sa pat)) t &&
  match wk (repeat k0 n) w with Some e => tk e (widx sa) (map ssz (filter swritten sa)) t | None => false end.
Definition exactb (K : nat) (k0 : knd) (d : fundef * list param) : bool :=
  let '(f, ps) := d in
  forallb (fun sa => forallb (exact_at K k0 f sa (nfloats ps)) (patterns sa)) (build ps 0 0 0).

(** ** Soundness *)

Local Open Scope R_scope.
Definition in_k (k : knd) (r : R) : Prop :=
  match k with Any => True | Dy n k => exists z, r = IZR z * powerRZ 2 (- k) /\ (Z.abs z <= n)%Z end.
Definition good (k : knd) (x : b32) : Prop := number x /\ in_k k (rval x).

Lemma p2pos : forall k, 0 < powerRZ 2 k. Proof. intros. apply powerRZ_lt. lra. Qed.
Lemma p2Z : forall k, (0 <= k)%Z -> powerRZ 2 k = IZR (2 ^ k).
Proof. intros k H. change 2 with (IZR radix2). rewrite <- bpow_powerRZ. symmetry. apply (IZR_Zpower radix2). auto. Qed.
Lemma p2plus : forall j k, powerRZ 2 (j + k) = powerRZ 2 j * powerRZ 2 k.
Proof. intros. apply powerRZ_add. lra. Qed.
Lemma align : forall z j k, (k <= j)%Z -> IZR z * powerRZ 2 (- k) = IZR (z * 2 ^ (j - k)) * powerRZ 2 (- j).
Proof. intros. rewrite mult_IZR, <- p2Z by lia. rewrite Rmult_assoc, <- p2plus. repeat f_equal. lia. Qed.
Lemma abs_scale : forall z n a, (Z.abs z <= n)%Z -> (0 <= a)%Z -> (Z.abs (z * 2 ^ a) <= n * 2 ^ a)%Z.
Proof. intros. rewrite Z.abs_mul. rewrite (Z.abs_eq (2 ^ a)) by (apply Z.pow_nonneg; lia). apply Z.mul_le_mono_nonneg_r; auto. apply Z.pow_nonneg. lia. Qed.

Lemma fit_rnd : forall n k x, fit n k = Some x -> x = Dy n k /\ forall r, in_k x r -> rnd r = r /\ Rabs r < big.
Proof.
  intros n k x H. unfold fit in H. destruct (_ && _) eqn:E in H; [|discriminate]. injection H as <-. split; auto.
  apply andb_prop in E. destruct E as [E E3]. apply andb_prop in E. destruct E as [E1 E2]. apply Z.ltb_lt in E1. apply Z.leb_le in E2, E3. unfold lim in E1.
  intros r (z & -> & Hz).
  assert (F : IZR z * powerRZ 2 (- k) = F2R (Defs.Float radix2 z (- k))) by (unfold F2R; simpl; rewrite bpow_powerRZ; reflexivity).
  split.
  - rewrite F. apply round_generic; auto with typeclass_instances. change fx with (FLT_exp (-149) 24).
    apply generic_format_FLT. exists (Defs.Float radix2 z (- k)); simpl; auto; lia.
  - rewrite Rabs_mult, (Rabs_pos_eq (powerRZ _ _)) by (left; apply p2pos). rewrite <- abs_IZR.
    assert (IZR (Z.abs z) < IZR 16777216) by (apply IZR_lt; lia).
    assert (powerRZ 2 (- k) <= 1).
    { change 2 with (IZR radix2). rewrite <- bpow_powerRZ. change 1 with (bpow radix2 0). apply bpow_le. lia. }
    assert (0 <= IZR (Z.abs z)) by (apply IZR_le; lia).
    apply Rle_lt_trans with (IZR (Z.abs z) * 1); [apply Rmult_le_compat_l; auto|]. rewrite Rmult_1_r. eapply Rlt_trans; eauto.
    unfold big. change 16777216 with (bpow radix2 24). apply bpow_lt. reflexivity.
Qed.
Lemma in_plus : forall a b c x y, plus a b = Some c -> in_k a x -> in_k b y -> in_k c (x + y) /\ in_k c (x - y).
Proof.
  intros [|n k] [|n' k'] c x y H; try discriminate. simpl in H. pose proof (proj1 (fit_rnd _ _ _ H)) as ->. clear H.
  intros (z & -> & Hz) (z' & -> & Hz'). set (j := Z.max k k') in *.
  assert (J : (k <= j /\ k' <= j)%Z) by lia. rewrite (align z j k), (align z' j k') by lia.
  pose proof (abs_scale z n (j - k) Hz ltac:(lia)). pose proof (abs_scale z' n' (j - k') Hz' ltac:(lia)). split.
  - exists (z * 2 ^ (j - k) + z' * 2 ^ (j - k'))%Z. split; [rewrite plus_IZR; ring|lia].
  - exists (z * 2 ^ (j - k) - z' * 2 ^ (j - k'))%Z. split; [rewrite minus_IZR; ring|lia].
Qed.
Lemma in_times : forall a b c x y, times a b = Some c -> in_k a x -> in_k b y -> in_k c (x * y).
Proof.
  intros [|n k] [|n' k'] c x y H; try discriminate. simpl in H. pose proof (proj1 (fit_rnd _ _ _ H)) as ->. clear H.
  intros (z & -> & Hz) (z' & -> & Hz'). exists (z * z')%Z. split.
  - rewrite mult_IZR, Z.opp_add_distr, p2plus. ring.
  - rewrite Z.abs_mul. apply Z.mul_le_mono_nonneg; lia.
Qed.
Lemma in_join : forall a b r, (in_k a r \/ in_k b r) -> in_k (join a b) r.
Proof.
  intros [|n k] [|n' k'] r H; simpl; auto. set (j := Z.max k k'). destruct H as [(z & -> & Hz)|(z & -> & Hz)].
  - exists (z * 2 ^ (j - k))%Z. split; [apply align; lia|]. pose proof (abs_scale z n (j - k) Hz ltac:(lia)). lia.
  - exists (z * 2 ^ (j - k'))%Z. split; [apply align; lia|]. pose proof (abs_scale z n' (j - k') Hz ltac:(lia)). lia.
Qed.
Lemma good_join : forall a b x, (good a x \/ good b x) -> good (join a b) x.
Proof. intros a b x [[N H]|[N H]]; split; auto; apply in_join; auto. Qed.
Lemma good_any : forall k x, good k x -> number x. Proof. intros k x []; auto. Qed.

Lemma add_good : forall a b c x y, plus a b = Some c -> good a x -> good b y ->
  good c (SFadd prec emax x y) /\ rval (SFadd prec emax x y) = rval x + rval y.
Proof.
  intros a b c x y H [Nx Hx] [Ny Hy]. destruct (in_plus a b c _ _ H Hx Hy) as [I _].
  assert (F : rnd (rval x + rval y) = rval x + rval y /\ Rabs (rval x + rval y) < big).
  { destruct a, b; try discriminate. simpl in H. apply (proj2 (fit_rnd _ _ _ H)). auto. }
  destruct F as [F B]. destruct (add_rnd x y Nx Ny) as [A1 A2]. rewrite F in *. specialize (A2 B). specialize (A1 A2).
  split; auto. split; [split; auto; apply add_valid; [apply Nx|apply Ny]|rewrite A1; auto].
Qed.
Lemma sub_good : forall a b c x y, plus a b = Some c -> good a x -> good b y ->
  good c (SFsub prec emax x y) /\ rval (SFsub prec emax x y) = rval x - rval y.
Proof.
  intros a b c x y H [Nx Hx] [Ny Hy]. destruct (in_plus a b c _ _ H Hx Hy) as [_ I].
  assert (F : rnd (rval x - rval y) = rval x - rval y /\ Rabs (rval x - rval y) < big).
  { destruct a, b; try discriminate. simpl in H. apply (proj2 (fit_rnd _ _ _ H)). auto. }
  destruct F as [F B]. destruct (sub_rnd x y Nx Ny) as [A1 A2]. rewrite F in *. specialize (A2 B). specialize (A1 A2).
  split; auto. split; [split; auto; apply sub_valid; [apply Nx|apply Ny]|rewrite A1; auto].
Qed.
Lemma mul_good : forall a b c x y, times a b = Some c -> good a x -> good b y ->
  good c (SFmul prec emax x y) /\ rval (SFmul prec emax x y) = rval x * rval y.
Proof.
  intros a b c x y H [Nx Hx] [Ny Hy]. pose proof (in_times a b c _ _ H Hx Hy) as I.
  assert (F : rnd (rval x * rval y) = rval x * rval y /\ Rabs (rval x * rval y) < big).
  { destruct a, b; try discriminate. simpl in H. apply (proj2 (fit_rnd _ _ _ H)). auto. }
  destruct F as [F B]. destruct (mul_rnd x y Nx Ny) as [A1 A2]. rewrite F in *. specialize (A2 B). specialize (A1 A2).
  split; auto. split; [split; auto; apply mul_valid; [apply Nx|apply Ny]|rewrite A1; auto].
Qed.
Lemma neg_good : forall k x, good k x -> good k (SFopp x) /\ rval (SFopp x) = - rval x.
Proof.
  intros k x [[V F] H]. rewrite opp_value. split; auto. split.
  - split; [apply opp_valid; auto|rewrite opp_finite; auto].
  - rewrite opp_value. destruct k; simpl in *; auto. destruct H as (z & -> & Hz). exists (- z)%Z. split; [rewrite opp_IZR; ring|lia].
Qed.
Lemma abs_good : forall k x, good k x -> good k (SFabs x) /\ rval (SFabs x) = Rabs (rval x).
Proof.
  intros k x H. assert (E : rval (SFabs x) = Rabs (rval x) /\ (SFabs x = x \/ SFabs x = SFopp x)).
  { destruct H as [[V F] _]. destruct x as [s|s| |s m e]; try discriminate; simpl.
    - split; [rewrite Rabs_R0; auto|destruct s; auto].
    - pose proof (p2pos e). split.
      + rewrite Rabs_mult, (Rabs_pos_eq (powerRZ _ _)) by lra. rewrite <- abs_IZR. destruct s; reflexivity.
      + destruct s; auto. }
  destruct E as [E D]. split; auto. destruct D as [-> | ->]; auto. apply neg_good; auto.
Qed.
Lemma cmp_good : forall c x y, number x -> number y -> R_cmp c (rval x) (rval y) = b_cmp c x y.
Proof.
  assert (L : forall x y, number x -> number y -> Rltb (rval x) (rval y) = SFltb x y).
  { intros x y Nx Ny. pose proof (lt_value x y Nx Ny) as V. destruct (SFltb x y).
    - apply Rltb_true. tauto.
    - apply Rltb_false. apply Rnot_lt_le. intro. apply V in H. discriminate. }
  assert (M : forall x y, number x -> number y -> Rleb (rval x) (rval y) = SFleb x y).
  { intros x y Nx Ny. pose proof (le_value x y Nx Ny) as V. destruct (SFleb x y).
    - apply Rleb_true. tauto.
    - apply Rleb_false. apply Rnot_le_lt. intro. apply V in H. discriminate. }
  assert (Q : forall x y, number x -> number y -> Reqb (rval x) (rval y) = SFeqb x y).
  { intros x y Nx Ny. pose proof (feq_value x y Nx Ny) as V. unfold feq in V. destruct (SFeqb x y).
    - apply Reqb_true. tauto.
    - apply Reqb_false. intro. apply V in H. discriminate. }
  intros [] x y Nx Ny; simpl; auto. rewrite Q; auto.
Qed.
Lemma test_good : forall l t x, number x -> s_test (B32 l) t x = false.
Proof. intros l t x [V F]. destruct x, t; simpl in *; auto; discriminate. Qed.
Lemma fmin_good : forall l a b x y, good a x -> good b y ->
  good (join a b) (b_op2 l OFmin x y) /\ rval (b_op2 l OFmin x y) = Rmin (rval x) (rval y).
Proof.
  intros l a b x y Gx Gy. pose proof (good_any _ _ Gx) as Nx. pose proof (good_any _ _ Gy) as Ny. simpl.
  assert (is_nan x = false /\ is_nan y = false) as [-> ->].
  { destruct Nx as [_ F], Ny as [_ G]. destruct x, y; try discriminate; auto. }
  pose proof (lt_value y x Ny Nx) as V. destruct (SFltb y x).
  - split; [apply good_join; auto|]. rewrite Rmin_right; auto. apply Rlt_le. apply V. auto.
  - split; [apply good_join; auto|]. rewrite Rmin_left; auto. apply Rnot_lt_le. intro. apply V in H. discriminate.
Qed.
Lemma lit_good : forall n d k, litk n d = Some k -> good k (b_lit n d) /\ R_lit n d = rval (b_lit n d).
Proof.
  intros n d k H. unfold litk in H. destruct (litb n d) eqn:E; [|discriminate]. unfold litb in E. apply andb_prop in E. destruct E as [V E].
  assert (D : IZR (Zpos d) <> 0) by (apply not_0_IZR; discriminate).
  assert (RL : R_lit n d = IZR n / IZR (Zpos d)) by (unfold R_lit; destruct d; auto; field).
  assert (Q : number (b_lit n d) /\ R_lit n d = rval (b_lit n d)).
  { rewrite RL. clear H RL. destruct (b_lit n d) as [s|s| |s m e]; try discriminate.
    - apply Z.eqb_eq in E. subst n. split; [split; auto|simpl; field; auto].
    - split; [split; auto|]. simpl. set (z := if s then Z.neg m else Z.pos m) in *. destruct (Z.leb_spec 0 e).
      + apply Z.eqb_eq in E. rewrite <- E, !mult_IZR, <- p2Z by auto. field. auto.
      + apply Z.eqb_eq in E. apply (f_equal IZR) in E. rewrite !mult_IZR, <- p2Z in E by lia.
        assert (powerRZ 2 (- e) * powerRZ 2 e = 1) by (rewrite <- p2plus, Z.add_opp_diag_l; reflexivity).
        apply (Rmult_eq_reg_r (IZR (Zpos d))); auto. unfold Rdiv. rewrite Rmult_assoc, Rinv_l, Rmult_1_r by auto.
        replace (IZR n) with (IZR n * (powerRZ 2 (- e) * powerRZ 2 e)) by (rewrite H0; ring). rewrite <- Rmult_assoc, <- E. ring. }
  destruct Q as [N Q]. split; auto. destruct (_ && _) eqn:G in H; injection H as <-; split; simpl; auto.
  apply andb_prop in G. destruct G as [G1 G2]. apply Z.leb_le in G1. apply Z.eqb_eq in G2.
  set (j := Z.log2 _) in *. set (n' := (n / _)%Z) in *. exists n'. split; [|lia]. rewrite <- Q, RL.
  apply (f_equal IZR) in G2. rewrite !mult_IZR, <- p2Z in G2 by auto.
  assert (powerRZ 2 j * powerRZ 2 (- j) = 1) by (rewrite <- p2plus, Z.add_opp_diag_r; reflexivity).
  apply (Rmult_eq_reg_r (IZR (Zpos d))); auto. unfold Rdiv. rewrite Rmult_assoc, Rinv_l, Rmult_1_r by auto.
  replace (IZR n) with (IZR n * (powerRZ 2 j * powerRZ 2 (- j))) by (rewrite H; ring). rewrite <- Rmult_assoc, G2. ring.
Qed.
Lemma int_good : forall z n k, fit n 0 = Some k -> (Z.abs z <= n)%Z -> good k (b_int z) /\ rval (b_int z) = IZR z.
Proof.
  intros z n k H Hz. destruct (fit_rnd _ _ _ H) as [-> R].
  assert (I : in_k (Dy n 0) (IZR z)) by (exists z; split; auto; simpl; ring). destruct (R _ I) as [R1 R2].
  unfold b_int. rewrite bn_equiv.
  pose proof (binary_normalize_correct prec emax Flo.Hprec Flo.Hmax mode_NE z 0 false) as C. cbv zeta in C.
  assert (F : F2R (Defs.Float radix2 z 0) = IZR z) by (unfold F2R; simpl; ring). rewrite F in C.
  simpl round_mode in C. rewrite R1 in C. rewrite Rlt_bool_true in C by exact R2. destruct C as (C1 & C2 & _).
  rewrite <- value_B2R in C1. split; auto. split; [split; [apply valid_B2SF|rewrite finite_B; auto]|]. rewrite C1. auto.
Qed.

Lemma floor_unique : forall r z, IZR z <= r -> r < IZR z + 1 -> Rfloor r = IZR z.
Proof.
  intros r z H1 H2. unfold Rfloor. f_equal. destruct (base_Int_part r) as [A B].
  assert (IZR (Int_part r) < IZR (z + 1)) by (rewrite plus_IZR; lra). assert (IZR z < IZR (Int_part r + 1)) by (rewrite plus_IZR; lra).
  apply lt_IZR in H, H0. lia.
Qed.
Lemma floor_int : forall z, Rfloor (IZR z) = IZR z.
Proof. intros. apply floor_unique; lra. Qed.
(** p/q rounded down *)
Lemma floor_div : forall p q, (0 < q)%Z -> Rfloor (IZR p / IZR q) = IZR (p / q).
Proof.
  intros p q H. assert (0 < IZR q) by (apply IZR_lt; auto). pose proof (Z.div_mod p q ltac:(lia)). pose proof (Z.mod_pos_bound p q H).
  assert (IZR p = IZR q * IZR (p / q) + IZR (p mod q)) by (rewrite <- mult_IZR, <- plus_IZR; f_equal; auto).
  assert (0 <= IZR (p mod q)) by (apply IZR_le; lia). assert (IZR (p mod q) < IZR q) by (apply IZR_lt; lia).
  assert (IZR p / IZR q = IZR (p / q) + IZR (p mod q) / IZR q) by (rewrite H3; field; lra).
  rewrite H6. apply floor_unique.
  - assert (0 <= IZR (p mod q) / IZR q); [|lra]. apply Rmult_le_pos; auto. left. apply Rinv_0_lt_compat. auto.
  - assert (IZR (p mod q) / IZR q < 1); [|lra]. apply (Rmult_lt_reg_r (IZR q)); auto. unfold Rdiv. rewrite Rmult_assoc, Rinv_l by lra. lra.
Qed.
Lemma floor_down : forall k x, in_k k x -> in_k (down k) (Rfloor x).
Proof.
  intros [|n k] x H; simpl; auto. destruct H as (z & -> & Hz).
  destruct (Z.leb_spec 0 k) as [C|C]; simpl; auto.
  assert (Q : IZR z * powerRZ 2 (- k) = IZR z / IZR (2 ^ k)).
  { rewrite <- p2Z by auto. unfold Rdiv. rewrite powerRZ_neg'. reflexivity. }
  rewrite Q, floor_div by (apply Z.pow_pos_nonneg; lia). exists (z / 2 ^ k)%Z. split; [simpl; ring|].
  assert (0 < 2 ^ k)%Z by (apply Z.pow_pos_nonneg; lia).
  assert (z / 2 ^ k <= n / 2 ^ k)%Z by (apply Z.div_le_mono; lia).
  assert (- (n / 2 ^ k) - 1 <= z / 2 ^ k)%Z; [|pose proof (Z.div_pos n (2 ^ k)); lia].
  apply Z.div_le_lower_bound; auto. pose proof (Z.mod_pos_bound n (2 ^ k) H). pose proof (Z.div_mod n (2 ^ k)). nia.
Qed.

Lemma mant_bound : forall s m e, inb32 (S754_finite s m e) = true -> (Zpos m < lim)%Z.
Proof.
  intros s m e H. unfold inb32, valid_binary, bounded, canonical_mantissa in H. apply andb_prop in H. destruct H as [H _].
  apply Zeq_bool_eq in H. rewrite Zpos_digits2_pos in H. unfold SpecFloat.fexp, SpecFloat.emin, prec, emax in H.
  pose proof (Zdigits_correct radix2 (Zpos m)) as [_ D]. unfold lim.
  assert (Z.pow radix2 (Zdigits radix2 (Zpos m)) <= Z.pow radix2 24)%Z.
  { apply (Z.pow_le_mono_r radix2); [reflexivity|lia]. }
  change (Z.pow radix2 24) with 16777216%Z in H0. lia.
Qed.
Lemma floor_good : forall k x, good k x -> good (down k) (b_floor x) /\ rval (b_floor x) = Rfloor (rval x).
Proof.
  intros k x [[V F] H]. assert (Q : number (b_floor x) /\ rval (b_floor x) = Rfloor (rval x)).
  2:{ destruct Q as [N Q]. split; auto. split; auto. rewrite Q. apply floor_down. auto. }
  clear H. destruct x as [s|s| |s m e]; try discriminate.
  - split; [split; auto|]. simpl. symmetry. apply (floor_int 0).
  - pose proof (mant_bound _ _ _ V) as MB. unfold b_floor. set (sm := if s then Z.neg m else Z.pos m). assert (RV : rval (S754_finite s m e) = IZR sm * powerRZ 2 e) by reflexivity.
    destruct (Z.leb_spec 0 e) as [C|C].
    { split; [split; auto|]. rewrite RV, p2Z, <- mult_IZR by auto. rewrite floor_int. reflexivity. }
    set (P := (2 ^ (- e))%Z). assert (PP : (2 <= P)%Z) by (unfold P; change 2%Z with (2 ^ 1)%Z at 1; apply Z.pow_le_mono_r; lia).
    assert (RF : Rfloor (rval (S754_finite s m e)) = IZR (sm / P)).
    { rewrite <- floor_div by lia. f_equal. rewrite RV. unfold P. rewrite <- p2Z by lia. unfold Rdiv. rewrite powerRZ_neg', Rinv_inv. reflexivity. }
    assert (EZ : (if s then - (Z.pos m / P) - (if Z.eqb (Z.pos m mod P) 0 then 0 else 1) else Z.pos m / P)%Z = (sm / P)%Z).
    { unfold sm. destruct s; auto. change (Z.neg m) with (- Z.pos m)%Z. destruct (Z.eqb_spec (Z.pos m mod P) 0).
      - rewrite Z.div_opp_l_z by (auto; lia). lia.
      - rewrite Z.div_opp_l_nz by (auto; lia). lia. }
    rewrite EZ. destruct (Z.eqb_spec (sm / P) 0) as [Z0|Z0].
    + rewrite RF, Z0. split; [split; auto|]. reflexivity.
    + assert (AB : (Z.abs (sm / P) <= 16777215)%Z).
      { unfold lim in MB. assert (Z.abs sm <= 16777215)%Z by (unfold sm; destruct s; lia).
        assert (sm / P <= 16777215)%Z by (apply Z.div_le_upper_bound; nia). assert (-16777215 <= sm / P)%Z by (apply Z.div_le_lower_bound; nia). lia. }
      destruct (int_good (sm / P) 16777215 _ eq_refl AB) as [[N _] Q]. split; auto. rewrite RF. auto.
Qed.
Lemma fma_good : forall a b c t r x y z, times a b = Some t -> plus t c = Some r -> good a x -> good b y -> good c z ->
  good r (b_fma x y z) /\ rval (b_fma x y z) = rval x * rval y + rval z.
Proof.
  intros a b c t r x y z HT HP Gx Gy Gz. destruct (mul_good _ _ _ _ _ HT Gx Gy) as [GM QM].
  destruct (add_good _ _ _ _ _ HP GM Gz) as [GA QA]. rewrite QM in QA.
  assert (I : in_k r (rval x * rval y + rval z)) by (rewrite <- QA; apply GA).
  assert (R : rnd (rval x * rval y + rval z) = rval x * rval y + rval z /\ Rabs (rval x * rval y + rval z) < big).
  { destruct t, c; try discriminate. simpl in HP. apply (proj2 (fit_rnd _ _ _ HP)). auto. }
  destruct x as [s|s| |s m e]; [split; assumption|split; assumption|split; assumption|].
  destruct y as [s'|s'| |s' m' e']; [split; assumption|split; assumption|split; assumption|].
  destruct z as [s2|s2| |s2 m2 e2].
  - cbn [b_fma]. assert (Z0 : rval (S754_zero s2) = 0) by reflexivity. rewrite Z0, Rplus_0_r in *. split; auto. split; [apply GM|]. rewrite QM. auto.
  - destruct Gz as [[_ F] _]. discriminate.
  - destruct Gz as [[_ F] _]. discriminate.
  - cbn [b_fma]. unfold SFadd. set (ez := Z.min (e + e') e2). cbv zeta.
    pose proof (shl_align_correct' (m * m') (e + e') ez ltac:(lia)) as S1. pose proof (shl_align_correct' m2 e2 ez ltac:(lia)) as S2.
    destruct (shl_align (m * m') (e + e') ez) as [p1 x1]. destruct (shl_align m2 e2 ez) as [p2 x2]. destruct S1 as [S1 _], S2 as [S2 _]. cbn [fst].
    rewrite bn_equiv.
    pose proof (binary_normalize_correct prec emax Flo.Hprec Flo.Hmax mode_NE (cond_Zopp (xorb s s') (Zpos p1) + cond_Zopp s2 (Zpos p2)) ez false) as C. cbv zeta in C.
    assert (F : F2R (Defs.Float radix2 (cond_Zopp (xorb s s') (Zpos p1) + cond_Zopp s2 (Zpos p2)) ez) =
       rval (S754_finite s m e) * rval (S754_finite s' m' e') + rval (S754_finite s2 m2 e2)).
    { unfold F2R in *. cbn [Fnum Fexp] in *. rewrite !bpow_powerRZ in *. change (IZR radix2) with 2 in *. rewrite plus_IZR, Rmult_plus_distr_r.
      assert (X : forall s p, IZR (cond_Zopp s (Zpos p)) = (if s then -1 else 1) * IZR (Zpos p)) by (intros [] p; simpl cond_Zopp; [change (Z.neg p) with (- Z.pos p)%Z; rewrite opp_IZR|]; ring).
      assert (Y : forall s p e, rval (S754_finite s p e) = (if s then -1 else 1) * (IZR (Zpos p) * powerRZ 2 e)).
      { intros [] p q; unfold rval; [change (Z.neg p) with (- Z.pos p)%Z; rewrite opp_IZR|]; ring. }
      rewrite !X, !Y, !Rmult_assoc, S1, S2. rewrite Pos2Z.inj_mul, mult_IZR, p2plus. destruct s, s'; simpl; ring. }
    rewrite F in C. simpl round_mode in C. destruct R as [R1 R2]. rewrite R1 in C. rewrite Rlt_bool_true in C by exact R2. destruct C as (C1 & C2 & _).
    rewrite <- value_B2R in C1. split; [|exact C1]. split; [split; [apply valid_B2SF|rewrite finite_B; auto]|]. rewrite C1. auto.
Qed.

Section H.
Variables (l : libm) (is : list Z) (bs : list bool) (e : list knd) (fs : list b32).
Variables (ac : nat -> cell b32) (ac' : nat -> cell R).
Hypothesis HE : Forall2 good e fs.
Let a : asg b32 := mk (B32 l) is bs ac fs.
Let a' : asg R := mk RS is bs ac' (map rval fs).

Lemma var_ok : forall n, a_f a' n = rval (a_f a n).
Proof.
  intros n. unfold a, a', mk. simpl. change (nth n (map rval fs) (R_lit 0 1) = rval (nth n fs (b_lit 0 1))).
  change (R_lit 0 1) with (rval (b_lit 0 1)). apply map_nth.
Qed.
Lemma env_good : forall n k, nth_error e n = Some k -> good k (a_f a n).
Proof.
  intros n k H. unfold a, mk. simpl. clear -HE H. revert n H. induction HE; intros n H0; destruct n; simpl in *; try discriminate; auto.
  injection H0 as <-. auto.
Qed.
Ltac ck H := cbn [sk bk ik] in H; fold (sk e) (bk e) (ik e) in H.
Ltac gd := cbn [fden bden iden]; fold (fden RS a') (bden RS a') (iden RS a') (fden (B32 l) a) (bden (B32 l) a) (iden (B32 l) a).
Lemma k_ok :
  (forall s k, sk e s = Some k -> good k (fden (B32 l) a s) /\ fden RS a' s = rval (fden (B32 l) a s)) /\
  (forall b, bk e b = true -> bden RS a' b = bden (B32 l) a b) /\
  (forall i, ik e i = true -> iden RS a' i = iden (B32 l) a i).
Proof.
  apply sbi_ind.
  - intros n k H. split; [apply env_good; auto|apply var_ok].
  - intros n d k H. ck H. destruct (lit_good n d k H). auto.
  - intros; discriminate.
  - intros o x IH k H. destruct o; try discriminate H; ck H; try (destruct (sk e x) as [kx|] eqn:Ex in H; [|discriminate H]; specialize (IH _ Ex)); destruct IH as [G E]; injection H as <-.
    + destruct (neg_good _ _ G). split; auto. cbn. rewrite E. auto.
    + destruct (abs_good _ _ G). split; auto. cbn. rewrite E. auto.
    + destruct (floor_good _ _ G). split; auto. cbn. rewrite E. auto.
  - intros o x IHx y IHy k H. destruct o; try discriminate H; ck H;
      (destruct (sk e x) as [kx|] eqn:Ex; [|discriminate H]); (destruct (sk e y) as [ky|] eqn:Ey; [|discriminate H]);
      destruct (IHx _ eq_refl) as [Gx Qx]; destruct (IHy _ eq_refl) as [Gy Qy]; gd; cbn [RS B32 s_op2 R_op2 b_op2]; rewrite Qx, Qy.
    + destruct (add_good _ _ _ _ _ H Gx Gy). auto.
    + destruct (sub_good _ _ _ _ _ H Gx Gy). auto.
    + destruct (mul_good _ _ _ _ _ H Gx Gy). auto.
    + injection H as <-. destruct (fmin_good l _ _ _ _ Gx Gy). auto.
  - intros x IHx y IHy z IHz k H. ck H. destruct (sk e x) as [kx|] eqn:Ex; [|discriminate H]. destruct (sk e y) as [ky|] eqn:Ey; [|discriminate H].
    destruct (sk e z) as [kz|] eqn:Ez; [|discriminate H]. destruct (times kx ky) as [t|] eqn:Et; [|discriminate H].
    destruct (IHx _ eq_refl) as [Gx Qx]; destruct (IHy _ eq_refl) as [Gy Qy]; destruct (IHz _ eq_refl) as [Gz Qz]. gd. cbn [RS B32 s_fma]. rewrite Qx, Qy, Qz.
    destruct (fma_good _ _ _ _ _ _ _ _ Et H Gx Gy Gz). auto.
  - intros c IHc x IHx y IHy k H. ck H. destruct (bk e c); [|discriminate H].
    destruct (sk e x) as [kx|] eqn:Ex; [|discriminate H]. destruct (sk e y) as [ky|] eqn:Ey; [|discriminate H]. injection H as <-.
    destruct (IHx _ eq_refl) as [Gx Qx]; destruct (IHy _ eq_refl) as [Gy Qy]. gd. rewrite (IHc eq_refl).
    destruct (bden (B32 l) a c); split; auto; apply good_join; auto.
  - intros i IHi k H. ck H. destruct (ik e i); [|discriminate H]. destruct (irange i) as [[lo hi]|] eqn:E; [|discriminate H].
    gd; cbn [RS B32 s_ofZ]. rewrite (IHi eq_refl). pose proof (irange_ok (B32 l) a i lo hi E).
    destruct (int_good (iden (B32 l) a i) _ k H); [lia|]. auto.
  - reflexivity.
  - reflexivity.
  - intros c x IHx y IHy H. ck H. destruct (sk e x) as [kx|] eqn:Ex; [|discriminate H]. destruct (sk e y) as [ky|] eqn:Ey; [|discriminate H].
    destruct (IHx _ eq_refl) as [Gx Qx]; destruct (IHy _ eq_refl) as [Gy Qy]. gd. rewrite Qx, Qy. apply cmp_good; eapply good_any; eauto.
  - intros t x IHx H. ck H. destruct (sk e x) as [kx|] eqn:Ex; [|discriminate H]. destruct (IHx _ eq_refl) as [Gx Qx].
    gd. rewrite test_good; [reflexivity|eapply good_any; eauto].
  - intros c x IHx y IHy H. ck H. apply andb_prop in H. destruct H. gd. rewrite IHx, IHy; auto.
  - intros x IHx H. gd. rewrite IHx; auto.
  - intros c IHc x IHx y IHy H. ck H. apply andb_prop in H. destruct H as [H H2]. apply andb_prop in H. destruct H. gd. rewrite IHc, IHx, IHy; auto.
  - intros; discriminate.
  - intros; discriminate.
  - intros i IHi H. gd. rewrite IHi; auto.
  - reflexivity.
  - reflexivity.
  - intros o x IHx y IHy H. ck H. apply andb_prop in H. destruct H. gd. rewrite IHx, IHy; auto.
  - intros x IHx H. gd. rewrite IHx; auto.
  - intros x IHx H. gd. rewrite IHx; auto.
  - intros b IHb H. gd. rewrite IHb; auto.
  - intros c IHc x IHx y IHy H. ck H. apply andb_prop in H. destruct H as [H H2]. apply andb_prop in H. destruct H. gd. rewrite IHc, IHx, IHy; auto.
Qed.
Lemma kk_ok : forall pi pi' L L' c, kk e c = true ->
  cell_has number (cden (B32 l) a pi L c) /\ cden RS a' pi' L' c = real_cell (cden (B32 l) a pi L c).
Proof.
  destruct k_ok as (KS & KB & KI). intros pi pi' L L'. induction c; simpl; intros H; try discriminate.
  - destruct (sk e s) eqn:E; [|discriminate H]. destruct (KS _ _ E) as [G Q]. simpl. split; [eapply good_any; eauto|]. rewrite Q. auto.
  - rewrite KI; auto.
  - apply andb_prop in H. destruct H as [H H2]. apply andb_prop in H. destruct H. rewrite KB by auto. destruct (bden (B32 l) a c1); auto.
Qed.
Lemma kks_ok : forall pi pi' L L' cs, forallb (kk e) cs = true ->
  Forall (cell_has number) (map (cden (B32 l) a pi L) cs) /\ map (cden RS a' pi' L') cs = map real_cell (map (cden (B32 l) a pi L) cs).
Proof.
  intros pi pi' L L'. induction cs; simpl; intros H; auto. apply andb_prop in H. destruct H. destruct (kk_ok pi pi' L L' _ H). destruct IHcs; auto.
  split; [constructor; auto|]. f_equal; auto.
Qed.
Lemma vk_ok : forall pi pi' L L' v, vk e v = true ->
  value_has number (vden (B32 l) a pi L v) /\ vden RS a' pi' L' v = real_value (vden (B32 l) a pi L v).
Proof.
  destruct k_ok as (KS & KB & KI). intros pi pi' L L'. induction v; simpl; intros H; try discriminate; auto.
  - destruct (sk e s) eqn:E; [|discriminate]. destruct (KS _ _ E) as [G Q]. split; [eapply good_any; eauto|]. rewrite Q. auto.
  - rewrite KI; auto.
  - rewrite KB; auto.
  - destruct (kks_ok pi pi' L L' _ H) as [A B]. split; auto. f_equal. auto.
  - apply andb_prop in H. destruct H as [H H2]. apply andb_prop in H. destruct H. rewrite KB by auto. destruct (bden (B32 l) a c); auto.
Qed.
Lemma tk_ok : forall wi sz t, tk e wi sz t = true -> exists v sm, tden (B32 l) a t = Some (v, sm) /\ tden RS a' t = Some (v, sm) /\
  vk e v = true /\ Forall (fun i => forallb (kk e) (nth i sm []) = true) wi /\ map (fun i => length (nth i sm [])) wi = sz.
Proof.
  destruct k_ok as (KS & KB & KI). intros wi sz. induction t; simpl; intros H; try discriminate.
  - destruct a0 as [v sm]. apply andb_prop in H. destruct H as [H H3]. apply andb_prop in H. destruct H as [H H2]. exists v, sm. repeat split; auto.
    + apply Forall_forall. apply forallb_forall. auto.
    + apply list_eqb_lens. auto.
  - apply andb_prop in H. destruct H as [H H2]. apply andb_prop in H. destruct H. rewrite KB by auto. destruct (bden (B32 l) a b); auto.
Qed.
End H.

Lemma wk_ok : forall l is bs ac ac' w e e' fs, wk e w = Some e' -> Forall2 good e fs -> scoped (length fs) w = true ->
  exists ts, Forall2 good e' (fs ++ ts) /\ sat (B32 l) (mk (B32 l) is bs ac (fs ++ ts)) w /\ sat RS (mk RS is bs ac' (map rval (fs ++ ts))) w.
Proof.
  induction w as [|[n s] w IH]; simpl; intros e e' fs H HE HS.
  - injection H as <-. exists []. rewrite app_nil_r. split; [|split]; auto; constructor.
  - destruct (sk e s) as [k|] eqn:E; [|discriminate]. apply andb_prop in HS. destruct HS as [HS HS2]. apply andb_prop in HS. destruct HS as [HS1 HS].
    apply Nat.eqb_eq in HS1. subst n.
    destruct (proj1 (k_ok l is bs e fs ac ac' HE) s k E) as [G Q].
    set (t := fden (B32 l) (mk (B32 l) is bs ac fs) s) in *.
    destruct (IH (e ++ [k]) e' (fs ++ [t])) as (ts & A & B & C); auto.
    + apply Forall2_app; auto.
    + rewrite app_length, Nat.add_1_r. auto.
    + exists (t :: ts). rewrite <- app_assoc in *. simpl in *. split; auto. split.
      * constructor; auto. simpl. rewrite app_nth2 by lia. rewrite Nat.sub_diag. simpl. unfold t.
        apply (below_ext (B32 l) (length fs)); auto. intros n Hn. simpl. rewrite app_nth1; auto.
      * constructor; auto. simpl. rewrite map_app. rewrite app_nth2 by (rewrite map_length; lia). rewrite map_length, Nat.sub_diag. simpl. rewrite <- Q.
        apply (below_ext RS (length fs)); auto. intros n Hn. simpl. rewrite app_nth1; auto. rewrite map_length. auto.
Qed.

(** the floats of arguments, in the order of the variables *)
Definition cfloats (c : cell b32) : list b32 := match c with CF x => [x] | _ => [] end.
Definition afloats (a : arg b32) : list b32 :=
  match a with In cs | InA cs | InOut cs | Val (VA cs) => flat_map cfloats cs | Val (VF x) => [x] | _ => [] end.
Lemma cfloats_fl : forall l, flat_map cfloats (fl l) = l. Proof. induction l; simpl; auto. f_equal. auto. Qed.
Lemma cfloats_il : forall l, flat_map cfloats (il l) = []. Proof. induction l; simpl; auto. Qed.
Lemma build_fs : forall l0 ps (args : list (arg b32)), Forall2 fits ps args -> forall is0 bs0 fs0,
  exists is bs fs sa, List.In sa (build ps (length is0) (length bs0) (length fs0)) /\ length fs = nfloats ps /\ fs = flat_map afloats args /\
  forall ac pi L ts, map (aden (B32 l0) (is0 ++ is) (bs0 ++ bs) (fs0 ++ fs) ac pi L ts) sa = args.
Proof.
  assert (N : forall A (pre : list A) x post d, nth (length pre) (pre ++ x :: post) d = x).
  { intros. rewrite app_nth2 by lia. rewrite Nat.sub_diag. reflexivity. }
  induction 1 as [|p a ps args H HF IH]; intros is0 bs0 fs0.
  - exists [], [], [], []. simpl. auto.
  - destruct p as [| |n|lz| |t n|t n|n|t n|t n]; simpl in H.
    + destruct H as [x ->]. destruct (IH is0 bs0 (fs0 ++ [x])) as (is & bs & fs & sa & I & Lf & Ef & E).
      exists is, bs, (x :: fs), (SVal (XF (SVar (length fs0))) :: sa). rewrite app_length, Nat.add_1_r in I. split; [|split; [|split]].
      * simpl. apply in_map. auto.
      * simpl. auto.
      * simpl. rewrite <- Ef. auto.
      * intros. rewrite <- app_assoc in E. simpl in E. simpl. f_equal; [|apply E]. f_equal. f_equal. rewrite <- app_assoc. apply N.
    + destruct H as [x ->]. destruct (IH (is0 ++ [x]) bs0 fs0) as (is & bs & fs & sa & I & Lf & Ef & E).
      exists (x :: is), bs, fs, (SVal (XI (IVar (length is0))) :: sa). rewrite app_length, Nat.add_1_r in I. split; [|split; [|split]]; auto.
      * simpl. apply in_map. auto.
      * intros. rewrite <- app_assoc in E. simpl in E. simpl. f_equal; [|apply E]. f_equal. f_equal. apply N.
    + destruct H as [z [Hz ->]]. destruct (IH is0 bs0 fs0) as (is & bs & fs & sa & I & Lf & Ef & E).
      exists is, bs, fs, (SVal (XI (ILit z)) :: sa). split; [|split; [|split]]; auto.
      * simpl. apply in_flat_map. exists (Z.to_nat z). split; [apply in_seq; lia|]. rewrite Z2Nat.id by lia. apply in_map. auto.
      * intros. simpl. f_equal. apply E.
    + destruct H as [z [Hz ->]]. destruct (IH is0 bs0 fs0) as (is & bs & fs & sa & I & Lf & Ef & E).
      exists is, bs, fs, (SVal (XI (ILit z)) :: sa). split; [|split; [|split]]; auto.
      * simpl. apply in_flat_map. exists z. split; auto. apply in_map. auto.
      * intros. simpl. f_equal. apply E.
    + destruct H as [x ->]. destruct (IH is0 (bs0 ++ [x]) fs0) as (is & bs & fs & sa & I & Lf & Ef & E).
      exists is, (x :: bs), fs, (SVal (XB (BVar (length bs0))) :: sa). rewrite app_length, Nat.add_1_r in I. split; [|split; [|split]]; auto.
      * simpl. apply in_map. auto.
      * intros. rewrite <- app_assoc in E. simpl in E. simpl. f_equal; [|apply E]. f_equal. f_equal. apply N.
    + destruct H as [cs [H ->]]. destruct t; destruct H as [l [Hl ->]].
      * destruct (IH is0 bs0 (fs0 ++ l)) as (is & bs & fs & sa & I & Lf & Ef & E).
        exists is, bs, (l ++ fs), (SVal (XA (fvars (length fs0) n)) :: sa). rewrite app_length, Nat.add_comm in I. split; [|split; [|split]].
        -- simpl. apply in_map. subst n. auto.
        -- rewrite app_length. simpl. lia.
        -- simpl. rewrite cfloats_fl, <- Ef. auto.
        -- intros. rewrite <- app_assoc in E. simpl. f_equal; [|apply E]. f_equal. f_equal. subst n. rewrite <- !app_assoc. apply (fvars_den (B32 l0)).
      * destruct (IH (is0 ++ l) bs0 fs0) as (is & bs & fs & sa & I & Lf & Ef & E).
        exists (l ++ is), bs, fs, (SVal (XA (ivars (length is0) n)) :: sa). rewrite app_length, Nat.add_comm in I. split; [|split; [|split]].
        -- simpl. apply in_map. subst n. auto.
        -- simpl. lia.
        -- simpl. rewrite cfloats_il. auto.
        -- intros. rewrite <- app_assoc in E. simpl. f_equal; [|apply E]. f_equal. f_equal. subst n. apply (ivars_den (B32 l0)).
    + destruct H as [cs [H ->]]. destruct t; destruct H as [l [Hl ->]].
      * destruct (IH is0 bs0 (fs0 ++ l)) as (is & bs & fs & sa & I & Lf & Ef & E).
        exists is, bs, (l ++ fs), (SInA (fvars (length fs0) n) :: sa). rewrite app_length, Nat.add_comm in I. split; [|split; [|split]].
        -- simpl. apply in_map. subst n. auto.
        -- rewrite app_length. simpl. lia.
        -- simpl. rewrite cfloats_fl, <- Ef. auto.
        -- intros. rewrite <- app_assoc in E. simpl. f_equal; [|apply E]. f_equal. subst n. rewrite <- !app_assoc. apply (fvars_den (B32 l0)).
      * destruct (IH (is0 ++ l) bs0 fs0) as (is & bs & fs & sa & I & Lf & Ef & E).
        exists (l ++ is), bs, fs, (SInA (ivars (length is0) n) :: sa). rewrite app_length, Nat.add_comm in I. split; [|split; [|split]].
        -- simpl. apply in_map. subst n. auto.
        -- simpl. lia.
        -- simpl. rewrite cfloats_il. auto.
        -- intros. rewrite <- app_assoc in E. simpl. f_equal; [|apply E]. f_equal. subst n. apply (ivars_den (B32 l0)).
    + subst a. destruct (IH is0 bs0 fs0) as (is & bs & fs & sa & I & Lf & Ef & E).
      exists is, bs, fs, (SOut n :: sa). split; [|split; [|split]]; auto. simpl. apply in_map. auto. intros. simpl. f_equal. apply E.
    + destruct H as [cs [H ->]]. destruct t; destruct H as [l [Hl ->]].
      * destruct (IH is0 bs0 (fs0 ++ l)) as (is & bs & fs & sa & I & Lf & Ef & E).
        exists is, bs, (l ++ fs), (SInOut (fvars (length fs0) n) :: sa). rewrite app_length, Nat.add_comm in I. split; [|split; [|split]].
        -- simpl. apply in_map. subst n. auto.
        -- rewrite app_length. simpl. lia.
        -- simpl. rewrite cfloats_fl, <- Ef. auto.
        -- intros. rewrite <- app_assoc in E. simpl. f_equal; [|apply E]. f_equal. subst n. rewrite <- !app_assoc. apply (fvars_den (B32 l0)).
      * destruct (IH (is0 ++ l) bs0 fs0) as (is & bs & fs & sa & I & Lf & Ef & E).
        exists (l ++ is), bs, fs, (SInOut (ivars (length is0) n) :: sa). rewrite app_length, Nat.add_comm in I. split; [|split; [|split]].
        -- simpl. apply in_map. subst n. auto.
        -- simpl. lia.
        -- simpl. rewrite cfloats_il. auto.
        -- intros. rewrite <- app_assoc in E. simpl. f_equal; [|apply E]. f_equal. subst n. apply (ivars_den (B32 l0)).
    + destruct H as [cs [H ->]]. destruct t; destruct H as [l [Hl ->]].
      * destruct (IH is0 bs0 (fs0 ++ l)) as (is & bs & fs & sa & I & Lf & Ef & E).
        exists is, bs, (l ++ fs), (SIn (fvars (length fs0) n) :: sa). rewrite app_length, Nat.add_comm in I. split; [|split; [|split]].
        -- simpl. apply in_map. subst n. auto.
        -- rewrite app_length. simpl. lia.
        -- simpl. rewrite cfloats_fl, <- Ef. auto.
        -- intros. rewrite <- app_assoc in E. simpl. f_equal; [|apply E]. f_equal. subst n. rewrite <- !app_assoc. apply (fvars_den (B32 l0)).
      * destruct (IH (is0 ++ l) bs0 fs0) as (is & bs & fs & sa & I & Lf & Ef & E).
        exists (l ++ is), bs, fs, (SIn (ivars (length is0) n) :: sa). rewrite app_length, Nat.add_comm in I. split; [|split; [|split]].
        -- simpl. apply in_map. subst n. auto.
        -- simpl. lia.
        -- simpl. rewrite cfloats_il. auto.
        -- intros. rewrite <- app_assoc in E. simpl. f_equal; [|apply E]. f_equal. subst n. apply (ivars_den (B32 l0)).
Qed.
Lemma build_real : forall l is bs fs ac ac' pi pi' L L' ts ts' ps i b k sa, List.In sa (build ps i b k) -> (k + nfloats ps <= length fs)%nat ->
  map (aden RS is bs (map rval fs) ac' pi' L' ts') sa = map real_arg (map (aden (B32 l) is bs fs ac pi L ts) sa).
Proof.
  intros l is bs fs ac ac' pi pi' L L' ts ts'.
  assert (V : forall j, (j < length fs)%nat -> fden RS (mk RS is bs ac' (map rval fs ++ ts')) (SVar j) = rval (fden (B32 l) (mk (B32 l) is bs ac (fs ++ ts)) (SVar j))).
  { intros j H. cbn [fden]. unfold mk. cbn [a_f]. rewrite !app_nth1 by (rewrite ?map_length; auto).
    change (nth j (map rval fs) (R_lit 0 1) = rval (nth j fs (b_lit 0 1))). change (R_lit 0 1) with (rval (b_lit 0 1)). apply map_nth. }
  assert (VF : forall n k, (k + n <= length fs)%nat -> map (cden RS (mk RS is bs ac' (map rval fs ++ ts')) pi' L') (fvars k n) =
    map real_cell (map (cden (B32 l) (mk (B32 l) is bs ac (fs ++ ts)) pi L) (fvars k n))).
  { induction n; intros k H; [reflexivity|]. unfold fvars in *. cbn [seq map]. rewrite IHn by lia. f_equal. cbn [cden]. rewrite V by lia. reflexivity. }
  assert (VI : forall n k, map (cden RS (mk RS is bs ac' (map rval fs ++ ts')) pi' L') (ivars k n) =
    map real_cell (map (cden (B32 l) (mk (B32 l) is bs ac (fs ++ ts)) pi L) (ivars k n))).
  { induction n; intros k; [reflexivity|]. unfold ivars in *. cbn [seq map]. rewrite IHn. reflexivity. }
  assert (IM : forall (ps : list param) a X (sa : list sarg), List.In sa (map (cons a) X) -> exists sb, sa = a :: sb /\ List.In sb X).
  { intros ps a X sa H. apply in_map_iff in H. destruct H as (sb & <- & H). eauto. }
  induction ps as [|p ps IH]; intros i b k sa I N.
  - destruct I as [<-|[]]. reflexivity.
  - destruct p as [| |n|lz| |[] n|[] n|n|[] n|[] n]; cbn [build] in I; cbn [nfloats fold_right floats] in N; fold (nfloats ps) in N;
      try (apply in_flat_map in I; destruct I as (z & _ & I)); apply (IM ps) in I; destruct I as (sb & -> & I);
      cbn [map]; (apply f_equal2; [|eapply IH; [exact I|lia]]);
      cbn [aden real_arg vden real_value]; rewrite ?V, ?VF, ?VI by lia; reflexivity.
Qed.
Lemma written_real : forall a, written (real_arg a) = written a. Proof. intros []; reflexivity. Qed.
Lemma wptrs_real : forall args pl, wptrs (map real_arg args) pl = wptrs args pl.
Proof. induction args; intros [|p pl]; simpl; auto. rewrite written_real, IHargs. reflexivity. Qed.
Lemma has_good : forall P args, Forall (arg_has P) args -> Forall P (flat_map afloats args).
Proof.
  intros P args H. assert (C : forall cs, Forall (cell_has P) cs -> Forall P (flat_map cfloats cs)).
  { induction 1 as [|c cs Hc Hcs IH]; simpl; auto. apply Forall_app. split; auto. destruct c; simpl in *; auto. }
  induction H as [|a args Ha Hargs IH]; simpl; auto. apply Forall_app. split; auto.
  destruct a as [cs|cs|n|cs|v]; simpl in *; auto. destruct v; simpl in *; auto.
Qed.
Theorem exactb_ok : forall K k0 (P : b32 -> Prop), (forall x, P x -> good k0 x) -> forall d, exactb K k0 d = true -> exact P d.
Proof.
  intros K k0 P HP [f ps] H l args m rm pl HF HA HL HR.
  destruct (build_fs l ps args HF [] [] []) as (is & bs & fs & sa & I & Lf & Ef & E). simpl in E, I.
  assert (ER : forall ac pi L ts, map (aden RS is bs (map rval fs) ac pi L ts) sa = map real_arg args).
  { intros. rewrite <- (E (fun _ => CU) [] 0%nat []). eapply build_real; eauto. simpl. lia. }
  unfold exactb in H. rewrite forallb_forall in H. specialize (H _ I). rewrite forallb_forall in H. specialize (H _ (choose_in sa pl)).
  unfold exact_at in H. rewrite <- Lf in H.
  destruct (y_call K (sro sa) f (sactuals sa (choose sa pl)) (sregions sa (choose sa pl)) (length fs)) as [[t n] w] eqn:EY.
  apply andb_prop in H. destruct H as [H H3]. apply andb_prop in H. destruct H as [H1 H2].
  destruct (wk (repeat k0 (length fs)) w) as [e|] eqn:EW; [|discriminate].
  assert (HG : Forall2 good (repeat k0 (length fs)) fs).
  { assert (X : Forall P fs) by (rewrite Ef; apply has_good; auto). clear -X HP. induction X; simpl; constructor; auto. }
  assert (EYR := EY). rewrite <- (map_length rval fs) in EYR.
  pose proof (main_run (B32 l) K f sa args is bs fs E m pl HL) as MB.
  pose proof (main_run RS K f sa (map real_arg args) is bs (map rval fs) ER rm pl HR) as MR.
  match type of MB with forall ts t n w v sm', _ -> sat _ (mk _ _ _ ?ac _) w -> _ => set (ab := ac) in * end.
  match type of MR with forall ts t n w v sm', _ -> sat _ (mk _ _ _ ?ac _) w -> _ => set (ar := ac) in * end.
  destruct (wk_ok l is bs ab ar w _ _ fs EW HG H1) as (ts & G & SB & SR).
  destruct (tk_ok l is bs e (fs ++ ts) ab ar G _ _ _ H3) as (v & sm & TB & TR & VK & KK & SZ).
  assert (HLen : list_eqb Nat.eqb (map (@length _) sm) (map (@length _) (sregions sa (choose sa pl))) = true).
  { destruct (safe_tree_den (B32 l) _ (mk (B32 l) is bs ab (fs ++ ts)) _ H2) as [(v' & sm' & HD & X) | (x & HX & HD)]; [congruence|].
    exfalso. clear - HD TB. induction t; simpl in *; try discriminate; destruct (bden _ _ _); auto; discriminate. }
  apply list_eqb_lens in HLen.
  assert (Hl : length sm = length sa).
  { apply (f_equal (@length _)) in HLen. rewrite !map_length in HLen. unfold sregions in HLen. rewrite mapi_length in HLen. auto. }
  rewrite map_app in TR, SR.
  specialize (MB ts t n w v sm EY SB TB Hl). specialize (MR (map rval ts) t n w v sm EYR SR TR Hl).
  rewrite <- map_app in MR.
  destruct (vk_ok l is bs e (fs ++ ts) ab ar G pl pl (length m) (length rm) v VK) as [V1 V2].
  do 2 eexists. split; [exact MB|]. rewrite wptrs_real in MR. split; [|split; [exact V1|split]].
  - etransitivity; [exact MR|]. f_equal. f_equal; [exact V2|]. f_equal. f_equal. rewrite map_map. apply map_ext_in. intros i Hi.
    rewrite Forall_forall in KK. apply (kks_ok l is bs e (fs ++ ts) ab ar G). apply KK. auto.
  - apply Forall_forall. intros cs Hc. apply in_map_iff in Hc. destruct Hc as (i & <- & Hi). rewrite Forall_forall in KK.
    apply (kks_ok l is bs e (fs ++ ts) ab ar G pl pl (length m) (length rm)). apply KK. auto.
  - rewrite map_map. rewrite (map_ext _ (fun i => length (nth i sm []))) by (intros; apply map_length). rewrite SZ.
    rewrite <- (E ab pl (length m) ts). clearbody ab. clear. induction sa as [|a sa IH]; simpl; auto.
    destruct a; simpl; auto; rewrite ?map_length; f_equal; auto.
Qed.

(** ** The same with one outcome for every memory *)

Definition single (sa : list sarg) : bool := match patterns sa with [_] => true | _ => false end.
Definition exactvb (K : nat) (k0 : knd) (d : fundef * list param) : bool :=
  exactb K k0 d && forallb single (build (snd d) 0 0 0).
Lemma kk_closed : forall e c, kk e c = true -> kclosed c = true.
Proof.
  induction c; simpl; intros H; auto; try discriminate. apply andb_prop in H. destruct H as [H H2]. apply andb_prop in H. destruct H.
  rewrite IHc1, IHc2; auto.
Qed.
Lemma vk_closed : forall e v, vk e v = true -> vclosed v = true.
Proof.
  induction v; simpl; intros H; auto; try discriminate.
  - rewrite forallb_forall in *. intros x I. eapply kk_closed. apply H. auto.
  - apply andb_prop in H. destruct H as [H H2]. apply andb_prop in H. destruct H. rewrite IHv1, IHv2; auto.
Qed.
Theorem exactvb_ok : forall K k0 (P : b32 -> Prop), (forall x, P x -> good k0 x) -> forall d, exactvb K k0 d = true -> exact_values P d.
Proof.
  intros K k0 P HP [f ps] HV l args HF HA. unfold exactvb in HV. apply andb_prop in HV. destruct HV as [H HS]. cbn [snd] in HS.
  destruct (build_fs l ps args HF [] [] []) as (is & bs & fs & sa & I & Lf & Ef & E). simpl in E, I.
  assert (ER : forall ac pi L ts, map (aden RS is bs (map rval fs) ac pi L ts) sa = map real_arg args).
  { intros. rewrite <- (E (fun _ => CU) [] 0%nat []). eapply build_real; eauto. simpl. lia. }
  unfold exactb in H. rewrite forallb_forall in H, HS. specialize (H _ I). specialize (HS _ I). unfold single in HS.
  destruct (patterns sa) as [|pat [|]] eqn:EP; try discriminate.
  assert (HC : forall pl, choose sa pl = pat). { intros pl. pose proof (choose_in sa pl) as J. rewrite EP in J. destruct J as [J|[]]; auto. }
  cbn [forallb] in H. rewrite andb_true_r in H.
  unfold exact_at in H. rewrite <- Lf in H.
  destruct (y_call K (sro sa) f (sactuals sa pat) (sregions sa pat) (length fs)) as [[t n] w] eqn:EY.
  apply andb_prop in H. destruct H as [H H3]. apply andb_prop in H. destruct H as [H1 H2].
  destruct (wk (repeat k0 (length fs)) w) as [e|] eqn:EW; [|discriminate].
  assert (HG : Forall2 good (repeat k0 (length fs)) fs).
  { assert (X : Forall P fs) by (rewrite Ef; apply has_good; auto). clear -X HP. induction X; simpl; constructor; auto. }
  assert (EYR := EY). rewrite <- (map_length rval fs) in EYR.
  set (ab := nil_ac (B32 l)). set (ar := nil_ac RS).
  destruct (wk_ok l is bs ab ar w _ _ fs EW HG H1) as (ts & G & SB & SR).
  destruct (tk_ok l is bs e (fs ++ ts) ab ar G _ _ _ H3) as (v & sm & TB & TR & VK & KK & SZ).
  assert (HLen : list_eqb Nat.eqb (map (@length _) sm) (map (@length _) (sregions sa pat)) = true).
  { destruct (safe_tree_den (B32 l) _ (mk (B32 l) is bs ab (fs ++ ts)) _ H2) as [(v' & sm' & HD & X) | (x & HX & HD)]; [congruence|].
    exfalso. clear - HD TB. induction t; simpl in *; try discriminate; destruct (bden _ _ _); auto; discriminate. }
  apply list_eqb_lens in HLen.
  assert (Hl : length sm = length sa).
  { apply (f_equal (@length _)) in HLen. rewrite !map_length in HLen. unfold sregions in HLen. rewrite mapi_length in HLen. auto. }
  rewrite map_app in TR, SR. rewrite Forall_forall in KK.
  assert (KC : forall i, List.In i (widx sa) -> forallb kclosed (nth i sm []) = true).
  { intros i Hi. specialize (KK i Hi). rewrite forallb_forall in *. intros c Hc. eapply kk_closed. apply KK. auto. }
  destruct (vk_ok l is bs e (fs ++ ts) ab ar G [] [] 0 0 v VK) as [V1 V2].
  exists (vden (B32 l) (mk (B32 l) is bs ab (fs ++ ts)) [] 0 v), (map (fun i => map (cden (B32 l) (mk (B32 l) is bs ab (fs ++ ts)) [] 0) (nth i sm [])) (widx sa)).
  split; [|split; [|split; [exact V1|split]]].
  - intros m pl HL. assert (EY2 := EY). rewrite <- (HC pl) in EY2.
    erewrite (main_run (B32 l) K f sa args is bs fs E m pl HL ts t n w v sm EY2).
    2:{ eapply sat_ac. exact SB. } 2:{ rewrite <- TB. apply tden_ac. } 2:{ auto. }
    f_equal. f_equal; [apply vden_closed; eapply vk_closed; eauto|]. f_equal. f_equal. apply map_ext_in. intros i Hi. apply cdens_closed. auto.
  - intros m pl HL. assert (EY2 := EYR). rewrite <- (HC pl) in EY2.
    erewrite (main_run RS K f sa (map real_arg args) is bs (map rval fs) ER m pl HL (map rval ts) t n w v sm EY2).
    2:{ eapply sat_ac. exact SR. } 2:{ rewrite <- TR. apply tden_ac. } 2:{ auto. }
    rewrite wptrs_real. rewrite <- map_app. f_equal. f_equal.
    + rewrite <- V2. apply (vden_closed RS). eapply vk_closed; eauto.
    + f_equal. f_equal. rewrite map_map. apply map_ext_in. intros i Hi.
      rewrite <- (proj2 (kks_ok l is bs e (fs ++ ts) ab ar G [] [] 0 0 _ (KK i Hi))). apply (cdens_closed RS). auto.
  - apply Forall_forall. intros cs Hc. apply in_map_iff in Hc. destruct Hc as (i & <- & Hi).
    apply (kks_ok l is bs e (fs ++ ts) ab ar G [] [] 0 0). apply KK. auto.
  - rewrite map_map. rewrite (map_ext _ (fun i => length (nth i sm []))) by (intros; apply map_length). rewrite SZ.
    rewrite <- (E ab [] 0%nat ts). clearbody ab. clear. induction sa as [|a sa IH]; simpl; auto.
    destruct a; simpl; auto; rewrite ?map_length; f_equal; auto.
Qed.
