(** * Bounding rounding errors by symbolic evaluation (proof tool) *)

From Coq Require Import String List ZArith Bool Lia Reals Lra Psatz Floats.SpecFloat.
From Flocq Require Import Core BinarySingleNaN.
From Verif Require Import MiniC Contract RScalar B32 Sym SymSound SymCall.
From Verif.Spec Require Import Float32 Types Exact Approx.
From Verif.Proofs Require Import Safe Outcome Flo FloFma ExactSound.
Import ListNotations.
Local Open Scope Z_scope.
Local Open Scope list_scope.

(** bounds in units of 2^-30: of the magnitude of the exact value, and of the error *)
Record ek := EK { mg : Z; er : Z }.
Definition unit : Z := 2 ^ 30.
Definition top : Z := 2 ^ 130.
Definition cdiv (a b : Z) : Z := (a + b - 1) / b.
(** the rounding error of a value of magnitude at most [r] *)
Definition rde (r : Z) : Z := if r =? 0 then 0 else Z.max 1 (Z.shiftl 1 (Z.log2_up r - 25)).
(** division by [unit], rounded up *)
Definition up (a : Z) : Z := Z.shiftr (a + 1073741823) 30.
Definition rounded (m e : Z) : option ek :=
  if (0 <=? m) && (0 <=? e) && (m + e <? top) then Some (EK m (e + rde (m + e))) else None.
Definition eplus (a b : ek) : option ek :=
  if (mg a + er a =? 0) then Some b else if (mg b + er b =? 0) then Some a else rounded (mg a + mg b) (er a + er b).
Definition mulm (a b : ek) : Z := up (mg a * mg b).
Definition mule (a b : ek) : Z := up (mg a * er b + mg b * er a + er a * er b).
Definition etimes (a b : ek) : option ek := rounded (mulm a b) (mule a b).
Definition ejoin (a b : ek) : ek := EK (Z.max (mg a) (mg b)) (Z.max (er a) (er b)).
Definition elit (n : Z) (d : positive) : option ek :=
  let x := b_lit n d in
  if inb32 x then
    match x with
    | S754_zero _ => Some (EK (cdiv (Z.abs n * unit) (Zpos d)) (cdiv (Z.abs n * unit) (Zpos d)))
    | S754_finite s m e =>
      let z := if s then Zneg m else Zpos m in
      Some (EK (cdiv (Z.abs n * unit) (Zpos d))
        (if 0 <=? e then cdiv (Z.abs (z * 2 ^ e * Zpos d - n) * unit) (Zpos d)
         else cdiv (Z.abs (z * Zpos d - n * 2 ^ (- e)) * unit) (Zpos d * 2 ^ (- e))))
    | _ => None
    end
  else None.
(** a rational multiple of pi *)
Definition epi (n : Z) (d : positive) : option ek :=
  match elit (n * 314159265358979323846) (d * 100000000000000000000) with
  | Some k => let w := cdiv (Z.abs n) (Zpos d) in Some (EK (mg k + w) (er k + w))
  | None => None
  end.
(** a divided by an exactly represented literal *)
Definition ediv (a : ek) (n : Z) (d : positive) : option ek :=
  if litb n d && negb (n =? 0) then rounded (cdiv (mg a * Zpos d) (Z.abs n)) (cdiv (er a * Zpos d) (Z.abs n)) else None.
(** the lesser or greater of the two compared values *)
Definition minmax (c : cmp) (x y a b : sexp) : bool :=
  match c with CLt | CLe | CGt | CGe => (sexp_eqb x a && sexp_eqb y b) || (sexp_eqb x b && sexp_eqb y a) | _ => false end.
Definition eexact (o : option ek) : bool := match o with Some k => er k =? 0 | None => false end.

Section K.
Variable tr : option Z.     (* the admitted error of sine and cosine *)
Variable e : list ek.
Fixpoint ske (s : sexp) : option ek :=
  match s with
  | SVar n => nth_error e n
  | SLit n d => elit n d
  | SPi n d => epi n d
  | SOp1 ONeg a | SOp1 OAbs a => ske a
  | SOp2 OAdd a b | SOp2 OSub a b => match ske a, ske b with Some x, Some y => eplus x y | _, _ => None end
  | SOp2 OMul a b => match ske a, ske b with Some x, Some y => etimes x y | _, _ => None end
  | SOp2 ODiv a (SLit n d) => match ske a with Some x => ediv x n d | None => None end
  | SOp1 OSin a | SOp1 OCos a => match ske a, tr with Some x, Some t => Some (EK unit (er x + t)) | _, _ => None end
  | SOp2 OFmin a b => match ske a, ske b with Some x, Some y => Some (ejoin x y) | _, _ => None end
  | SOp1 OFloor a => match ske a with Some x => if er x =? 0 then Some (EK (mg x + unit) 0) else None | None => None end
  | SFma a b c =>
    match ske a, ske b, ske c with Some x, Some y, Some z => rounded (mulm x y + mg z) (mule x y + er z) | _, _, _ => None end
  | SIte c a b =>
    if bke c || match c with BCmpF o x y => minmax o x y a b | _ => false end
    then match ske a, ske b with Some x, Some y => Some (ejoin x y) | _, _ => None end else None
  | SOfZ i =>
    if ike i then match irange i with
                  | Some (l, h) => if Z.max (Z.abs l) (Z.abs h) <? lim then Some (EK (Z.max (Z.abs l) (Z.abs h) * unit) 0) else None
                  | None => None end
    else None
  | _ => None
  end
with bke (b : bexp) : bool :=
  match b with
  | BLit _ | BVar _ => true
  | BCmpF _ a b => eexact (ske a) && eexact (ske b)
  | BTest _ a => match ske a with Some _ => true | None => false end
  | BCmpI _ a b => ike a && ike b
  | BNot a => bke a
  | BIte c a b => bke c && bke a && bke b
  | BOk1 _ _ | BOk2 _ _ _ => false
  | BIn i => ike i
  end
with ike (i : iexp) : bool :=
  match i with
  | ILit _ | IVar _ => true
  | IOp _ a b => ike a && ike b
  | INeg a | IAbs a => ike a
  | IOfB b => bke b
  | IIte c a b => bke c && ike a && ike b
  end.
Variable lim : Z.     (* the admitted error of results *)
Fixpoint kke (c : scell) : bool :=
  match c with
  | KF s => match ske s with Some k => er k <=? lim | None => false end
  | KI i => ike i | KIte c a b => bke c && kke a && kke b | _ => false
  end.
Fixpoint vke (v : sval) : bool :=
  match v with
  | XF s => match ske s with Some k => er k <=? lim | None => false end
  | XI i => ike i | XB b => bke b | XVoid => true | XA l => forallb kke l | XIte c a b => bke c && vke a && vke b | _ => false
  end.
Fixpoint tke (wi sz : list nat) (t : tree (sval * smem)) : bool :=
  match t with
  | TLeaf (v, sm) => vke v && forallb (fun i => forallb kke (nth i sm [])) wi && list_eqb Nat.eqb (map (fun i => length (nth i sm [])) wi) sz
  | TErr => false
  | TIf b t u => bke b && tke wi sz t && tke wi sz u
  | TGuard _ g t => match g with BOk2 ODiv _ (SLit n _) => negb (n =? 0) && tke wi sz t | _ => false end
  end.
End K.
Fixpoint wke (tr : option Z) (e : list ek) (w : binds) : option (list ek) :=
  match w with
  | [] => Some e
  | (_, s) :: w' => match ske tr e s with Some k => wke tr (e ++ [k]) w' | None => None end
  end.
(** [cs]: pairs of the bound of the arguments and the admitted error *)
Definition approx_at (tr : option Z) (K : nat) (cs : list (ek * Z)) (f : fundef) (sa : list sarg) (n : nat) (pat : list (option nat)) : bool :=
  let '(t, _, w) := y_call K (sro sa) f (sactuals sa pat) (sregions sa pat) n in
  scoped n w && safe_tree (map (@length _) (sregions sa pat)) t &&
  forallb (fun c => match wke tr (repeat (fst c) n) w with Some e => tke tr e (snd c) (widx sa) (map ssz (filter swritten sa)) t | None => false end) cs.
Definition approxb (tr : option Z) (K : nat) (cs : list (ek * Z)) (d : fundef * list param) : bool :=
  let '(f, ps) := d in
  forallb (fun sa => forallb (approx_at tr K cs f sa (nfloats ps)) (patterns sa)) (build ps 0 0 0).

(** the least admitted error for which the check succeeds, found outside the proofs *)
Section W.
Variable tr : option Z.
Variable e : list ek.
Fixpoint kmax (c : scell) : Z :=
  match c with KF s => match ske tr e s with Some k => er k | None => top end | KIte _ a b => Z.max (kmax a) (kmax b) | _ => 0 end.
Fixpoint vmax (v : sval) : Z :=
  match v with
  | XF s => match ske tr e s with Some k => er k | None => top end
  | XA l => fold_right (fun c z => Z.max (kmax c) z) 0 l | XIte _ a b => Z.max (vmax a) (vmax b) | _ => 0
  end.
Fixpoint tmax (wi : list nat) (t : tree (sval * smem)) : Z :=
  match t with
  | TLeaf (v, sm) => fold_right (fun i z => fold_right (fun c z => Z.max (kmax c) z) z (nth i sm [])) (vmax v) wi
  | TErr => top
  | TIf b t u => Z.max (tmax wi t) (tmax wi u)
  | TGuard _ g t => match g with BOk2 ODiv _ (SLit n _) => if n =? 0 then top else tmax wi t | _ => top end
  end.
End W.
Definition worst (tr : option Z) (K : nat) (k0 : ek) (d : fundef * list param) : Z :=
  let '(f, ps) := d in
  fold_right (fun sa z => fold_right (fun pat z =>
    let '(t, _, w) := y_call K (sro sa) f (sactuals sa pat) (sregions sa pat) (nfloats ps) in
    Z.max z (match wke tr (repeat k0 (nfloats ps)) w with Some e => tmax tr e (widx sa) t | None => top end)) z (patterns sa)) 0 (build ps 0 0 0).

(** ** Soundness *)

Local Open Scope R_scope.
Definition sc : R := powerRZ 2 (-30).
Definition near (k : ek) (x : b32) (r : R) : Prop :=
  number x /\ Rabs r <= IZR (mg k) * sc /\ Rabs (rval x - r) <= IZR (er k) * sc.
Lemma sc_pos : 0 < sc. Proof. apply p2pos. Qed.
Lemma sc_unit : IZR unit * sc = 1.
Proof. unfold unit, sc. rewrite <- p2Z by lia. rewrite <- p2plus. reflexivity. Qed.
Lemma near_pos : forall k x r, near k x r -> (0 <= mg k)%Z /\ (0 <= er k)%Z.
Proof.
  intros k x r (_ & H1 & H2). pose proof sc_pos. pose proof (Rabs_pos r). pose proof (Rabs_pos (rval x - r)).
  split; apply le_IZR; apply (Rmult_le_reg_r sc); lra.
Qed.
Lemma cdiv_ge : forall a b, (0 < b)%Z -> IZR a <= IZR (cdiv a b) * IZR b.
Proof. intros a b H. rewrite <- mult_IZR. apply IZR_le. unfold cdiv. pose proof (Z.div_mod (a + b - 1) b). pose proof (Z.mod_pos_bound (a + b - 1) b H). nia. Qed.
Lemma cdiv_pos : forall a b, (0 <= a)%Z -> (0 < b)%Z -> (0 <= cdiv a b)%Z.
Proof. intros. unfold cdiv. apply Z.div_pos; lia. Qed.

Lemma u_p2 : u = powerRZ 2 (-24). Proof. unfold u. simpl. lra. Qed.
Lemma half_ulp : forall r k, Rabs r <= powerRZ 2 k -> (-125 <= k)%Z -> Rabs (rnd r - r) <= powerRZ 2 (k - 25).
Proof.
  intros r k H K. destruct (Req_dec r 0) as [->|NZ].
  { rewrite round_0 by auto with typeclass_instances. rewrite Rminus_0_r, Rabs_R0. left. apply p2pos. }
  destruct (Rle_lt_or_eq_dec _ _ H) as [L|E].
  - eapply Rle_trans; [apply error_le_half_ulp; apply fexp_correct; reflexivity|].
    rewrite ulp_neq_0 by auto. unfold cexp.
    assert (M : (mag radix2 r <= k)%Z). { apply mag_le_bpow; auto. rewrite bpow_powerRZ. exact L. }
    assert (X : (fx (mag radix2 r) <= k - 24)%Z). { unfold SpecFloat.fexp, SpecFloat.emin, prec, emax. lia. }
    apply Rle_trans with (/ 2 * bpow radix2 (k - 24)).
    + apply Rmult_le_compat_l; [lra|]. apply bpow_le. exact X.
    + replace (k - 25)%Z with (-1 + (k - 24))%Z by lia. rewrite p2plus, bpow_powerRZ. change (IZR radix2) with 2. simpl (powerRZ 2 (-1)). lra.
  - assert (G : rnd r = r).
    { apply round_generic; auto with typeclass_instances. rewrite <- (Rabs_pos_eq (powerRZ 2 k)) in E by (left; apply p2pos).
      change 2 with (IZR radix2) in E. rewrite <- bpow_powerRZ in E. apply generic_format_abs_inv. rewrite E. apply generic_format_abs.
      apply generic_format_bpow. unfold SpecFloat.fexp, SpecFloat.emin, prec, emax. lia. }
    rewrite G, Rminus_diag_eq, Rabs_R0 by auto. left. apply p2pos.
Qed.
Lemma rde_ok : forall R t, (0 <= R)%Z -> Rabs t <= IZR R * sc -> Rabs (rnd t - t) <= IZR (rde R) * sc.
Proof.
  intros R t P H. unfold rde. destruct (Z.eqb_spec R 0) as [->|NZ].
  { assert (t = 0). { apply Rabs_eq_R0. pose proof (Rabs_pos t). lra. } subst t. rewrite round_0 by auto with typeclass_instances.
    rewrite Rminus_0_r, Rabs_R0. lra. }
  assert (H2 : Rabs t <= powerRZ 2 (Z.log2_up R - 30)).
  { eapply Rle_trans; [exact H|]. unfold Z.sub. rewrite p2plus. apply Rmult_le_compat_r; [left; apply sc_pos|].
    rewrite p2Z by apply Z.log2_up_nonneg. apply IZR_le. destruct (Z.eq_dec R 1) as [->|]; [simpl; lia|]. apply Z.log2_up_spec. lia. }
  pose proof (Z.log2_up_nonneg R). set (k := Z.log2_up R) in *.
  eapply Rle_trans; [apply (half_ulp _ _ H2); lia|]. replace (k - 30 - 25)%Z with ((k - 25) + -30)%Z by lia. rewrite p2plus. fold sc.
  apply Rmult_le_compat_r; [left; apply sc_pos|]. destruct (Z.le_gt_cases 25 k).
  - rewrite p2Z by lia. apply IZR_le. rewrite Z.shiftl_mul_pow2 by lia. lia.
  - apply Rle_trans with 1; [|apply IZR_le; lia]. change 1 with (powerRZ 2 0). change 2 with (IZR radix2). rewrite <- !bpow_powerRZ. apply bpow_le. lia.
Qed.
Lemma not_big : forall R t, (0 <= R)%Z -> (R < top)%Z -> Rabs t <= IZR R * sc -> Rabs (rnd t) < big.
Proof.
  intros R t P T H. assert (Rabs t <= powerRZ 2 100).
  { eapply Rle_trans; [exact H|]. change 100%Z with (130 + -30)%Z. rewrite p2plus. apply Rmult_le_compat_r; [left; apply sc_pos|]. rewrite p2Z by lia. apply IZR_le. unfold top in T. lia. }
  pose proof (half_ulp _ _ H0 ltac:(lia)) as U. replace (rnd t) with (t + (rnd t - t)) by ring.
  eapply Rle_lt_trans; [apply Rabs_triang|]. apply Rle_lt_trans with (powerRZ 2 100 + powerRZ 2 100).
  - apply Rplus_le_compat; auto. eapply Rle_trans; [exact U|]. change 2 with (IZR radix2). rewrite <- !bpow_powerRZ. apply bpow_le. lia.
  - replace (powerRZ 2 100 + powerRZ 2 100) with (powerRZ 2 101) by (change 101%Z with (1 + 100)%Z; rewrite p2plus; simpl (powerRZ 2 1); ring).
    unfold big. rewrite bpow_powerRZ. change (IZR radix2) with 2. change 2 with (IZR radix2). rewrite <- !bpow_powerRZ. apply bpow_lt. reflexivity.
Qed.
(** one rounded operation: exact value [r], the operation on the floats [t] *)
Lemma round_near : forall m e k r t y, rounded m e = Some k -> Rabs r <= IZR m * sc -> Rabs (t - r) <= IZR e * sc ->
  inb32 y = true -> (finite y = true -> rval y = rnd t) -> (Rabs (rnd t) < big -> finite y = true) -> near k y r.
Proof.
  intros m e k r t y H Hr Ht V F1 F2. unfold rounded in H. destruct (_ && _) eqn:E in H; [|discriminate]. injection H as <-.
  apply andb_prop in E. destruct E as [E E3]. apply andb_prop in E. destruct E as [E1 E2]. apply Z.leb_le in E1, E2. apply Z.ltb_lt in E3.
  assert (B : Rabs t <= IZR (m + e) * sc).
  { rewrite plus_IZR, Rmult_plus_distr_r. replace t with (r + (t - r)) by ring. eapply Rle_trans; [apply Rabs_triang|]. lra. }
  assert (N : finite y = true) by (apply F2; eapply not_big; [| |exact B]; lia).
  split; [split; auto|]. split; auto. cbn [er]. rewrite (F1 N), plus_IZR, Rmult_plus_distr_r.
  replace (rnd t - r) with ((t - r) + (rnd t - t)) by ring. eapply Rle_trans; [apply Rabs_triang|].
  apply Rplus_le_compat; auto. apply rde_ok; auto. lia.
Qed.
Lemma zero_near : forall k x r, near k x r -> (mg k + er k = 0)%Z -> rval x = 0 /\ r = 0.
Proof.
  intros k x r H E. pose proof (near_pos _ _ _ H) as [A B]. destruct H as (_ & H1 & H2).
  assert (mg k = 0%Z /\ er k = 0%Z) as [X Y] by lia. rewrite X in H1. rewrite Y in H2.
  pose proof (Rabs_pos r). pose proof (Rabs_pos (rval x - r)).
  assert (r = 0) by (apply Rabs_eq_R0; lra). assert (rval x - r = 0) by (apply Rabs_eq_R0; lra). lra.
Qed.
Lemma big_num : forall x, number x -> Rabs (rnd (rval x)) < big.
Proof. intros x [V F]. rewrite rnd_id by auto. destruct (to_B x V) as [b <-]. rewrite value_B2R. apply abs_B2R_lt_emax. Qed.
Lemma add_near : forall a b c x y p q, eplus a b = Some c -> near a x p -> near b y q -> near c (SFadd prec emax x y) (p + q).
Proof.
  intros a b c x y p q H Ha Hb. assert (Na := proj1 Ha). assert (Nb := proj1 Hb).
  destruct (add_rnd x y Na Nb) as [F1 F2]. assert (V : inb32 (SFadd prec emax x y) = true) by (apply add_valid; [apply Na|apply Nb]).
  unfold eplus in H. destruct (Z.eqb_spec (mg a + er a) 0) as [Z1|_].
  { injection H as <-. destruct (zero_near _ _ _ Ha Z1) as [X ->]. rewrite X, Rplus_0_l in *. pose proof (F2 (big_num y Nb)) as F.
    destruct Hb as (_ & B1 & B2). split; [split; auto|]. rewrite (F1 F), rnd_id by apply Nb. auto. }
  destruct (Z.eqb_spec (mg b + er b) 0) as [Z2|_].
  { injection H as <-. destruct (zero_near _ _ _ Hb Z2) as [X ->]. rewrite X, Rplus_0_r in *. pose proof (F2 (big_num x Na)) as F.
    destruct Ha as (_ & B1 & B2). split; [split; auto|]. rewrite (F1 F), rnd_id by apply Na. auto. }
  destruct Ha as (_ & A1 & A2), Hb as (_ & B1 & B2).
  eapply round_near; eauto; rewrite plus_IZR, Rmult_plus_distr_r.
  - eapply Rle_trans; [apply Rabs_triang|]. lra.
  - replace (rval x + rval y - (p + q)) with ((rval x - p) + (rval y - q)) by ring. eapply Rle_trans; [apply Rabs_triang|]. lra.
Qed.
Lemma sub_near : forall a b c x y p q, eplus a b = Some c -> near a x p -> near b y q -> near c (SFsub prec emax x y) (p - q).
Proof.
  intros a b c x y p q H Ha Hb. assert (Na := proj1 Ha). assert (Nb := proj1 Hb).
  destruct (sub_rnd x y Na Nb) as [F1 F2]. assert (V : inb32 (SFsub prec emax x y) = true) by (apply sub_valid; [apply Na|apply Nb]).
  unfold eplus in H. destruct (Z.eqb_spec (mg a + er a) 0) as [Z1|_].
  { injection H as <-. destruct (zero_near _ _ _ Ha Z1) as [X ->]. rewrite X in *. replace (0 - rval y) with (rval (SFopp y)) in * by (rewrite opp_value; ring).
    assert (No : number (SFopp y)) by (split; [apply opp_valid; apply Nb|rewrite opp_finite; apply Nb]).
    pose proof (F2 (big_num _ No)) as F. rewrite (rnd_id (SFopp y) (proj1 No)), opp_value in F1.
    destruct Hb as (_ & B1 & B2). split; [split; auto|]. rewrite (F1 F). split; [replace (0 - q) with (- q) by ring; rewrite Rabs_Ropp; auto|].
    replace (- rval y - (0 - q)) with (- (rval y - q)) by ring. rewrite Rabs_Ropp. auto. }
  destruct (Z.eqb_spec (mg b + er b) 0) as [Z2|_].
  { injection H as <-. destruct (zero_near _ _ _ Hb Z2) as [X ->]. rewrite X, Rminus_0_r in *. pose proof (F2 (big_num x Na)) as F.
    destruct Ha as (_ & B1 & B2). split; [split; auto|]. rewrite (F1 F), rnd_id by apply Na. auto. }
  destruct Ha as (_ & A1 & A2), Hb as (_ & B1 & B2).
  eapply round_near; eauto; rewrite plus_IZR, Rmult_plus_distr_r.
  - unfold Rminus. eapply Rle_trans; [apply Rabs_triang|]. rewrite Rabs_Ropp. lra.
  - replace (rval x - rval y - (p - q)) with ((rval x - p) + - (rval y - q)) by ring. eapply Rle_trans; [apply Rabs_triang|]. rewrite Rabs_Ropp. lra.
Qed.
Lemma up_cdiv : forall a, up a = cdiv a unit.
Proof. intros. unfold up, cdiv. rewrite Z.shiftr_div_pow2 by lia. unfold unit. f_equal. lia. Qed.
Lemma scale_up : forall a, IZR a * sc * sc <= IZR (up a) * sc.
Proof.
  intros a. rewrite up_cdiv. apply Rmult_le_compat_r; [left; apply sc_pos|]. pose proof (cdiv_ge a unit eq_refl) as C.
  apply Rle_trans with (IZR (cdiv a unit) * IZR unit * sc); [apply Rmult_le_compat_r; [left; apply sc_pos|exact C]|]. rewrite Rmult_assoc, sc_unit. lra.
Qed.
Lemma mul_bounds : forall a b x y p q, near a x p -> near b y q ->
  Rabs (p * q) <= IZR (mulm a b) * sc /\ Rabs (rval x * rval y - p * q) <= IZR (mule a b) * sc.
Proof.
  intros a b x y p q Ha Hb. destruct (near_pos _ _ _ Ha) as [PA1 PA2]. destruct (near_pos _ _ _ Hb) as [PB1 PB2].
  apply IZR_le in PA1, PA2, PB1, PB2. destruct Ha as (_ & A1 & A2), Hb as (_ & B1 & B2). pose proof sc_pos.
  pose proof (Rabs_pos p). pose proof (Rabs_pos q). pose proof (Rabs_pos (rval x - p)). pose proof (Rabs_pos (rval y - q)).
  split; (eapply Rle_trans; [|apply scale_up]).
  - rewrite Rabs_mult, mult_IZR. replace (IZR (mg a) * IZR (mg b) * sc * sc) with ((IZR (mg a) * sc) * (IZR (mg b) * sc)) by ring. apply Rmult_le_compat; auto.
  - replace (rval x * rval y - p * q) with (p * (rval y - q) + q * (rval x - p) + (rval x - p) * (rval y - q)) by ring.
    eapply Rle_trans; [apply Rabs_triang|]. rewrite !plus_IZR, !mult_IZR.
    replace ((IZR (mg a) * IZR (er b) + IZR (mg b) * IZR (er a) + IZR (er a) * IZR (er b)) * sc * sc) with
      ((IZR (mg a) * sc) * (IZR (er b) * sc) + (IZR (mg b) * sc) * (IZR (er a) * sc) + (IZR (er a) * sc) * (IZR (er b) * sc)) by ring.
    apply Rplus_le_compat; [eapply Rle_trans; [apply Rabs_triang|]; apply Rplus_le_compat|]; rewrite Rabs_mult; apply Rmult_le_compat; auto.
Qed.
Lemma mul_near : forall a b c x y p q, etimes a b = Some c -> near a x p -> near b y q -> near c (SFmul prec emax x y) (p * q).
Proof.
  intros a b c x y p q H Ha Hb. destruct (mul_bounds _ _ _ _ _ _ Ha Hb) as [M1 M2]. destruct Ha as [Na _], Hb as [Nb _].
  destruct (mul_rnd x y Na Nb) as [F1 F2]. eapply round_near; eauto. apply mul_valid; [apply Na|apply Nb].
Qed.
Lemma fma_near : forall a b c k x y z p q r, rounded (mulm a b + mg c) (mule a b + er c) = Some k -> near a x p -> near b y q -> near c z r ->
  near k (b_fma x y z) (p * q + r).
Proof.
  intros a b c k x y z p q r H Ha Hb Hc. destruct (mul_bounds _ _ _ _ _ _ Ha Hb) as [M1 M2]. destruct Ha as [Na _], Hb as [Nb _]. destruct Hc as (Nc & C1 & C2).
  destruct (fma_rnd x y z Na Nb Nc) as [F1 F2]. eapply round_near; eauto; rewrite ?plus_IZR, ?Rmult_plus_distr_r.
  - eapply Rle_trans; [apply Rabs_triang|]. lra.
  - replace (rval x * rval y + rval z - (p * q + r)) with ((rval x * rval y - p * q) + (rval z - r)) by ring. eapply Rle_trans; [apply Rabs_triang|]. lra.
  - apply fma_valid; [apply Na|apply Nb|apply Nc].
Qed.
Lemma neg_near : forall k x r, near k x r -> near k (SFopp x) (- r).
Proof.
  intros k x r ([V F] & H1 & H2). split; [split; [apply opp_valid; auto|rewrite opp_finite; auto]|].
  rewrite opp_value, Rabs_Ropp. split; auto. replace (- rval x - - r) with (- (rval x - r)) by ring. rewrite Rabs_Ropp. auto.
Qed.
Lemma abs_near : forall k x r, near k x r -> near k (SFabs x) (Rabs r).
Proof.
  intros k x r (N & H1 & H2). destruct (abs_good Any x (conj N Logic.I)) as [[N' _] E]. split; auto. rewrite E, Rabs_Rabsolu.
  split; auto. eapply Rle_trans; [apply Rabs_triang_inv2|]. auto.
Qed.
Lemma near_er : forall k x r, near k x r -> er k = 0%Z -> rval x = r.
Proof. intros k x r (_ & _ & H) E. rewrite E in H. pose proof (Rabs_pos (rval x - r)). assert (rval x - r = 0) by (apply Rabs_eq_R0; lra). lra. Qed.
Lemma le_maxZ : forall a b, IZR a * sc <= IZR (Z.max a b) * sc /\ IZR b * sc <= IZR (Z.max a b) * sc.
Proof. intros. pose proof sc_pos. split; (apply Rmult_le_compat_r; [lra|apply IZR_le; lia]). Qed.
Lemma join_near : forall a b x r, (near a x r \/ near b x r) -> near (ejoin a b) x r.
Proof.
  intros a b x r H. pose proof (le_maxZ (mg a) (mg b)) as M1. pose proof (le_maxZ (er a) (er b)) as M2.
  destruct H as [(N & H1 & H2)|(N & H1 & H2)]; split; auto; simpl; split; lra.
Qed.
(** crossing: the floats and the numbers they stand for are ordered differently *)
Lemma cross_near : forall a b x y p q, near a x p -> near b y q -> rval y <= rval x -> p <= q ->
  near (ejoin a b) y p /\ near (ejoin a b) x q.
Proof.
  intros a b x y p q (Nx & A1 & A2) (Ny & B1 & B2) H1 H2. pose proof (le_maxZ (mg a) (mg b)) as M1. pose proof (le_maxZ (er a) (er b)) as M2.
  apply Rabs_le_inv in A2, B2. split; (split; [auto|]; simpl; split; [lra|]; apply Rabs_le; lra).
Qed.
Lemma ejoin_comm : forall a b, ejoin a b = ejoin b a. Proof. intros. unfold ejoin. rewrite (Z.max_comm (mg a)), (Z.max_comm (er a)). auto. Qed.
Lemma fmin_near : forall l a b x y p q, near a x p -> near b y q -> near (ejoin a b) (b_op2 l OFmin x y) (Rmin p q).
Proof.
  intros l a b x y p q Ha Hb. pose proof (proj1 Ha) as Nx. pose proof (proj1 Hb) as Ny. simpl.
  assert (is_nan x = false /\ is_nan y = false) as [-> ->].
  { destruct Nx as [_ F], Ny as [_ G]. destruct x, y; try discriminate; auto. }
  pose proof (lt_value y x Ny Nx) as V. destruct (SFltb y x).
  - assert (rval y < rval x) by tauto. unfold Rmin. destruct (Rle_dec p q); [|apply join_near; auto]. apply (cross_near a b x y p q); auto; lra.
  - assert (rval x <= rval y) by (apply Rnot_lt_le; intro X; apply V in X; discriminate).
    unfold Rmin. destruct (Rle_dec p q); [apply join_near; auto|]. rewrite ejoin_comm. apply (cross_near b a y x q p); auto; lra.
Qed.
Lemma minmax_near : forall c a b x y p q, (c = CLt \/ c = CLe \/ c = CGt \/ c = CGe) -> near a x p -> near b y q ->
  near (ejoin a b) (if b_cmp c x y then x else y) (if R_cmp c p q then p else q) /\
  near (ejoin a b) (if b_cmp c x y then y else x) (if R_cmp c p q then q else p).
Proof.
  intros c a b x y p q HC Ha Hb. rewrite <- cmp_good by (apply Ha || apply Hb).
  assert (S : forall t : bool, near (ejoin a b) (if t then x else y) (if t then p else q) /\ near (ejoin a b) (if t then y else x) (if t then q else p)).
  { intros []; split; apply join_near; auto. }
  assert (D : R_cmp c (rval x) (rval y) <> R_cmp c p q -> (rval y <= rval x /\ p <= q) \/ (rval x <= rval y /\ q <= p)).
  { assert (T1 : forall r s, Rltb r s = true -> r < s) by (intros; apply Rltb_true; auto).
    assert (T2 : forall r s, Rltb r s = false -> s <= r) by (intros; apply Rltb_false; auto).
    assert (T3 : forall r s, Rleb r s = true -> r <= s) by (intros; apply Rleb_true; auto).
    assert (T4 : forall r s, Rleb r s = false -> s < r) by (intros; apply Rleb_false; auto).
    destruct HC as [->|[->|[->| ->]]]; simpl; intros NE;
      match type of NE with ?A <> ?B => destruct A eqn:EA; destruct B eqn:EB end;
      try congruence; repeat match goal with H : _ = true |- _ => first [apply T1 in H | apply T3 in H] | H : _ = false |- _ => first [apply T2 in H | apply T4 in H] end; lra. }
  destruct (Bool.bool_dec (R_cmp c (rval x) (rval y)) (R_cmp c p q)) as [E|E].
  - rewrite E. apply S.
  - destruct (D E) as [[H1 H2]|[H1 H2]].
    + destruct (cross_near a b x y p q Ha Hb H1 H2). destruct (R_cmp c (rval x) (rval y)), (R_cmp c p q); try congruence; auto.
    + rewrite ejoin_comm. destruct (cross_near b a y x q p Hb Ha H1 H2). destruct (R_cmp c (rval x) (rval y)), (R_cmp c p q); try congruence; auto.
Qed.
Lemma cdiv_sc : forall a b, (0 <= a)%Z -> (0 < b)%Z -> IZR a / IZR b * sc <= IZR (cdiv a b) * sc.
Proof.
  intros a b A B. apply Rmult_le_compat_r; [left; apply sc_pos|]. assert (0 < IZR b) by (apply IZR_lt; auto).
  apply (Rmult_le_reg_r (IZR b)); auto. unfold Rdiv. rewrite Rmult_assoc, Rinv_l by lra. rewrite Rmult_1_r. apply cdiv_ge. auto.
Qed.
Lemma R_lit_div : forall n d, R_lit n d = IZR n / IZR (Zpos d).
Proof. intros. unfold R_lit. destruct d; auto; field. Qed.
Lemma sc_one : forall x, IZR (x * unit) * sc = IZR x. Proof. intros. rewrite mult_IZR, Rmult_assoc, sc_unit. ring. Qed.
Lemma some_inv : forall A (a b : A), Some a = Some b -> b = a. Proof. congruence. Qed.
Lemma lit_near : forall n d k, elit n d = Some k -> near k (b_lit n d) (R_lit n d).
Proof.
  intros n d k H. unfold elit in H. destruct (inb32 (b_lit n d)) eqn:V; [|discriminate]. rewrite R_lit_div.
  assert (D : 0 < IZR (Zpos d)) by (apply IZR_lt; reflexivity).
  assert (M : Rabs (IZR n / IZR (Zpos d)) <= IZR (cdiv (Z.abs n * unit) (Zpos d)) * sc).
  { eapply Rle_trans; [|apply cdiv_sc; [apply Z.mul_nonneg_nonneg; [lia|discriminate]|reflexivity]].
    unfold Rdiv. rewrite Rabs_mult, <- abs_IZR, Rabs_inv, (Rabs_pos_eq (IZR (Zpos d))) by lra.
    replace (IZR (Z.abs n * unit) * / IZR (Zpos d) * sc) with (IZR (Z.abs n * unit) * sc * / IZR (Zpos d)) by ring. rewrite sc_one. lra. }
  destruct (b_lit n d) as [s|s| |s m e]; try discriminate; apply some_inv in H; subst k.
  - split; [split; auto|]. cbn [mg er rval]. split; auto. replace (0 - IZR n / IZR (Zpos d)) with (- (IZR n / IZR (Zpos d))) by ring. rewrite Rabs_Ropp. auto.
  - split; [split; auto|]. cbn [mg er]. split; auto. unfold rval. set (z := if s then Zneg m else Zpos m) in *.
    destruct (Z.leb_spec 0 e) as [C|C].
    + eapply Rle_trans; [|apply cdiv_sc; [apply Z.mul_nonneg_nonneg; [lia|discriminate]|reflexivity]].
      replace (IZR z * powerRZ 2 e - IZR n / IZR (Zpos d)) with (IZR (z * 2 ^ e * Zpos d - n) / IZR (Zpos d)).
      2:{ rewrite minus_IZR, !mult_IZR, <- p2Z by auto. field. lra. }
      unfold Rdiv. rewrite Rabs_mult, <- abs_IZR, Rabs_inv, (Rabs_pos_eq (IZR (Zpos d))) by lra.
      set (w := Z.abs _). replace (IZR (w * unit) * / IZR (Zpos d) * sc) with (IZR (w * unit) * sc * / IZR (Zpos d)) by ring. rewrite sc_one. lra.
    + assert (P : (0 < 2 ^ (- e))%Z) by (apply Z.pow_pos_nonneg; lia). assert (PR := IZR_lt _ _ P).
      eapply Rle_trans; [|apply cdiv_sc; [apply Z.mul_nonneg_nonneg; [lia|discriminate]|apply Z.mul_pos_pos; [reflexivity|exact P]]].
      assert (Q : powerRZ 2 e = / IZR (2 ^ (- e))). { rewrite <- p2Z by lia. rewrite powerRZ_neg', Rinv_inv. auto. }
      replace (IZR z * powerRZ 2 e - IZR n / IZR (Zpos d)) with (IZR (z * Zpos d - n * 2 ^ (- e)) / IZR (Zpos d * 2 ^ (- e))).
      2:{ rewrite minus_IZR, !mult_IZR, Q. field. lra. }
      assert (W : 0 < IZR (Zpos d * 2 ^ (- e))) by (apply IZR_lt, Z.mul_pos_pos; [reflexivity|exact P]).
      unfold Rdiv. rewrite Rabs_mult, <- abs_IZR, Rabs_inv, (Rabs_pos_eq (IZR (Zpos d * 2 ^ (- e)))) by lra.
      set (w := Z.abs _). replace (IZR (w * unit) * / IZR (Zpos d * 2 ^ (- e)) * sc) with (IZR (w * unit) * sc * / IZR (Zpos d * 2 ^ (- e))) by ring. rewrite sc_one. lra.
Qed.
Lemma pi_close : Rabs (PI - IZR 314159265358979323846 / IZR 100000000000000000000) <= powerRZ 2 (-40).
Proof.
  destruct (PI_2_3_7_ineq 6) as [A B]. cbv [Nat.mul Nat.add] in A, B.
  cbn [sum_f_R0] in A, B. unfold tg_alt, PI_2_3_7_tg, Ratan_seq in A, B. cbn [Nat.mul Nat.add pow] in A, B.
  repeat match type of A with context [INR ?n] => let z := eval compute in (Z.of_nat n) in replace (INR n) with (IZR z) in A by (rewrite INR_IZR_INZ; reflexivity) end.
  repeat match type of B with context [INR ?n] => let z := eval compute in (Z.of_nat n) in replace (INR n) with (IZR z) in B by (rewrite INR_IZR_INZ; reflexivity) end.
  simpl (powerRZ 2 (-40)). apply Rabs_le. lra.
Qed.
Lemma pi_near : forall n d k, epi n d = Some k -> near k (b_pi n d) (IZR n * PI / IZR (Zpos d)).
Proof.
  intros n d k H. unfold epi in H. destruct (elit _ _) as [k0|] eqn:E; [|discriminate]. apply some_inv in H. subst k.
  pose proof (lit_near _ _ _ E) as (N & H1 & H2). unfold b_pi. set (q := R_lit _ _) in *.
  assert (D : 0 < IZR (Zpos d)) by (apply IZR_lt; reflexivity).
  assert (X : Rabs (IZR n * PI / IZR (Zpos d) - q) <= IZR (cdiv (Z.abs n) (Zpos d)) * sc).
  { eapply Rle_trans; [|apply cdiv_sc; [lia|reflexivity]]. unfold q. rewrite R_lit_div, Pos2Z.inj_mul, !mult_IZR.
    replace (IZR n * PI / IZR (Zpos d) - _) with (IZR n / IZR (Zpos d) * (PI - IZR 314159265358979323846 / IZR 100000000000000000000)) by (field; lra).
    rewrite Rabs_mult. unfold Rdiv at 1. rewrite Rabs_mult, Rabs_inv, (Rabs_pos_eq (IZR (Zpos d))), <- abs_IZR by lra.
    apply Rmult_le_compat_l; [|eapply Rle_trans; [apply pi_close|]; unfold sc; change 2 with (IZR radix2); rewrite <- !bpow_powerRZ; apply bpow_le; lia].
    apply Rmult_le_pos; [apply IZR_le; lia|]. left. apply Rinv_0_lt_compat. auto. }
  split; auto. cbn [mg er]. rewrite !plus_IZR, !Rmult_plus_distr_r. split.
  - replace (IZR n * PI / IZR (Zpos d)) with (q + (IZR n * PI / IZR (Zpos d) - q)) by ring. eapply Rle_trans; [apply Rabs_triang|]. lra.
  - match goal with |- Rabs (?x - ?r) <= _ => replace (x - r) with ((x - q) + - (r - q)) by ring end.
    eapply Rle_trans; [apply Rabs_triang|]. rewrite Rabs_Ropp. lra.
Qed.
Lemma div_near : forall a n d k x p, ediv a n d = Some k -> near a x p -> near k (SFdiv prec emax x (b_lit n d)) (p / R_lit n d).
Proof.
  intros a n d k x p H Ha. unfold ediv in H. destruct (_ && _) eqn:E in H; [|discriminate]. apply andb_prop in E. destruct E as [E NZ].
  apply negb_true_iff, Z.eqb_neq in NZ.
  destruct (litk n d) as [kl|] eqn:EL. 2:{ unfold litk in EL. rewrite E in EL. destruct (_ && _) in EL; discriminate. }
  destruct (lit_good _ _ _ EL) as [[NL _] QL]. destruct (near_pos _ _ _ Ha) as [P1 P2]. destruct Ha as (N & H1 & H2).
  assert (D : 0 < IZR (Zpos d)) by (apply IZR_lt; reflexivity). assert (NR : IZR n <> 0) by (apply not_0_IZR; auto).
  assert (AN : 0 < IZR (Z.abs n)) by (apply IZR_lt; lia).
  assert (RL : R_lit n d <> 0). { rewrite R_lit_div. intro X. apply NR. apply (Rmult_eq_reg_r (/ IZR (Zpos d))); [rewrite Rmult_0_l; exact X|]. apply Rinv_neq_0_compat. lra. }
  destruct (div_rnd x (b_lit n d) N NL ltac:(rewrite <- QL; auto)) as [F1 F2]. rewrite <- QL in *.
  assert (S : forall t z, (0 <= z)%Z -> Rabs t <= IZR z * sc -> Rabs (t / R_lit n d) <= IZR (cdiv (z * Zpos d) (Z.abs n)) * sc).
  { intros t z Z0 Ht. eapply Rle_trans; [|apply cdiv_sc; lia]. rewrite R_lit_div.
    replace (t / (IZR n / IZR (Z.pos d))) with (t * (IZR (Zpos d) / IZR n)) by (field; split; auto; lra).
    rewrite mult_IZR. unfold Rdiv. rewrite !Rabs_mult, Rabs_inv, (Rabs_pos_eq (IZR (Zpos d))), <- abs_IZR by lra.
    replace (IZR z * IZR (Zpos d) * / IZR (Z.abs n) * sc) with (IZR z * sc * (IZR (Zpos d) * / IZR (Z.abs n))) by ring.
    apply Rmult_le_compat_r; auto. apply Rmult_le_pos; [lra|]. left. apply Rinv_0_lt_compat. auto. }
  eapply round_near; eauto.
  - replace (rval x / R_lit n d - p / R_lit n d) with ((rval x - p) / R_lit n d) by (field; auto). apply S; auto.
  - apply div_valid; [apply N|apply NL].
Qed.
Lemma floor_near : forall a x p, near a x p -> er a = 0%Z -> near (EK (mg a + unit) 0) (b_floor x) (Rfloor p).
Proof.
  intros a x p H E. pose proof (near_er _ _ _ H E) as Q. destruct H as (N & H1 & _).
  destruct (floor_good Any x (conj N Logic.I)) as [[N' _] F]. split; auto. cbn [mg er]. rewrite F, Q, Rminus_diag_eq, Rabs_R0 by auto. split; [|lra].
  rewrite plus_IZR, Rmult_plus_distr_r, sc_unit. unfold Rfloor. destruct (base_Int_part p). apply Rabs_le_inv in H1. apply Rabs_le. lra.
Qed.
Lemma int_near : forall z n, (Z.abs z <= n)%Z -> (n < ExactSound.lim)%Z -> near (EK (n * unit) 0) (b_int z) (IZR z).
Proof.
  intros z n H L. destruct (int_good z n (Dy n 0)) as [[N _] Q]; auto.
  { unfold fit. replace (n <? ExactSound.lim)%Z with true by (symmetry; apply Z.ltb_lt; auto). reflexivity. }
  split; auto. cbn [mg er]. rewrite Q, Rminus_diag_eq, Rabs_R0, sc_one by auto. split; [|lra]. rewrite <- abs_IZR. apply IZR_le. auto.
Qed.
Lemma sin_lip : forall a b, Rabs (sin a - sin b) <= Rabs (a - b).
Proof.
  intros a b. destruct (Rtotal_order a b) as [L|[->|L]].
  - destruct (MVT_cor2 sin cos a b L) as (c & E & _); [intros; apply derivable_pt_lim_sin|].
    rewrite (Rabs_minus_sym (sin a)), (Rabs_minus_sym a), E, Rabs_mult. pose proof (COS_bound c) as [C1 C2].
    assert (Rabs (cos c) <= 1) by (apply Rabs_le; lra). pose proof (Rabs_pos (b - a)). nra.
  - rewrite !Rminus_diag_eq by auto. lra.
  - destruct (MVT_cor2 sin cos b a L) as (c & E & _); [intros; apply derivable_pt_lim_sin|].
    rewrite E, Rabs_mult. pose proof (COS_bound c) as [C1 C2].
    assert (Rabs (cos c) <= 1) by (apply Rabs_le; lra). pose proof (Rabs_pos (a - b)). nra.
Qed.
Lemma cos_lip : forall a b, Rabs (cos a - cos b) <= Rabs (a - b).
Proof. intros. rewrite <- !sin_shift. eapply Rle_trans; [apply sin_lip|]. rewrite <- Rabs_Ropp. right. f_equal. ring. Qed.
Lemma trig_near : forall (g : R -> R) a t x y p, (forall u v, Rabs (g u - g v) <= Rabs (u - v)) -> (forall u, Rabs (g u) <= 1) -> near a x p ->
  number y -> Rabs (rval y - g (rval x)) <= IZR t * sc -> near (EK unit (er a + t)) y (g p).
Proof.
  intros g a t x y p L B (N & H1 & H2) NY H. split; auto. cbn [mg er]. rewrite sc_unit. split; auto. rewrite plus_IZR, Rmult_plus_distr_r.
  replace (rval y - g p) with ((rval y - g (rval x)) + (g (rval x) - g p)) by ring. eapply Rle_trans; [apply Rabs_triang|].
  specialize (L (rval x) p). lra.
Qed.

Section H.
Variables (tr : option Z) (l : libm) (is : list Z) (bs : list bool) (e : list ek) (fr : list (b32 * R)).
Variables (ac : nat -> cell b32) (ac' : nat -> cell R).
Hypothesis HT : forall t, tr = Some t -> forall x, number x ->
  number (l1 l OSin x) /\ Rabs (rval (l1 l OSin x) - sin (rval x)) <= IZR t * sc /\
  number (l1 l OCos x) /\ Rabs (rval (l1 l OCos x) - cos (rval x)) <= IZR t * sc.
Hypothesis HE : Forall2 (fun k p => near k (fst p) (snd p)) e fr.
Let a : asg b32 := mk (B32 l) is bs ac (map fst fr).
Let a' : asg R := mk RS is bs ac' (map snd fr).

Lemma env_near : forall n k, nth_error e n = Some k -> near k (a_f a n) (a_f a' n).
Proof.
  intros n k H. unfold a, a', mk. cbn [a_f]. clear -HE H. revert n H. induction HE; intros n H0; destruct n; cbn [nth_error nth map] in *; try discriminate; auto.
  injection H0 as <-. auto.
Qed.
Ltac ck H := cbn [ske bke ike] in H; fold (ske tr e) (bke tr e) (ike tr e) in H.
Ltac gd := cbn [fden bden iden]; fold (fden RS a') (bden RS a') (iden RS a') (fden (B32 l) a) (bden (B32 l) a) (iden (B32 l) a).
Lemma k_near :
  (forall s k, ske tr e s = Some k -> near k (fden (B32 l) a s) (fden RS a' s)) /\
  (forall b, bke tr e b = true -> bden RS a' b = bden (B32 l) a b) /\
  (forall i, ike tr e i = true -> iden RS a' i = iden (B32 l) a i).
Proof.
  apply sbi_ind.
  - intros n k H. apply env_near. auto.
  - intros n d k H. ck H. apply lit_near. auto.
  - intros n d k H. ck H. apply (pi_near n d k H).
  - intros o x IH k H. destruct o; try discriminate H; ck H; (destruct (ske tr e x) as [kx|] eqn:Ex in H; [|discriminate H]); specialize (IH _ Ex); gd; cbn [RS B32 s_op1 R_op1 b_op1].
    + injection H as <-. apply neg_near. auto.
    + injection H as <-. apply abs_near. auto.
    + destruct tr as [t|]; [|discriminate H]. apply some_inv in H. subst k. destruct (HT t eq_refl _ (proj1 IH)) as (A & B & _).
      eapply (trig_near sin); eauto; [apply sin_lip|]. intros. pose proof (SIN_bound u). apply Rabs_le. lra.
    + destruct tr as [t|]; [|discriminate H]. apply some_inv in H. subst k. destruct (HT t eq_refl _ (proj1 IH)) as (_ & _ & A & B).
      eapply (trig_near cos); eauto; [apply cos_lip|]. intros. pose proof (COS_bound u). apply Rabs_le. lra.
    + destruct (Z.eqb_spec (er kx) 0); [|discriminate H]. apply some_inv in H. subst k. apply floor_near; auto.
  - intros o x IHx y IHy k H.
    destruct o; try discriminate H; try (destruct y; discriminate H).
    + ck H. destruct (ske tr e x) as [kx|] eqn:Ex; [|discriminate H]. destruct (ske tr e y) as [ky|] eqn:Ey; [|discriminate H].
      specialize (IHx _ eq_refl). specialize (IHy _ eq_refl). gd. cbn [RS B32 s_op2 R_op2 b_op2]. eapply add_near; eauto.
    + ck H. destruct (ske tr e x) as [kx|] eqn:Ex; [|discriminate H]. destruct (ske tr e y) as [ky|] eqn:Ey; [|discriminate H].
      specialize (IHx _ eq_refl). specialize (IHy _ eq_refl). gd. cbn [RS B32 s_op2 R_op2 b_op2]. eapply sub_near; eauto.
    + ck H. destruct (ske tr e x) as [kx|] eqn:Ex; [|discriminate H]. destruct (ske tr e y) as [ky|] eqn:Ey; [|discriminate H].
      specialize (IHx _ eq_refl). specialize (IHy _ eq_refl). gd. cbn [RS B32 s_op2 R_op2 b_op2]. eapply mul_near; eauto.
    + destruct y as [| n d | | | | | |]; try discriminate H. ck H. destruct (ske tr e x) as [kx|] eqn:Ex; [|discriminate H].
      specialize (IHx _ eq_refl). gd. cbn [RS B32 s_op2 R_op2 b_op2 s_lit]. eapply div_near; eauto.
    + ck H. destruct (ske tr e x) as [kx|] eqn:Ex; [|discriminate H]. destruct (ske tr e y) as [ky|] eqn:Ey; [|discriminate H].
      specialize (IHx _ eq_refl). specialize (IHy _ eq_refl). injection H as <-. gd. apply (fmin_near l); auto.
  - intros x IHx y IHy z IHz k H. ck H. destruct (ske tr e x) as [kx|] eqn:Ex; [|discriminate H]. destruct (ske tr e y) as [ky|] eqn:Ey; [|discriminate H].
    destruct (ske tr e z) as [kz|] eqn:Ez; [|discriminate H]. gd. cbn [RS B32 s_fma].
    eapply fma_near; eauto.
  - intros c IHc x IHx y IHy k H. ck H. destruct (bke tr e c || _)%bool eqn:EC in H; [|discriminate H].
    destruct (ske tr e x) as [kx|] eqn:Ex; [|discriminate H]. destruct (ske tr e y) as [ky|] eqn:Ey; [|discriminate H]. injection H as <-.
    specialize (IHx _ eq_refl). specialize (IHy _ eq_refl). apply orb_prop in EC. destruct EC as [EC|EC].
    + gd. rewrite (IHc EC). destruct (bden (B32 l) a c); apply join_near; auto.
    + destruct c as [| |o u v| | | | | | |]; try discriminate EC. unfold minmax in EC.
      assert (OC : (o = CLt \/ o = CLe \/ o = CGt \/ o = CGe) /\ ((sexp_eqb u x && sexp_eqb v y) || (sexp_eqb u y && sexp_eqb v x))%bool = true).
      { destruct o; try discriminate EC; split; auto. }
      destruct OC as [OC1 OC2]. apply orb_prop in OC2. destruct OC2 as [OC2|OC2]; apply andb_prop in OC2; destruct OC2 as [E1 E2]; apply sexp_eqb_eq in E1, E2; subst u v.
      * gd. cbn [RS B32 s_cmp]. apply (minmax_near o kx ky); auto.
      * gd. cbn [RS B32 s_cmp]. rewrite ejoin_comm. apply (minmax_near o ky kx); auto.
  - intros i IHi k H. ck H. destruct (ike tr e i); [|discriminate H]. destruct (irange i) as [[lo hi]|] eqn:E; [|discriminate H].
    destruct (Z.ltb_spec (Z.max (Z.abs lo) (Z.abs hi)) ExactSound.lim) as [L|L]; [|discriminate H]. apply some_inv in H. subst k.
    gd; cbn [RS B32 s_ofZ]. rewrite (IHi eq_refl). pose proof (irange_ok (B32 l) a i lo hi E). apply int_near; auto. lia.
  - reflexivity.
  - reflexivity.
  - intros c x IHx y IHy H. ck H. apply andb_prop in H. destruct H as [H1 H2]. unfold eexact in H1, H2.
    destruct (ske tr e x) as [kx|] eqn:Ex; [|discriminate]. destruct (ske tr e y) as [ky|] eqn:Ey; [|discriminate]. apply Z.eqb_eq in H1, H2.
    specialize (IHx _ eq_refl). specialize (IHy _ eq_refl). gd. cbn [RS B32 s_cmp].
    rewrite <- (near_er _ _ _ IHx H1), <- (near_er _ _ _ IHy H2). apply cmp_good; [apply IHx|apply IHy].
  - intros t x IHx H. ck H. destruct (ske tr e x) as [kx|] eqn:Ex; [|discriminate H]. specialize (IHx _ eq_refl).
    gd. rewrite test_good; [reflexivity|apply IHx].
  - intros c x IHx y IHy H. ck H. apply andb_prop in H. destruct H. gd. rewrite IHx, IHy; auto.
  - intros x IHx H. gd. rewrite IHx; auto.
  - intros c IHc x IHx y IHy H. ck H. apply andb_prop in H. destruct H as [H H2]. apply andb_prop in H. destruct H. gd. rewrite IHc, IHx, IHy; auto.
  - intros; discriminate.
  - intros; discriminate.
  - intros i IHi H. gd. rewrite IHi; auto.
  - reflexivity.
  - reflexivity.
  - intros o x IHx y IHy H. ck H. apply andb_prop in H. destruct H. gd. rewrite IHx, IHy; auto.
  - intros x IHx H. gd. rewrite IHx; auto.
  - intros x IHx H. gd. rewrite IHx; auto.
  - intros b IHb H. gd. rewrite IHb; auto.
  - intros c IHc x IHx y IHy H. ck H. apply andb_prop in H. destruct H as [H H2]. apply andb_prop in H. destruct H. gd. rewrite IHc, IHx, IHy; auto.
Qed.
Variables (lm : Z) (d : R).
Hypothesis HD : IZR lm * sc <= d.
Lemma lim_near : forall k x r, near k x r -> (er k <=? lm)%Z = true -> number x /\ Rabs (rval x - r) <= d.
Proof.
  intros k x r (N & _ & H) E. split; auto. apply Z.leb_le, IZR_le in E. pose proof sc_pos.
  assert (IZR (er k) * sc <= IZR lm * sc) by (apply Rmult_le_compat_r; lra). lra.
Qed.
Lemma kk_near : forall pi pi' L L' c, kke tr e lm c = true -> cell_near d (cden (B32 l) a pi L c) (cden RS a' pi' L' c).
Proof.
  destruct k_near as (KS & KB & KI). intros pi pi' L L'. induction c; cbn [kke cden]; intros H; try discriminate.
  - destruct (ske tr e s) eqn:E; [|discriminate H]. pose proof (KS _ _ E) as G. cbn [cell_near]. eapply lim_near; eauto.
  - cbn [cell_near]. rewrite KI; auto.
  - apply andb_prop in H. destruct H as [H H2]. apply andb_prop in H. destruct H. rewrite KB by auto. destruct (bden (B32 l) a c1); auto.
Qed.
Lemma kks_near : forall pi pi' L L' cs, forallb (kke tr e lm) cs = true ->
  Forall2 (cell_near d) (map (cden (B32 l) a pi L) cs) (map (cden RS a' pi' L') cs).
Proof.
  intros pi pi' L L'. induction cs; cbn [forallb map]; intros H; [constructor|]. apply andb_prop in H. destruct H.
  apply Forall2_cons; auto. apply kk_near. auto.
Qed.
Lemma vk_near : forall pi pi' L L' v, vke tr e lm v = true -> value_near d (vden (B32 l) a pi L v) (vden RS a' pi' L' v).
Proof.
  destruct k_near as (KS & KB & KI). intros pi pi' L L'. induction v; cbn [vke vden]; intros H; try discriminate; cbn [value_near]; auto.
  - destruct (ske tr e s) eqn:E; [|discriminate]. pose proof (KS _ _ E) as G. eapply lim_near; eauto.
  - rewrite KI; auto.
  - rewrite KB; auto.
  - apply kks_near. auto.
  - apply andb_prop in H. destruct H as [H H2]. apply andb_prop in H. destruct H. rewrite KB by auto. destruct (bden (B32 l) a c); auto.
Qed.
Lemma tk_near : forall wi sz t, tke tr e lm wi sz t = true -> exists v sm, tden (B32 l) a t = Some (v, sm) /\ tden RS a' t = Some (v, sm) /\
  vke tr e lm v = true /\ Forall (fun i => forallb (kke tr e lm) (nth i sm []) = true) wi /\ map (fun i => length (nth i sm [])) wi = sz.
Proof.
  destruct k_near as (KS & KB & KI). intros wi sz. induction t; cbn [tke tden]; intros H; try discriminate.
  - destruct a0 as [v sm]. apply andb_prop in H. destruct H as [H H3]. apply andb_prop in H. destruct H as [H H2]. exists v, sm. repeat split; auto.
    + apply Forall_forall. apply forallb_forall. auto.
    + apply list_eqb_lens. auto.
  - apply andb_prop in H. destruct H as [H H2]. apply andb_prop in H. destruct H. rewrite KB by auto. destruct (bden (B32 l) a b); auto.
  - destruct g as [| | | | | | | |o u v|]; try discriminate H. destruct o; try discriminate H. destruct v as [|n dd| | | | | |]; try discriminate H.
    apply andb_prop in H. destruct H as [H1 H2]. destruct (IHt H2) as (v & sm & T1 & T2 & T3).
    exists v, sm. cbn [bden]. cbn [B32 s_ok2 RS R_ok2 fden s_lit]. split; [exact T1|].
    replace (Reqb (R_lit n dd) 0) with false; [split; [exact T2|exact T3]|]. symmetry. apply Reqb_false. rewrite R_lit_div.
    apply negb_true_iff, Z.eqb_neq in H1. intro X. apply (not_0_IZR n H1). assert (D : 0 < IZR (Zpos dd)) by (apply IZR_lt; reflexivity).
    apply (Rmult_eq_reg_r (/ IZR (Zpos dd))); [rewrite Rmult_0_l; exact X|]. apply Rinv_neq_0_compat. lra.
Qed.
End H.

Lemma wk_near : forall tr l is bs ac ac' w e e' fr,
  (forall t, tr = Some t -> forall x, number x ->
     number (l1 l OSin x) /\ Rabs (rval (l1 l OSin x) - sin (rval x)) <= IZR t * sc /\
     number (l1 l OCos x) /\ Rabs (rval (l1 l OCos x) - cos (rval x)) <= IZR t * sc) ->
  wke tr e w = Some e' -> Forall2 (fun k p => near k (fst p) (snd p)) e fr -> scoped (length fr) w = true ->
  exists ts, Forall2 (fun k p => near k (fst p) (snd p)) e' (fr ++ ts) /\ sat (B32 l) (mk (B32 l) is bs ac (map fst (fr ++ ts))) w /\
    sat RS (mk RS is bs ac' (map snd (fr ++ ts))) w.
Proof.
  intros tr l is bs ac ac' w e e' fr HT. revert e e' fr. induction w as [|[n s] w IH]; cbn [wke scoped]; intros e e' fr H HE HS.
  - injection H as <-. exists []. rewrite app_nil_r. split; [|split]; auto; constructor.
  - destruct (ske tr e s) as [k|] eqn:E; [|discriminate]. apply andb_prop in HS. destruct HS as [HS HS2]. apply andb_prop in HS. destruct HS as [HS1 HS].
    apply Nat.eqb_eq in HS1. subst n.
    pose proof (proj1 (k_near tr l is bs e fr ac ac' HT HE) s k E) as G.
    set (t := fden (B32 l) (mk (B32 l) is bs ac (map fst fr)) s) in *. set (t' := fden RS (mk RS is bs ac' (map snd fr)) s) in *.
    destruct (IH (e ++ [k]) e' (fr ++ [(t, t')])) as (ts & A & B & C); auto.
    + apply Forall2_app; auto.
    + rewrite app_length, Nat.add_1_r. auto.
    + exists ((t, t') :: ts). rewrite <- app_assoc in *. cbn [app] in *. split; auto. split.
      * constructor; auto. cbn [fst snd]. unfold mk at 1. cbn [a_f]. rewrite map_app. rewrite app_nth2 by (rewrite map_length; lia). rewrite map_length, Nat.sub_diag. cbn [map nth fst]. unfold t.
        apply (below_ext (B32 l) (length fr)); auto. intros n Hn. unfold mk. cbn [a_f]. rewrite app_nth1; auto. rewrite map_length. auto.
      * constructor; auto. cbn [fst snd]. unfold mk at 1. cbn [a_f]. rewrite map_app. rewrite app_nth2 by (rewrite map_length; lia). rewrite map_length, Nat.sub_diag. cbn [map nth snd]. unfold t'.
        apply (below_ext RS (length fr)); auto. intros n Hn. unfold mk. cbn [a_f]. rewrite app_nth1; auto. rewrite map_length. auto.
Qed.

(** the real numbers of arguments *)
Definition rcfloats (c : cell R) : list R := match c with CF x => [x] | _ => [] end.
Definition rafloats (a : arg R) : list R :=
  match a with In cs | InA cs | InOut cs | Val (VA cs) => flat_map rcfloats cs | Val (VF x) => [x] | _ => [] end.
Lemma rcfloats_fl : forall l : list R, flat_map rcfloats (fl l) = l. Proof. induction l; simpl; auto. f_equal. auto. Qed.
Lemma rcfloats_il : forall l, flat_map rcfloats (il l) = []. Proof. induction l; simpl; auto. Qed.
Lemma near_fl : forall d (l : list b32) rc, Forall2 (cell_near d) (fl l) rc -> exists rl, rc = fl rl /\ length rl = length l.
Proof.
  induction l as [|x l IH]; simpl; intros rc H; inversion H; subst; [exists []; auto|]. destruct y; simpl in *; try contradiction.
  match goal with H : Forall2 _ (fl l) _ |- _ => apply IH in H; destruct H as (rl & -> & E) end. eexists (_ :: rl). simpl. auto.
Qed.
Lemma near_il : forall d l rc, Forall2 (cell_near d) (il l) rc -> rc = il l.
Proof.
  induction l as [|x l IH]; simpl; intros rc H; inversion H; subst; auto. destruct y; simpl in *; try contradiction. subst.
  match goal with H : Forall2 _ (il l) _ |- _ => apply IH in H; subst end. auto.
Qed.
Lemma build_two : forall l0 d ps (args : list (arg b32)), Forall2 fits ps args -> forall rargs, Forall2 (arg_near d) args rargs -> forall is0 bs0 fs0 rs0, length rs0 = length fs0 ->
  exists is bs fs rs sa, List.In sa (build ps (length is0) (length bs0) (length fs0)) /\ length fs = nfloats ps /\ fs = flat_map afloats args /\ rs = flat_map rafloats rargs /\ length rs = length fs /\
  (forall ac pi L ts, map (aden (B32 l0) (is0 ++ is) (bs0 ++ bs) (fs0 ++ fs) ac pi L ts) sa = args) /\
  (forall ac pi L ts, map (aden RS (is0 ++ is) (bs0 ++ bs) (rs0 ++ rs) ac pi L ts) sa = rargs).
Proof.
  assert (N : forall A (pre : list A) x post d, nth (length pre) (pre ++ x :: post) d = x).
  { intros. rewrite app_nth2 by lia. rewrite Nat.sub_diag. reflexivity. }
  induction 1 as [|p a ps args H HF IH]; intros rargs HN is0 bs0 fs0 rs0 HL; inversion HN as [|? r ? rargs' HA HN' E1 E2]; subst; clear HN.
  - exists [], [], [], [], []. simpl. repeat split; auto.
  - specialize (IH rargs' HN').
    assert (FL : forall t n l (rl : list R) (mk0 : list scell -> sarg) A B,
      length l = n -> length rl = n ->
      (forall i b k, build (t :: ps) i b k = map (cons (mk0 (fvars k n))) (build ps i b (n + k))) ->
      nfloats (t :: ps) = (n + nfloats ps)%nat -> afloats A = l -> rafloats B = rl ->
      (forall is bs fs ac pi L ts, aden (B32 l0) is bs (fs0 ++ l ++ fs) ac pi L ts (mk0 (fvars (length fs0) n)) = A) ->
      (forall is bs fs ac pi L ts, aden RS is bs (rs0 ++ rl ++ fs) ac pi L ts (mk0 (fvars (length fs0) n)) = B) ->
      exists is bs fs rs sa, List.In sa (build (t :: ps) (length is0) (length bs0) (length fs0)) /\ length fs = nfloats (t :: ps) /\
        fs = flat_map afloats (A :: args) /\ rs = flat_map rafloats (B :: rargs') /\ length rs = length fs /\
        (forall ac pi L ts, map (aden (B32 l0) (is0 ++ is) (bs0 ++ bs) (fs0 ++ fs) ac pi L ts) sa = A :: args) /\
        (forall ac pi L ts, map (aden RS (is0 ++ is) (bs0 ++ bs) (rs0 ++ rs) ac pi L ts) sa = B :: rargs')).
    { intros t n l rl mk0 A B L1 L2 BU NF AF RF DA DB.
      destruct (IH is0 bs0 (fs0 ++ l) (rs0 ++ rl)) as (is & bs & fs & rs & sa & I & Lf & Ef & Er & Lr & EA & EB); [rewrite !app_length; lia|].
      exists is, bs, (l ++ fs), (rl ++ rs), (mk0 (fvars (length fs0) n) :: sa).
      rewrite BU.
      rewrite app_length, L1, Nat.add_comm in I. rewrite <- app_assoc in EA. rewrite <- app_assoc in EB.
      split; [apply in_map; auto|]. split; [rewrite app_length; lia|]. split; [cbn [flat_map]; congruence|]. split; [cbn [flat_map]; congruence|].
      split; [rewrite !app_length; lia|]. split; intros; cbn [map]; f_equal; auto. }
    assert (IL : forall t n l (mk0 : list scell -> sarg) A B,
      length l = n ->
      (forall i b k, build (t :: ps) i b k = map (cons (mk0 (ivars i n))) (build ps (n + i) b k)) ->
      nfloats (t :: ps) = nfloats ps -> afloats A = [] -> rafloats B = [] ->
      (forall is bs fs ac pi L ts, aden (B32 l0) (is0 ++ l ++ is) bs fs ac pi L ts (mk0 (ivars (length is0) n)) = A) ->
      (forall is bs fs ac pi L ts, aden RS (is0 ++ l ++ is) bs fs ac pi L ts (mk0 (ivars (length is0) n)) = B) ->
      exists is bs fs rs sa, List.In sa (build (t :: ps) (length is0) (length bs0) (length fs0)) /\ length fs = nfloats (t :: ps) /\
        fs = flat_map afloats (A :: args) /\ rs = flat_map rafloats (B :: rargs') /\ length rs = length fs /\
        (forall ac pi L ts, map (aden (B32 l0) (is0 ++ is) (bs0 ++ bs) (fs0 ++ fs) ac pi L ts) sa = A :: args) /\
        (forall ac pi L ts, map (aden RS (is0 ++ is) (bs0 ++ bs) (rs0 ++ rs) ac pi L ts) sa = B :: rargs')).
    { intros t n l mk0 A B L1 BU NF AF RF DA DB.
      destruct (IH (is0 ++ l) bs0 fs0 rs0 HL) as (is & bs & fs & rs & sa & I & Lf & Ef & Er & Lr & EA & EB).
      exists (l ++ is), bs, fs, rs, (mk0 (ivars (length is0) n) :: sa).
      rewrite BU.
      rewrite app_length, L1, Nat.add_comm in I. rewrite <- app_assoc in EA. rewrite <- app_assoc in EB.
      split; [apply in_map; auto|]. split; [lia|]. split; [cbn [flat_map]; rewrite AF; auto|]. split; [cbn [flat_map]; rewrite RF; auto|].
      split; [lia|]. split; intros; cbn [map]; f_equal; auto. }
    assert (FB : forall ts is bs pi L l fs n ac, length l = n -> map (cden (B32 l0) (mk (B32 l0) is bs ac ((fs0 ++ l ++ fs) ++ ts)) pi L) (fvars (length fs0) n) = fl l).
    { intros. subst n. rewrite <- !app_assoc. apply (fvars_den (B32 l0)). }
    assert (FR : forall ts is bs pi L l fs n ac, length l = n -> map (cden RS (mk RS is bs ac ((rs0 ++ l ++ fs) ++ ts)) pi L) (fvars (length fs0) n) = fl l).
    { intros. subst n. rewrite <- !app_assoc, <- HL. apply (fvars_den RS). }
    assert (IB : forall ts bs pi L l is fs n ac, length l = n -> map (cden (B32 l0) (mk (B32 l0) (is0 ++ l ++ is) bs ac (fs ++ ts)) pi L) (ivars (length is0) n) = il l).
    { intros. subst n. apply (ivars_den (B32 l0)). }
    assert (IR : forall ts bs pi L l is fs n ac, length l = n -> map (cden RS (mk RS (is0 ++ l ++ is) bs ac (fs ++ ts)) pi L) (ivars (length is0) n) = il l).
    { intros. subst n. apply (ivars_den RS). }
    assert (ONE : forall c A B, afloats A = [] -> rafloats B = [] ->
      (forall is bs fs ac pi L ts, aden (B32 l0) is bs fs ac pi L ts c = A) -> (forall is bs fs ac pi L ts, aden RS is bs fs ac pi L ts c = B) ->
      (forall sa, List.In sa (build ps (length is0) (length bs0) (length fs0)) -> List.In (c :: sa) (build (p :: ps) (length is0) (length bs0) (length fs0))) -> nfloats (p :: ps) = nfloats ps ->
      exists is bs fs rs sa, List.In sa (build (p :: ps) (length is0) (length bs0) (length fs0)) /\ length fs = nfloats (p :: ps) /\
        fs = flat_map afloats (A :: args) /\ rs = flat_map rafloats (B :: rargs') /\ length rs = length fs /\
        (forall ac pi L ts, map (aden (B32 l0) (is0 ++ is) (bs0 ++ bs) (fs0 ++ fs) ac pi L ts) sa = A :: args) /\
        (forall ac pi L ts, map (aden RS (is0 ++ is) (bs0 ++ bs) (rs0 ++ rs) ac pi L ts) sa = B :: rargs')).
    { intros c A B AF RF DA DB HI NF. destruct (IH is0 bs0 fs0 rs0 HL) as (is & bs & fs & rs & sa & I & Lf & Ef & Er & Lr & EA & EB).
      exists is, bs, fs, rs, (c :: sa). split; [apply HI; auto|]. split; [lia|]. split; [cbn [flat_map]; rewrite AF; auto|]. split; [cbn [flat_map]; rewrite RF; auto|].
      split; auto. split; intros; cbn [map]; f_equal; auto. }
    destruct p as [| |n|lz| |t n|t n|n|t n|t n]; simpl in H.
    + destruct H as [x ->]. destruct r as [| | | |w]; try contradiction. destruct w as [| |y0|z0|b0| | | | |cs0]; simpl in HA; try contradiction.
      apply (FL Float 1%nat [x] [y0] (fun cs => match cs with KF s :: _ => SVal (XF s) | _ => SOut 0 end)); auto.
      * intros. simpl. f_equal. f_equal. rewrite <- app_assoc. apply N.
      * intros. simpl. f_equal. f_equal. rewrite <- app_assoc, <- HL. apply N.
    + destruct H as [x ->]. destruct r as [| | | |w]; try contradiction. destruct w as [| |y0|z0|b0| | | | |cs0]; simpl in HA; try contradiction. subst z0.
      apply (IL Integer 1%nat [x] (fun cs => match cs with KI s :: _ => SVal (XI s) | _ => SOut 0 end)); auto.
      * intros. simpl. f_equal. f_equal. apply N.
      * intros. simpl. f_equal. f_equal. apply N.
    + destruct H as [z [Hz ->]]. destruct r as [| | | |w]; try contradiction. destruct w as [| |y0|z0|b0| | | | |cs0]; simpl in HA; try contradiction. subst z0.
      apply (ONE (SVal (XI (ILit z)))); auto.
      intros sa I. simpl. apply in_flat_map. exists (Z.to_nat z). split; [apply in_seq; lia|]. rewrite Z2Nat.id by lia. apply in_map. auto.
    + destruct H as [z [Hz ->]]. destruct r as [| | | |w]; try contradiction. destruct w as [| |y0|z0|b0| | | | |cs0]; simpl in HA; try contradiction. subst z0.
      apply (ONE (SVal (XI (ILit z)))); auto.
      intros sa I. simpl. apply in_flat_map. exists z. split; auto. apply in_map. auto.
    + destruct H as [x ->]. destruct r as [| | | |w]; try contradiction. destruct w as [| |y0|z0|b0| | | | |cs0]; simpl in HA; try contradiction. subst b0.
      destruct (IH is0 (bs0 ++ [x]) fs0 rs0 HL) as (is & bs & fs & rs & sa & I & Lf & Ef & Er & Lr & EA & EB).
      exists is, (x :: bs), fs, rs, (SVal (XB (BVar (length bs0))) :: sa). rewrite app_length, Nat.add_1_r in I. rewrite <- app_assoc in EA. rewrite <- app_assoc in EB. cbn [app] in EA, EB.
      split; [simpl; apply in_map; auto|]. split; [auto|]. split; [auto|]. split; [auto|]. split; [auto|].
      split; intros; cbn [map]; (f_equal; [|auto]); simpl; f_equal; f_equal; apply N.
    + destruct H as [cs [H ->]]. destruct r as [| | | |w]; try contradiction. destruct w as [| |y0|z0|b0| | | | |cs0]; simpl in HA; try contradiction. destruct t; destruct H as [l [Hl ->]].
      * destruct (near_fl _ _ _ HA) as (rl & -> & Lrl). apply (FL (Struct Flt n) n l rl (fun cs => SVal (XA cs))); auto; try lia;
          [simpl; apply cfloats_fl|simpl; apply rcfloats_fl| |]; intros; simpl; rewrite ?FB, ?FR by (auto; lia); auto.
      * apply near_il in HA. subst cs0. apply (IL (Struct Int n) n l (fun cs => SVal (XA cs))); auto; try lia;
          [simpl; apply cfloats_il|simpl; apply rcfloats_il| |]; intros; simpl; rewrite ?IB, ?IR by (auto; lia); auto.
    + destruct H as [cs [H ->]]. destruct r as [|cs0| | |]; try contradiction. simpl in HA. destruct t; destruct H as [l [Hl ->]].
      * destruct (near_fl _ _ _ HA) as (rl & -> & Lrl). apply (FL (Reads Flt n) n l rl SInA); auto; try lia;
          [simpl; apply cfloats_fl|simpl; apply rcfloats_fl| |]; intros; simpl; rewrite ?FB, ?FR by (auto; lia); auto.
      * apply near_il in HA. subst cs0. apply (IL (Reads Int n) n l SInA); auto; try lia;
          [simpl; apply cfloats_il|simpl; apply rcfloats_il| |]; intros; simpl; rewrite ?IB, ?IR by (auto; lia); auto.
    + subst a. destruct r as [| |k| |]; try contradiction. simpl in HA. subst k. apply (ONE (SOut n)); auto. intros sa I. simpl. apply in_map. auto.
    + destruct H as [cs [H ->]]. destruct r as [| | |cs0|]; try contradiction. simpl in HA. destruct t; destruct H as [l [Hl ->]].
      * destruct (near_fl _ _ _ HA) as (rl & -> & Lrl). apply (FL (Updates Flt n) n l rl SInOut); auto; try lia;
          [simpl; apply cfloats_fl|simpl; apply rcfloats_fl| |]; intros; simpl; rewrite ?FB, ?FR by (auto; lia); auto.
      * apply near_il in HA. subst cs0. apply (IL (Updates Int n) n l SInOut); auto; try lia;
          [simpl; apply cfloats_il|simpl; apply rcfloats_il| |]; intros; simpl; rewrite ?IB, ?IR by (auto; lia); auto.
    + destruct H as [cs [H ->]]. destruct r as [cs0| | | |]; try contradiction. simpl in HA. destruct t; destruct H as [l [Hl ->]].
      * destruct (near_fl _ _ _ HA) as (rl & -> & Lrl). apply (FL (Apart Flt n) n l rl SIn); auto; try lia;
          [simpl; apply cfloats_fl|simpl; apply rcfloats_fl| |]; intros; simpl; rewrite ?FB, ?FR by (auto; lia); auto.
      * apply near_il in HA. subst cs0. apply (IL (Apart Int n) n l SIn); auto; try lia;
          [simpl; apply cfloats_il|simpl; apply rcfloats_il| |]; intros; simpl; rewrite ?IB, ?IR by (auto; lia); auto.
Qed.
Lemma near_floats : forall M d args rargs, Forall2 (arg_near d) args rargs -> Forall (arg_upto M) rargs ->
  Forall2 (fun x y => number x /\ Rabs y <= M /\ Rabs (rval x - y) <= d) (flat_map afloats args) (flat_map rafloats rargs).
Proof.
  intros M d args rargs H. assert (C : forall cs rs, Forall2 (cell_near d) cs rs -> Forall (cell_upto M) rs ->
    Forall2 (fun x y => number x /\ Rabs y <= M /\ Rabs (rval x - y) <= d) (flat_map cfloats cs) (flat_map rcfloats rs)).
  { induction 1 as [|c r cs rs Hc Hcs IH]; intros U; cbn [flat_map]; auto. inversion U; subst. apply Forall2_app; auto.
    destruct c, r; simpl in *; try contradiction; auto. destruct Hc. auto. }
  induction H as [|a r args rargs Ha Hargs IH]; intros U; cbn [flat_map]; auto. inversion U as [|? ? U1 U2]; subst. apply Forall2_app; auto.
  destruct a as [cs|cs|n|cs|v], r as [rs|rs|k|rs|w]; simpl in *; try contradiction; auto.
  destruct v, w; simpl in *; try contradiction; auto. destruct Ha. auto.
Qed.
Lemma written_near : forall d a r, arg_near d a r -> written a = written r.
Proof. intros d [] []; simpl; intros H; try contradiction; auto. Qed.
Lemma wptrs_near : forall d args rargs, Forall2 (arg_near d) args rargs -> forall pl, wptrs rargs pl = wptrs args pl.
Proof. induction 1; intros [|p pl]; simpl; auto. rewrite <- (written_near _ _ _ H), IHForall2. reflexivity. Qed.
Lemma combine_fst : forall A B (xs : list A) (ys : list B), length ys = length xs -> map fst (combine xs ys) = xs /\ map snd (combine xs ys) = ys.
Proof. induction xs; intros [|y ys] H; simpl in *; try discriminate; auto. destruct (IHxs ys) as [-> ->]; auto. Qed.

Definition sincos (tr : option Z) (l : libm) : Prop := forall t, tr = Some t -> forall x, number x ->
  number (l1 l OSin x) /\ Rabs (rval (l1 l OSin x) - sin (rval x)) <= IZR t * sc /\
  number (l1 l OCos x) /\ Rabs (rval (l1 l OCos x) - cos (rval x)) <= IZR t * sc.
Lemma env_two : forall M d k0 (fs : list b32) (rs : list R), (forall x y, number x -> Rabs y <= M -> Rabs (rval x - y) <= d -> near k0 x y) ->
  Forall2 (fun x y => number x /\ Rabs y <= M /\ Rabs (rval x - y) <= d) fs rs ->
  Forall2 (fun k p => near k (fst p) (snd p)) (repeat k0 (length fs)) (combine fs rs).
Proof. intros M d k0 fs rs HK H. induction H as [|x y fs rs (A & B & C) H IH]; cbn [length repeat combine]; constructor; auto. Qed.

Theorem approxb_ok : forall tr K cs (L : libm -> Prop) M d e k0 lm, (forall l, L l -> sincos tr l) -> List.In (k0, lm) cs ->
  (forall x y, number x -> Rabs y <= M -> Rabs (rval x - y) <= d -> near k0 x y) -> IZR lm * sc <= e ->
  forall D, approxb tr K cs D = true -> approximates L M d e D.
Proof.
  intros tr K cs LL M d eps k0 lm HL0 HC HK HEPS [f ps] H l args rargs m rm pl HLL HF HN HU HL HR. specialize (HL0 l HLL).
  destruct (build_two l d ps args HF rargs HN [] [] [] [] eq_refl) as (is & bs & fs & rs & sa & I & Lf & Ef & Er & Lr & E & ER). cbn [app length] in E, ER, I.
  unfold approxb in H. rewrite forallb_forall in H. specialize (H _ I). rewrite forallb_forall in H. specialize (H _ (choose_in sa pl)).
  unfold approx_at in H. rewrite <- Lf in H.
  destruct (y_call K (sro sa) f (sactuals sa (choose sa pl)) (sregions sa (choose sa pl)) (length fs)) as [[t n] w] eqn:EY.
  apply andb_prop in H. destruct H as [H H3]. apply andb_prop in H. destruct H as [H1 H2].
  rewrite forallb_forall in H3. specialize (H3 _ HC). cbn [fst snd] in H3.
  destruct (wke tr (repeat k0 (length fs)) w) as [e|] eqn:EW; [|discriminate].
  assert (HG : Forall2 (fun k p => near k (fst p) (snd p)) (repeat k0 (length fs)) (combine fs rs)).
  { apply (env_two M d); auto. subst fs rs. apply near_floats; auto. }
  destruct (combine_fst _ _ fs rs Lr) as [CF1 CF2].
  assert (EYR := EY). rewrite <- Lr in EYR.
  pose proof (main_run (B32 l) K f sa args is bs fs E m pl HL) as MB.
  pose proof (main_run RS K f sa rargs is bs rs ER rm pl HR) as MR.
  match type of MB with forall ts t n w v sm', _ -> sat _ (mk _ _ _ ?ac _) w -> _ => set (ab := ac) in * end.
  match type of MR with forall ts t n w v sm', _ -> sat _ (mk _ _ _ ?ac _) w -> _ => set (ar := ac) in * end.
  assert (H1' : scoped (length (combine fs rs)) w = true) by (rewrite combine_length, Lr, Nat.min_id; auto).
  destruct (wk_near tr l is bs ab ar w _ _ _ HL0 EW HG H1') as (ts & G & SB & SR).
  destruct (tk_near tr l is bs e (combine fs rs ++ ts) ab ar HL0 G lm _ _ _ H3) as (v & sm & TB & TR & VK & KK & SZ).
  assert (HLen : list_eqb Nat.eqb (map (@length _) sm) (map (@length _) (sregions sa (choose sa pl))) = true).
  { destruct (safe_tree_den (B32 l) _ (mk (B32 l) is bs ab (map fst (combine fs rs ++ ts))) _ H2) as [(v' & sm' & HD & X) | (x & HX & HD)]; [congruence|].
    exfalso. clear - HD TB. induction t; cbn [tden tbad] in *; try discriminate; destruct (bden _ _ _); auto; discriminate. }
  apply list_eqb_lens in HLen.
  assert (Hl : length sm = length sa).
  { apply (f_equal (@length _)) in HLen. rewrite !map_length in HLen. unfold sregions in HLen. rewrite mapi_length in HLen. auto. }
  pose proof (vk_near tr l is bs e (combine fs rs ++ ts) ab ar HL0 G lm eps HEPS pl pl (length m) (length rm) v VK) as V1.
  assert (KN := fun cs => kks_near tr l is bs e (combine fs rs ++ ts) ab ar HL0 G lm eps HEPS pl pl (length m) (length rm) cs).
  rewrite !map_app, CF1, CF2 in *.
  specialize (MB (map fst ts) t n w v sm EY SB TB Hl). specialize (MR (map snd ts) t n w v sm EYR SR TR Hl).
  do 4 eexists. split; [exact MB|]. split; [exact MR|]. split; [exact V1|]. split.
  - rewrite Forall_forall in KK. clear -KK KN. induction (widx sa) as [|i is' IH]; cbn [map]; constructor; [apply KN, KK; left; auto|apply IH; intros; apply KK; right; auto].
  - rewrite map_map. rewrite (map_ext _ (fun i => length (nth i sm []))) by (intros; apply map_length). rewrite SZ.
    rewrite <- (E ab pl (length m) (map fst ts)). clearbody ab. clear. induction sa as [|a sa IH]; simpl; auto.
    destruct a; simpl; auto; rewrite ?map_length; f_equal; auto.
Qed.

(** ** The same with one outcome for every memory *)

Definition approxvb (tr : option Z) (K : nat) (cs : list (ek * Z)) (D : fundef * list param) : bool :=
  approxb tr K cs D && forallb single (build (snd D) 0 0 0).
Lemma kke_closed : forall tr e lm c, kke tr e lm c = true -> kclosed c = true.
Proof.
  induction c; simpl; intros H; auto; try discriminate. apply andb_prop in H. destruct H as [H H2]. apply andb_prop in H. destruct H.
  rewrite IHc1, IHc2; auto.
Qed.
Lemma vke_closed : forall tr e lm v, vke tr e lm v = true -> vclosed v = true.
Proof.
  induction v; simpl; intros H; auto; try discriminate.
  - rewrite forallb_forall in *. intros x I. eapply kke_closed. apply H. auto.
  - apply andb_prop in H. destruct H as [H H2]. apply andb_prop in H. destruct H. rewrite IHv1, IHv2; auto.
Qed.
Theorem approxvb_ok : forall tr K cs (L : libm -> Prop) M d e k0 lm, (forall l, L l -> sincos tr l) -> List.In (k0, lm) cs ->
  (forall x y, number x -> Rabs y <= M -> Rabs (rval x - y) <= d -> near k0 x y) -> IZR lm * sc <= e ->
  forall D, approxvb tr K cs D = true -> approximates_values L M d e D.
Proof.
  intros tr K cs LL M d eps k0 lm HL0 HC HK HEPS [f ps] HV l args rargs HLL HF HN HU. specialize (HL0 l HLL).
  unfold approxvb in HV. apply andb_prop in HV. destruct HV as [H HS]. cbn [snd] in HS.
  destruct (build_two l d ps args HF rargs HN [] [] [] [] eq_refl) as (is & bs & fs & rs & sa & I & Lf & Ef & Er & Lr & E & ER). cbn [app length] in E, ER, I.
  unfold approxb in H. rewrite forallb_forall in H, HS. specialize (H _ I). specialize (HS _ I). unfold single in HS.
  destruct (patterns sa) as [|pat [|]] eqn:EP; try discriminate.
  assert (HCH : forall pl, choose sa pl = pat). { intros pl. pose proof (choose_in sa pl) as J. rewrite EP in J. destruct J as [J|[]]; auto. }
  cbn [forallb] in H. rewrite andb_true_r in H.
  unfold approx_at in H. rewrite <- Lf in H.
  destruct (y_call K (sro sa) f (sactuals sa pat) (sregions sa pat) (length fs)) as [[t n] w] eqn:EY.
  apply andb_prop in H. destruct H as [H H3]. apply andb_prop in H. destruct H as [H1 H2].
  rewrite forallb_forall in H3. specialize (H3 _ HC). cbn [fst snd] in H3.
  destruct (wke tr (repeat k0 (length fs)) w) as [e|] eqn:EW; [|discriminate].
  assert (HG : Forall2 (fun k p => near k (fst p) (snd p)) (repeat k0 (length fs)) (combine fs rs)).
  { apply (env_two M d); auto. subst fs rs. apply near_floats; auto. }
  destruct (combine_fst _ _ fs rs Lr) as [CF1 CF2].
  assert (EYR := EY). rewrite <- Lr in EYR.
  set (ab := nil_ac (B32 l)). set (ar := nil_ac RS).
  assert (H1' : scoped (length (combine fs rs)) w = true) by (rewrite combine_length, Lr, Nat.min_id; auto).
  destruct (wk_near tr l is bs ab ar w _ _ _ HL0 EW HG H1') as (ts & G & SB & SR).
  destruct (tk_near tr l is bs e (combine fs rs ++ ts) ab ar HL0 G lm _ _ _ H3) as (v & sm & TB & TR & VK & KK & SZ).
  assert (HLen : list_eqb Nat.eqb (map (@length _) sm) (map (@length _) (sregions sa pat)) = true).
  { destruct (safe_tree_den (B32 l) _ (mk (B32 l) is bs ab (map fst (combine fs rs ++ ts))) _ H2) as [(v' & sm' & HD & X) | (x & HX & HD)]; [congruence|].
    exfalso. clear - HD TB. induction t; cbn [tden tbad] in *; try discriminate; destruct (bden _ _ _); auto; discriminate. }
  apply list_eqb_lens in HLen.
  assert (Hl : length sm = length sa).
  { apply (f_equal (@length _)) in HLen. rewrite !map_length in HLen. unfold sregions in HLen. rewrite mapi_length in HLen. auto. }
  rewrite Forall_forall in KK.
  assert (KC : forall i, List.In i (widx sa) -> forallb kclosed (nth i sm []) = true).
  { intros i Hi. specialize (KK i Hi). rewrite forallb_forall in *. intros c Hc. eapply kke_closed. apply KK. auto. }
  pose proof (vk_near tr l is bs e (combine fs rs ++ ts) ab ar HL0 G lm eps HEPS [] [] 0%nat 0%nat v VK) as V1.
  assert (KN := fun cs => kks_near tr l is bs e (combine fs rs ++ ts) ab ar HL0 G lm eps HEPS [] [] 0%nat 0%nat cs).
  rewrite !map_app, CF1, CF2 in *.
  exists (vden (B32 l) (mk (B32 l) is bs ab (fs ++ map fst ts)) [] 0 v), (vden RS (mk RS is bs ar (rs ++ map snd ts)) [] 0 v),
    (map (fun i => map (cden (B32 l) (mk (B32 l) is bs ab (fs ++ map fst ts)) [] 0) (nth i sm [])) (widx sa)),
    (map (fun i => map (cden RS (mk RS is bs ar (rs ++ map snd ts)) [] 0) (nth i sm [])) (widx sa)).
  split; [|split; [|split; [exact V1|split]]].
  - intros m pl HL. assert (EY2 := EY). rewrite <- (HCH pl) in EY2.
    erewrite (main_run (B32 l) K f sa args is bs fs E m pl HL (map fst ts) t n w v sm EY2).
    2:{ eapply sat_ac. exact SB. } 2:{ rewrite <- TB. apply tden_ac. } 2:{ auto. }
    f_equal. f_equal; [apply vden_closed; eapply vke_closed; eauto|]. f_equal. f_equal. apply map_ext_in. intros i Hi. apply cdens_closed. auto.
  - intros m pl HL. assert (EY2 := EYR). rewrite <- (HCH pl) in EY2.
    erewrite (main_run RS K f sa rargs is bs rs ER m pl HL (map snd ts) t n w v sm EY2).
    2:{ eapply sat_ac. exact SR. } 2:{ rewrite <- TR. apply tden_ac. } 2:{ auto. }
    f_equal. f_equal; [apply (vden_closed RS); eapply vke_closed; eauto|]. f_equal. f_equal. apply map_ext_in. intros i Hi. apply (cdens_closed RS). auto.
  - clear -KK KN. induction (widx sa) as [|i is' IH]; cbn [map]; constructor; [apply KN, KK; left; auto|apply IH; intros; apply KK; right; auto].
  - rewrite map_map. rewrite (map_ext _ (fun i => length (nth i sm []))) by (intros; apply map_length). rewrite SZ.
    rewrite <- (E ab [] 0%nat (map fst ts)). clearbody ab. clear. induction sa as [|a sa IH]; simpl; auto.
    destruct a; simpl; auto; rewrite ?map_length; f_equal; auto.
Qed.
