(** * Array functions of any length (C05, C21, C56) *)

From Coq Require Import String List ZArith Bool Reals Lia Lra.
From Verif Require Import MiniC Contract SymCall SymTac Tac RScalar Cglm.
From Verif.Gen Require Import struct_vec2 struct_vec3 struct_vec4 struct_ivec2 struct_ivec3 struct_ivec4 struct_mat2 struct_mat3 struct_mat4 struct_quat.
From Verif.Spec Require Import Linear Arrays.
From Verif.Proofs Require Import Loop Shape Struct Region Arrays.
(* props: From Verif.Gen Require Import struct_vec2 struct_vec3 struct_vec4 struct_ivec2 struct_ivec3 struct_ivec4 struct_mat2 struct_mat3 struct_mat4 struct_quat. *)
Import ListNotations.
Local Open Scope string_scope.
Local Open Scope nat_scope.
Local Open Scope list_scope.

Ltac icopy := let cs := fresh in let L := fresh in let H := fresh in intros cs L H;
  repeat (destruct cs; try discriminate);
  repeat match goal with H : Forall _ (_ :: _) |- _ => inversion H; clear H; subst end;
  repeat match goal with H : exists _, _ = _ |- _ => destruct H as [? ->] end; sym_with 100%nat; useeqs; repeat split; try reflexivity.

Lemma flt_copies : forall S, copies S glm_vec2_copy 2 (fun c => exists x, c = CF x) /\ copies S glm_vec3_copy 3 (fun c => exists x, c = CF x) /\
  copies S glm_vec4_copy 4 (fun c => exists x, c = CF x).
Proof. intros S. repeat split; icopy. Qed.
Lemma int_copies : forall S, copies S glm_ivec2_copy 2 (fun c => exists x, c = CI x) /\ copies S glm_ivec3_copy 3 (fun c => exists x, c = CI x) /\
  copies S glm_ivec4_copy 4 (fun c => exists x, c = CI x).
Proof. intros S. repeat split; icopy. Qed.
Lemma fl_flt : forall F (x : list F), Forall (fun c => exists y, c = CF y) (fl x).
Proof. intros. unfold fl. rewrite Forall_map. apply Forall_forall. eauto. Qed.
Lemma il_int : forall F (x : list Z), Forall (fun c : cell F => exists y, c = CI y) (il x).
Proof. intros. unfold il. rewrite Forall_map. apply Forall_forall. eauto. Qed.

(** Packing and unpacking copy arrays of every length. *)
Lemma C56_pack_ok :
  copies_floats glms_vec2_pack 2 /\ copies_floats glms_vec3_pack 3 /\ copies_floats glms_vec4_pack 4 /\
  copies_floats glms_vec2_unpack 2 /\ copies_floats glms_vec3_unpack 3 /\ copies_floats glms_vec4_unpack 4 /\
  copies_ints glms_ivec2_pack 2 /\ copies_ints glms_ivec3_pack 3 /\ copies_ints glms_ivec4_pack 4 /\
  copies_ints glms_ivec2_unpack 2 /\ copies_ints glms_ivec3_unpack 3 /\ copies_ints glms_ivec4_unpack 4.
Proof.
  gsplit; intros S n x L; destruct (flt_copies S) as (F2 & F3 & F4); destruct (int_copies S) as (I2 & I3 & I4);
  first [assert (L1 : length (@fl (T S) x) = length x) by (unfold fl; rewrite map_length; reflexivity)
   | assert (L1 : length (@il (T S) x) = length x) by (unfold il; rewrite map_length; reflexivity)]; rewrite L in L1.
  - exact (pack_ok S glm_vec2_copy 2 _ F2 ltac:(lia) n (fl x) L1 (fl_flt _ x)).
  - exact (pack_ok S glm_vec3_copy 3 _ F3 ltac:(lia) n (fl x) L1 (fl_flt _ x)).
  - exact (pack_ok S glm_vec4_copy 4 _ F4 ltac:(lia) n (fl x) L1 (fl_flt _ x)).
  - exact (pack_ok S glm_vec2_copy 2 _ F2 ltac:(lia) n (fl x) L1 (fl_flt _ x)).
  - exact (pack_ok S glm_vec3_copy 3 _ F3 ltac:(lia) n (fl x) L1 (fl_flt _ x)).
  - exact (pack_ok S glm_vec4_copy 4 _ F4 ltac:(lia) n (fl x) L1 (fl_flt _ x)).
  - exact (pack_ok S glm_ivec2_copy 2 _ I2 ltac:(lia) n (il x) L1 (il_int _ x)).
  - exact (pack_ok S glm_ivec3_copy 3 _ I3 ltac:(lia) n (il x) L1 (il_int _ x)).
  - exact (pack_ok S glm_ivec4_copy 4 _ I4 ltac:(lia) n (il x) L1 (il_int _ x)).
  - exact (pack_ok S glm_ivec2_copy 2 _ I2 ltac:(lia) n (il x) L1 (il_int _ x)).
  - exact (pack_ok S glm_ivec3_copy 3 _ I3 ltac:(lia) n (il x) L1 (il_int _ x)).
  - exact (pack_ok S glm_ivec4_copy 4 _ I4 ltac:(lia) n (il x) L1 (il_int _ x)).
Qed.

Lemma ident_copy2 : forall S (a b : T S), computes S glm_mat2_copy [InA (fl [a;b;b;a]); Out 4] VVoid [fl [a;b;b;a]].
Proof. intros. sym_with 100; useeqs; repeat split; try reflexivity. Qed.
Lemma ident_copy3 : forall S (a b : T S), computes S glm_mat3_copy [InA (fl [a;b;b;b;a;b;b;b;a]); Out 9] VVoid [fl [a;b;b;b;a;b;b;b;a]].
Proof. intros. sym_with 100; useeqs; repeat split; try reflexivity. Qed.
Lemma ident_copy4 : forall S (a b : T S), computes S glm_mat4_copy [InA (fl [a;b;b;b;b;a;b;b;b;b;a;b;b;b;b;a]); Out 16] VVoid [fl [a;b;b;b;b;a;b;b;b;b;a;b;b;b;b;a]].
Proof. intros. sym_with 100; useeqs; repeat split; try reflexivity. Qed.
Lemma ident_copyq : forall S (a b : T S), computes S glm_vec4_copy [InA (fl [b;b;b;a]); Out 4] VVoid [fl [b;b;b;a]].
Proof. intros. sym_with 100; useeqs; repeat split; try reflexivity. Qed.

Ltac placed1 Y dst Hd :=
  let PL := fresh "PL" in let PL1 := fresh "PL" in let PL2 := fresh "PL" in let E1 := fresh "E" in let E2 := fresh "E" in
  pose proof (lay_placed _ _ _ Y) as PL; inversion PL as [|? dst ? ? Hd PL1 E1]; subst; clear PL;
  inversion PL1 as [|? ? ? ? ? PL2 E2]; subst; clear PL1; inversion PL2; subst; clear PL2; cbn [placed] in Hd; apply valid_readable in Hd.

Lemma fill_end : forall S k body (m : mem (T S)) (dst : ptr) g mat cs n c t,
  0 < k -> length cs = k -> computes S g [InA cs; Out k] VVoid [cs] -> readable S m dst (n * k) ->
  (forall r, r = [(mat, VP (fst dst) (snd dst)); (c, VI (Z.of_nat n)); (t, VP (length m) 0); ("i", VU)] ->
    exec S body r (m ++ [repeat CU k]) = exec S (SFor "i" (EI 0) (EV c) (SExp (ECall g (Econs (EV t) (Econs (EIx (EV mat) (Z.of_nat k) (EV "i")) Enil))))) r (m ++ [cs])) ->
  mat <> "i" -> t <> "i" -> c <> "i" -> mat <> c -> mat <> t -> c <> t ->
  call S (Fun [(mat, None); (c, None)] [(t, Some k); ("i", None)] body) [VP (fst dst) (snd dst); VI (Z.of_nat n)] m
    = Ok (VVoid, upd m dst (List.concat (repeat cs n))).
Proof.
  intros S k body m dst g mat cs n c t K L C Hd B N1 N2 N3 N4 N5 N6.
  rewrite call_fun. cbn [bind_params rbind bind_locals app]. rewrite (B _ eq_refl), exec_for.
  assert (VC : forall x z m', eval S (EV c) [(mat, x); (c, VI z); (t, VP (length m) 0); ("i", VU)] m' = Ok (VI z, m')).
  { intros. cbn [eval]; unfold var; cbn [lookup]. destruct (String.eqb_spec c mat); [congruence|]. rewrite String.eqb_refl. reflexivity. }
  change (eval S (EI 0) ?r ?mm) with (@Ok (value (T S) * mem (T S)) (VI 0, mm)). cbn [rbind]. rewrite VC. cbn [rbind].
  rewrite Z.sub_0_r, Nat2Z.id.
  assert (AS : forall y x z w, assign "i" y [(mat, x); (c, z); (t, w); ("i", VU)] = [(mat, x); (c, z); (t, w); ("i", y : value (T S))]).
  { intros. cbn [assign]. 
    destruct (String.eqb_spec "i" mat); [congruence|]. destruct (String.eqb_spec "i" c); [congruence|]. destruct (String.eqb_spec "i" t); [congruence|]. reflexivity. }
  edestruct (forloop_fill S g k cs dst mat t K L C N1 N2 n) as [r' E]; [exact Hd | | | | | |rewrite E].
  6:{ cbn [rbind]. rewrite <- (upd_len m dst (List.concat (repeat cs n))) at 1. rewrite firstn_app, Nat.sub_diag, firstn_all, app_nil_r. reflexivity. }
  5: reflexivity.
  1: intros; rewrite AS; unfold var; cbn [lookup]; rewrite String.eqb_refl; reflexivity.
  1: intros; rewrite AS; unfold var; cbn [lookup]; destruct (String.eqb_spec t mat); [congruence|]; destruct (String.eqb_spec t c); [congruence|]; rewrite String.eqb_refl; reflexivity.
  2: intros; rewrite AS; unfold var; cbn [lookup]; destruct (String.eqb_spec "i" mat); [congruence|]; destruct (String.eqb_spec "i" c); [congruence|];
    destruct (String.eqb_spec "i" t); [congruence|]; reflexivity.
  intros. rewrite !AS. cbn [assign].
  destruct (String.eqb_spec "i" mat); [congruence|]. destruct (String.eqb_spec "i" c); [congruence|]. destruct (String.eqb_spec "i" t); [congruence|]. reflexivity.
Qed.

Ltac fill gg kk ccs C :=
  let m := fresh "m" in let ps := fresh "ps" in let Y := fresh "Y" in let dst := fresh "dst" in let Hd := fresh "Hd" in
  intros m ps Y; placed1 Y dst Hd;
  match goal with |- context [upds m (combine _ [?cs])] => change (upds m (combine _ [cs])) with (upd m dst cs) end; cbn [actuals actual];
  apply fill_end with (g := gg) (k := kk) (cs := ccs); [lia | reflexivity | apply C | exact Hd | | discriminate ..];
  intros r E; repeat (erewrite init_step; [| subst r; reflexivity | split; vm_compute; congruence ]); subst r; reflexivity.

Lemma fl_concat : forall F (x : list F) n, fl (List.concat (repeat x n)) = List.concat (repeat (fl x) n).
Proof. induction n; simpl; auto. unfold fl in *. rewrite map_app, IHn. reflexivity. Qed.

(** The identity arrays of the struct API are those of the array API, for every length. *)
Lemma C56_identity_array_ok : forall S : Scalar,
  fills S glm_mat2_identity_array (unit_matrix S 2) /\ fills S glms_mat2_identity_array (unit_matrix S 2) /\
  fills S glm_mat3_identity_array (unit_matrix S 3) /\ fills S glms_mat3_identity_array (unit_matrix S 3) /\
  fills S glm_mat4_identity_array (unit_matrix S 4) /\ fills S glms_mat4_identity_array (unit_matrix S 4) /\
  fills S glm_quat_identity_array (unit_quat S) /\ fills S glms_quat_identity_array (unit_quat S).
Proof.
  intros S. gsplit; intros n; rewrite fl_concat.
  - fill glm_mat2_copy 4%nat (fl (unit_matrix S 2)) ident_copy2.
  - fill glm_mat2_copy 4%nat (fl (unit_matrix S 2)) ident_copy2.
  - fill glm_mat3_copy 9%nat (fl (unit_matrix S 3)) ident_copy3.
  - fill glm_mat3_copy 9%nat (fl (unit_matrix S 3)) ident_copy3.
  - fill glm_mat4_copy 16%nat (fl (unit_matrix S 4)) ident_copy4.
  - fill glm_mat4_copy 16%nat (fl (unit_matrix S 4)) ident_copy4.
  - fill glm_vec4_copy 4%nat (fl (unit_quat S)) ident_copyq.
  - fill glm_vec4_copy 4%nat (fl (unit_quat S)) ident_copyq.
Qed.

(** The identity arrays over the reals. *)
Lemma C05_identity_array_ok : fills RS glm_mat2_identity_array (mid 2) /\ fills RS glm_mat3_identity_array (mid 3) /\ fills RS glm_mat4_identity_array (mid 4).
Proof.
  assert (L1 : s_lit RS 1 1 = 1%R) by (cbv -[IZR Rdiv]; lra). assert (L0 : s_lit RS 0 1 = 0%R) by (cbv -[IZR Rdiv]; lra).
  destruct (C56_identity_array_ok RS) as (H2 & _ & H3 & _ & H4 & _).
  assert (E : forall n, n = 2 \/ n = 3 \/ n = 4 -> unit_matrix RS n = mid n).
  { intros n [->|[->| ->]]; cbv [unit_matrix mid build flat_map seq map app Nat.mul Nat.add Nat.eqb Nat.div Nat.modulo fst snd Nat.divmod Nat.sub]; rewrite L1, L0; reflexivity. }
  rewrite !E in * by auto. auto.
Qed.

(** three structs packed in place *)
Lemma C56_pack_ex : exists m ps, layout m [Out (length (@fl R [1;2;3;4;5;6]%R)); InA (fl [1;2;3;4;5;6]%R); Val (VI 3)] ps /\ nth_error ps 0 = nth_error ps 1.
Proof.
  exists [fl [1;2;3;4;5;6]%R], [(0, 0%Z); (0, 0%Z); (0, 0%Z)]. split; [|reflexivity]. split.
  - repeat constructor. simpl. discriminate.
  - intros i j a b p q Nij Ha Hb Hp Hq W P.
    destruct i as [|[|[|[|i]]]], j as [|[|[|[|j]]]]; simpl in *; try congruence; try discriminate; injection Ha as <-; injection Hb as <-; injection Hp as <-; injection Hq as <-; simpl in *; try discriminate; auto.
Qed.
Lemma C56_identity_array_ex : exists m : mem R,
  call RS glms_mat2_identity_array [VP 0 0; VI 3] m = Ok (VVoid, [fl (mid 2 ++ mid 2 ++ mid 2) ++ [CI 7%Z]]) /\ nth_error m 0 = Some (repeat CU 12 ++ [CI 7%Z]).
Proof.
  exists [repeat CU 12 ++ [CI 7%Z]]. split; [|reflexivity]. lazy -[IZR Rdiv]. repeat f_equal; lra.
Qed.
