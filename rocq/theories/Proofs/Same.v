(** * Agreement of two functions by symbolic evaluation (proof tool) *)

From Coq Require Import String List ZArith Bool Lia.
From Verif Require Import MiniC Sym SymSound Contract SymCall SymTac.
From Verif.Spec Require Import Agree.
Import ListNotations.

Definition same_at (K : nat) (f g : fundef) (sargs : list sarg) (k : nat) (pat : list (option nat)) : Prop :=
  safe_at K f sargs pat k = true /\
  y_call K (sro sargs) f (sactuals sargs pat) (sregions sargs pat) k = y_call K (sro sargs) g (sactuals sargs pat) (sregions sargs pat) k.

Theorem agree_intro : forall S K f g sargs args is bs fs,
  (forall ac pi L ts, map (aden S is bs fs ac pi L ts) sargs = args) ->
  Forall (same_at K f g sargs (length fs)) (patterns sargs) ->
  agree S f g args.
Proof.
  intros S K f g sargs args is bs fs HA HB m ps Hl.
  pose proof (proj1 (Forall_forall _ _) HB _ (choose_in sargs ps)) as [HO E]. unfold safe_at in HO.
  destruct (y_call K (sro sargs) f (sactuals sargs (choose sargs ps)) (sregions sargs (choose sargs ps)) (length fs)) as [[t n] w] eqn:EY.
  symmetry in E. apply andb_prop in HO. destruct HO as [HS HT].
  pose proof (fun ac => with_binds_run S is bs ac w fs (fun _ => True) HS) as B.
  match type of (main_run S K f sargs args is bs fs HA m ps Hl) with forall ts t n w v sm', _ -> sat S (mk S is bs ?ac _) w -> _ => specialize (B ac); set (ac0 := ac) in * end.
  destruct B as (ts & Hsat & _).
  { clear. revert fs. induction w as [|[n s] w]; simpl; auto. }
  destruct (safe_tree_den S _ (mk S is bs ac0 (fs ++ ts)) _ HT) as [(v & sm' & HD & HL) | (x & HX & HD)].
  - apply list_eqb_lens in HL.
    assert (Hlen : length sm' = length sargs).
    { apply (f_equal (@length _)) in HL. rewrite !map_length in HL. unfold sregions in HL. rewrite mapi_length in HL. auto. }
    rewrite (main_run S K f sargs args is bs fs HA m ps Hl ts t n w v sm' EY Hsat HD Hlen).
    rewrite (main_run S K g sargs args is bs fs HA m ps Hl ts t n w v sm' E Hsat HD Hlen). reflexivity.
  - assert (X : forall h, y_call K (sro sargs) h (sactuals sargs (choose sargs ps)) (sregions sargs (choose sargs ps)) (length fs) = (t, n, w) ->
      call S h (actuals args ps) m = Err x).
    { intros h EH.
      assert (HF := proj2 (proj2 (proj2 (sound_err S (mk S is bs ac0 (fs ++ ts)) ps (length m) m eq_refl (sro sargs)
        (map (@length _) (sregions sargs (choose sargs ps)))
        (lens_length S sargs args is bs fs HA m ps Hl)
        (inreg_lt S K sargs args is bs fs HA m ps Hl)
        (reg_disj S sargs args is bs fs HA m ps Hl) K)))).
      unfold ac0 in *. rewrite <- (actuals_den S sargs args is bs fs HA m ps Hl ts).
      apply (HF h (sactuals sargs (choose sargs ps)) (sregions sargs (choose sargs ps)) (length fs) x m (rel_init S K sargs args is bs fs HA m ps Hl ts)).
      split; rewrite EH; auto. }
    rewrite (X f EY), (X g E). reflexivity.
Qed.

(** [same_with K]: prove [agree S f g args] *)
Ltac same_with K :=
  lazymatch goal with
  | |- agree ?S ?f ?g ?args0 =>
    let args := eval cbv [fl il map app] in args0 in
    let Fl := constr:(@nil (T S)) in
    rf_args args Fl (@nil Z) (@nil bool) ltac:(fun sargs fs is bs =>
      apply (agree_intro S K f g sargs args0 is bs fs);
      [ intros; reflexivity
      | let p := eval vm_compute in (patterns sargs) in
        change (patterns sargs) with p;
        repeat match goal with
               | |- Forall _ (cons _ _) => apply Forall_cons
               | |- Forall _ nil => apply Forall_nil
               end; (split; vm_compute; reflexivity) ])
  end.
