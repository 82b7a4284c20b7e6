(** Sign of the kinetic energy (C37): statements and soundness of the check. *)
From Coq Require Import Reals List QArith Bool Lra.
From Verif Require Import Bytes Syntax Parser PostProcess Src Ast Semantics Impl Families Interval IntervalThm IntervalThm2 Absint AbsintThm Defined Inputs Library Refute.
Import ListNotations.
Open Scope R_scope.

Definition nonnegative_pol (d : domain) (f : source) : Prop :=
  forall I A a, ops_ok I -> params_ok A (d_pars d) -> physical_pol (d_level d) a -> exists v, pol f I A a = Some v /\ 0 <= v.
Definition nonnegative_unpol (d : domain) (f : source) : Prop :=
  forall I A u, ops_ok I -> params_ok A (d_pars d) -> physical_unpol (d_level d) u -> exists v, unpol f I A u = Some v /\ 0 <= v.
(** The callable, in both spin modes. *)
Definition returns_nonnegative (d : domain) (f : source) : Prop :=
  forall I impl p dim rho mo, ops_ok I ->
  (record_for impl f d 1 p /\ point_unpol d p dim rho mo) \/ (record_for impl f d 2 p /\ point_pol d p dim rho mo) ->
  exists v, epsilon_xc I impl p dim rho mo = Ok (Some v) /\ 0 <= v.
Definition negative_somewhere (f : source) : Prop :=
  exists A a, zeta_ok A /\ pol_ok a /\ forall I, ops_ok I -> exists v, pol f I A a = Some v /\ v < 0.

Definition nonneg_res (o : option itv) : bool := match o with Some i => lo_nonneg i | None => false end.
Theorem nonnegative_pol_sound d c : nonneg_res (bounds_pol d c) = true -> nonnegative_pol d (c_src c).
Proof.
  intros H I A a HI HA Ha. destruct (bounds_pol d c) as [i|] eqn:E; [|discriminate].
  destruct (bounds_pol_ok _ _ _ I A a E HI HA Ha) as (v & Hv & Hi). exists v. split; [exact Hv|]. exact (lo_nonneg_ok _ _ H Hi).
Qed.
Theorem nonnegative_unpol_sound d c : nonneg_res (bounds_unpol d c) = true -> nonnegative_unpol d (c_src c).
Proof.
  intros H I A a HI HA Ha. destruct (bounds_unpol d c) as [i|] eqn:E; [|discriminate].
  destruct (bounds_unpol_ok _ _ _ I A a E HI HA Ha) as (v & Hv & Hi). exists v. split; [exact Hv|]. exact (lo_nonneg_ok _ _ H Hi).
Qed.
Theorem nonnegative_library d f : usable d f -> nonnegative_pol d f -> nonnegative_unpol d f -> returns_nonnegative d f.
Proof.
  intros U Dp Du I impl p dim rho mo HI [[R P]|[R P]].
  - rewrite (eval_unpol d f U I impl p dim rho mo R (proj1 P)).
    destruct (Du I _ _ HI (proj2 (proj2 (proj2 R))) (point_unpol_physical d p dim rho mo (level_of d f U _ _ _ R) P)) as (v & Hv & Hn).
    destruct (Rlt_dec _ _); [exists 0; split; [reflexivity|lra]|exists v; rewrite Hv; split; [reflexivity|exact Hn]].
  - rewrite (eval_pol d f U I impl p dim rho mo R (proj1 P)).
    destruct (Dp I _ _ HI (proj2 (proj2 (proj2 R))) (point_pol_physical d p dim rho mo (level_of d f U _ _ _ R) P)) as (v & Hv & Hn).
    destruct (Rlt_dec _ _); [exists 0; split; [reflexivity|lra]|exists v; rewrite Hv; split; [reflexivity|exact Hn]].
Qed.
Definition check_kinetic (p : compiled * domain) : bool :=
  nonneg_res (bounds_pol (snd p) (fst p)) && nonneg_res (bounds_unpol (snd p) (fst p)) && library_ok (snd p) (fst p).
Theorem kinetic_sound p : check_kinetic p = true -> returns_nonnegative (snd p) (c_src (fst p)).
Proof.
  intros H. apply andb_prop in H. destruct H as [H L]. apply andb_prop in H. destruct H as [P U].
  exact (nonnegative_library _ _ (library_sound _ _ L) (nonnegative_pol_sound _ _ P) (nonnegative_unpol_sound _ _ U)).
Qed.

Definition refute_kinetic {S : setting} (ps xs : qlist) (c : compiled) : bool :=
  q_zeta ps && q_pol_ok xs && match at_pol ps xs c with Some i => lo_pos (ineg i) | None => false end.
Theorem refute_kinetic_sound {S : setting} {K : pi_known} ps xs c : refute_kinetic ps xs c = true -> negative_somewhere (c_src c).
Proof.
  unfold refute_kinetic. intros H. apply andb_prop in H. destruct H as [H Ha]. apply andb_prop in H. destruct H as [Hz Hp].
  exists (qget ps), (q_pol xs). split; [exact (q_zeta_ok _ Hz)|]. split; [exact (q_pol_ok_ok _ Hp)|]. intros I HI.
  destruct (at_pol ps xs c) as [i|] eqn:E1; [|discriminate]. destruct (at_pol_ok _ _ _ _ I E1 HI) as (v & Hv & Iv).
  exists v. split; [exact Hv|]. pose proof (lo_pos_ok _ _ Ha (ineg_ok _ _ Iv)). lra.
Qed.
