(** The statements of Families.v without their definedness hypotheses: on physical inputs both
    values exist and agree. *)
From Coq Require Import Reals ZArith List Lra Lia.
From Verif Require Import Bytes Syntax Parser PostProcess Src Ast Semantics RPow Families AbsintThm Absint Defined.
Import ListNotations.
Open Scope R_scope.

Definition closed_shell_exact (d : domain) (f : source) : Prop :=
  forall I A u, ops_ok I -> params_ok A (d_pars d) -> physical_unpol (d_level d) u ->
  exists v, unpol f I A u = Some v /\ pol f I A (closed_shell u) = Some v.
Definition spin_symmetric_exact (d : domain) (f : source) : Prop :=
  forall I A a, ops_ok I -> params_ok A (d_pars d) -> physical_pol (d_level d) a ->
  exists v, pol f I A a = Some v /\ pol f I A (swap_spins a) = Some v.
Definition scales_exact (n : nat) (d : domain) (f : source) : Prop :=
  forall I A a g, ops_ok I -> params_ok A (d_pars d) -> physical_pol (d_level d) a -> 0 < g ->
  above_threshold A a -> above_threshold A (scale_args g a) ->
  exists v, pol f I A a = Some v /\ pol f I A (scale_args g a) = Some (g ^ n * v).
Definition spin_scales_exact (d : domain) (f : source) : Prop :=
  forall I A a, ops_ok I -> params_ok A (d_pars d) -> physical_pol (d_level d) a -> not_clipped A a ->
  exists e u w, pol f I A a = Some e /\ unpol f I A (spin_up a) = Some u /\ unpol f I A (spin_down a) = Some w /\
  (p_r0 a + p_r1 a) * e = (2 * p_r0 a * u + 2 * p_r1 a * w) / 2.
Definition uniform_exact (e : R -> R -> R) (d : domain) (f : source) : Prop :=
  forall I A r0 r1, ops_ok I -> params_ok A (d_pars d) -> 0 < r0 -> 0 < r1 ->
  not_clipped A (uniform_gas r0 r1) -> above_threshold A (uniform_gas r0 r1) ->
  exists v, pol f I A (uniform_gas r0 r1) = Some v /\ (r0 + r1) * v = e r0 r1.
Definition screened_pol_exact (d : domain) (f : source) : Prop :=
  forall I A a t, ops_ok I -> params_ok A (d_pars d) -> physical_pol (d_level d) a ->
  A "p.dens_threshold"%b = Some t -> p_r0 a <= t -> p_r1 a <= t -> pol f I A a = Some 0.
Definition screened_unpol_exact (d : domain) (f : source) : Prop :=
  forall I A u t, ops_ok I -> params_ok A (d_pars d) -> physical_unpol (d_level d) u ->
  A "p.dens_threshold"%b = Some t -> u_r u / 2 <= t -> unpol f I A u = Some 0.

Lemma grad_scale pos k s : 0 < k -> grad_ok pos s -> grad_ok pos (k * s).
Proof. destruct pos; cbn [grad_ok]; intros K H; [apply Rmult_lt_0_compat|apply Rmult_le_pos]; lra. Qed.
Lemma onneg_scale k o : 0 < k -> onneg o -> onneg (omap (fun x => k * x) o).
Proof. destruct o; cbn [omap onneg]; [|trivial]. intros K H. apply Rmult_le_pos; lra. Qed.
Lemma grad_onneg pos s : grad_ok pos s -> 0 <= s.
Proof. destruct pos; cbn [grad_ok]; lra. Qed.

Lemma physical_ok l a : physical_pol l a -> pol_ok a.
Proof.
  intros (H0 & H1 & H). split; [exact H0|]. split; [exact H1|].
  destruct l as [|pos|pos]; [exact H| |destruct H as (H & _)]; destruct H as (s0 & s1 & s2 & -> & E1 & -> & G0 & G2 & _); cbn [onneg];
    (split; eapply grad_onneg; eassumption).
Qed.
Lemma physical_onneg l u : physical_unpol l u -> onneg (u_s u).
Proof.
  intros (H0 & H). destruct l as [|pos|pos]; [exact H| |destruct H as (H & _)]; destruct H as (s & -> & G); cbn [onneg]; eapply grad_onneg; eassumption.
Qed.
Lemma physical_swap l a : physical_pol l a -> physical_pol l (swap_spins a).
Proof.
  assert (G : forall pos, gradient_pol pos a -> gradient_pol pos (swap_spins a)).
  { intros pos (s0 & s1 & s2 & E0 & E1 & E2 & G0 & G2 & G). exists s2, s1, s0. cbn [swap_spins p_s0 p_s1 p_s2]. repeat split; try assumption.
    replace (s2 + 2 * s1 + s0) with (s0 + 2 * s1 + s2) by ring. exact G. }
  intros (H0 & H1 & H). split; [exact H1|]. split; [exact H0|].
  destruct l as [|pos|pos]; [exact (conj (proj2 H) (proj1 H))|apply G, H|]. destruct H as (H & L0 & L1 & T0 & T1). split; [apply G, H|]. repeat split; assumption.
Qed.
Lemma physical_closed l u : physical_unpol l u -> physical_pol l (closed_shell u).
Proof.
  assert (G : forall pos, gradient_unpol pos u -> gradient_pol pos (closed_shell u)).
  { intros pos (s & E & G). exists (s / 4), (s / 4), (s / 4). cbn [closed_shell p_s0 p_s1 p_s2]. rewrite E. cbn [omap].
    assert (G4 : grad_ok pos (s / 4)) by (replace (s / 4) with (/ 4 * s) by field; apply grad_scale; [lra|exact G]).
    repeat split; try exact G4. replace (s / 4 + 2 * (s / 4) + s / 4) with s by field. exact G. }
  intros (H0 & H). split; [cbn; lra|]. split; [cbn; lra|].
  destruct l as [|pos|pos]; [cbn [closed_shell p_s0 p_s2]; destruct (u_s u); cbn [omap onneg] in *; split; lra|apply G, H|]. destruct H as (H & (l & L) & (t & T & P)). split; [apply G, H|].
  unfold kinetic_pol. cbn [closed_shell p_l0 p_l1 p_tau0 p_tau1]. rewrite L, T. cbn [omap].
  split; [eexists; reflexivity|]. split; [eexists; reflexivity|]. split; (eexists; split; [reflexivity|lra]).
Qed.
Lemma physical_scale l a g : 0 < g -> physical_pol l a -> physical_pol l (scale_args g a).
Proof.
  intros Hg. assert (P : forall n, 0 < g ^ n) by (intros n; apply pow_lt, Hg).
  assert (G : forall pos, gradient_pol pos a -> gradient_pol pos (scale_args g a)).
  { intros pos (s0 & s1 & s2 & E0 & E1 & E2 & G0 & G2 & G). exists (g ^ 8 * s0), (g ^ 8 * s1), (g ^ 8 * s2). cbn [scale_args p_s0 p_s1 p_s2]. rewrite E0, E1, E2. cbn [omap].
    repeat split; try (apply grad_scale; [apply P|assumption]).
    replace (g ^ 8 * s0 + 2 * (g ^ 8 * s1) + g ^ 8 * s2) with (g ^ 8 * (s0 + 2 * s1 + s2)) by ring. apply grad_scale; [apply P|exact G]. }
  intros (H0 & H1 & H). cbn [scale_args p_r0 p_r1]. unfold physical_pol. cbn [scale_args p_r0 p_r1].
  split; [apply Rmult_lt_0_compat; [apply P|exact H0]|]. split; [apply Rmult_lt_0_compat; [apply P|exact H1]|].
  destruct l as [|pos|pos]; [cbn [scale_args p_s0 p_s2]; destruct H as [H H']; split; apply onneg_scale; (apply P || assumption)|apply G, H|]. destruct H as (H & (l0 & L0) & (l1 & L1) & (t0 & T0 & P0) & (t1 & T1 & P1)). split; [apply G, H|].
  unfold kinetic_pol. cbn [scale_args p_l0 p_l1 p_tau0 p_tau1]. rewrite L0, L1, T0, T1. cbn [omap].
  split; [eexists; reflexivity|]. split; [eexists; reflexivity|]. split; (eexists; split; [reflexivity|]; apply Rmult_lt_0_compat; [apply P|assumption]).
Qed.
Lemma physical_up l a : physical_pol l a -> physical_unpol l (spin_up a).
Proof.
  intros (H0 & H1 & H). split; [cbn; lra|].
  assert (G : forall pos, gradient_pol pos a -> gradient_unpol pos (spin_up a)).
  { intros pos (s0 & s1 & s2 & E0 & E1 & E2 & G0 & G2 & G). exists (4 * s0). cbn [spin_up u_s]. rewrite E0. split; [reflexivity|apply grad_scale; [lra|exact G0]]. }
  destruct l as [|pos|pos]; [cbn [spin_up u_s]; apply onneg_scale; [lra|apply H]|apply G, H|]. destruct H as (H & (l0 & L0) & _ & (t0 & T0 & P0) & _). split; [apply G, H|].
  unfold kinetic_unpol. cbn [spin_up u_l u_tau]. rewrite L0, T0. split; [eexists; reflexivity|]. eexists. split; [reflexivity|lra].
Qed.
Lemma physical_down l a : physical_pol l a -> physical_unpol l (spin_down a).
Proof.
  intros H. exact (physical_up l (swap_spins a) (physical_swap l a H)).
Qed.
Lemma tf_pos r : 0 < r -> 0 < tf r.
Proof.
  intros H. unfold tf. assert (P : forall x y, 0 < Rpower x y) by (intros; apply exp_pos).
  apply Rmult_lt_0_compat; [|apply P]. apply Rmult_lt_0_compat; [lra|apply P].
Qed.
Lemma physical_uniform l r0 r1 : is_pos l = false -> 0 < r0 -> 0 < r1 -> physical_pol l (uniform_gas r0 r1).
Proof.
  intros Hl H0 H1. split; [exact H0|]. split; [exact H1|].
  assert (G : gradient_pol false (uniform_gas r0 r1)).
  { exists 0, 0, 0. cbn [uniform_gas p_s0 p_s1 p_s2]. repeat split; cbn [grad_ok]; lra. }
  destruct l as [|pos|pos]; [split; apply Rle_refl| |]; cbn [is_pos] in Hl; subst pos; [exact G|]. split; [exact G|].
  unfold kinetic_pol. cbn [uniform_gas p_l0 p_l1 p_tau0 p_tau1]. split; [eexists; reflexivity|]. split; [eexists; reflexivity|].
  split; (eexists; split; [reflexivity|apply tf_pos; assumption]).
Qed.


Section Exact.
Variables (d : domain) (f : source).
Hypothesis Dp : defined_pol d f.

Theorem swap_exact : spin_symmetric f -> spin_symmetric_exact d f.
Proof.
  intros H I A a HI HA Ha. destruct (Dp I A a HI HA Ha) as (v & Hv). destruct (Dp I A _ HI HA (physical_swap _ _ Ha)) as (w & Hw).
  exists v. split; [exact Hv|]. rewrite Hw. f_equal. symmetry. apply (H I A a (proj1 HA) (physical_ok _ _ Ha) v w Hv Hw).
Qed.
Theorem scale_exact n : scales_with n f -> scales_exact n d f.
Proof.
  intros H I A a g HI HA Ha Hg T1 T2. destruct (Dp I A a HI HA Ha) as (v & Hv). destruct (Dp I A _ HI HA (physical_scale _ _ g Hg Ha)) as (w & Hw).
  exists v. split; [exact Hv|]. rewrite Hw. f_equal. apply (H I A a g (proj1 HA) (physical_ok _ _ Ha) Hg T1 T2 v w Hv Hw).
Qed.
Theorem screen_pol_exact : screened_pol f -> screened_pol_exact d f.
Proof.
  intros H I A a t HI HA Ha Ht H0 H1. destruct (Dp I A a HI HA Ha) as (v & Hv). rewrite Hv. f_equal.
  apply (H I A a t (proj1 HA) (physical_ok _ _ Ha) Ht H0 H1 v Hv).
Qed.
Hypothesis Du : defined_unpol d f.
Theorem closed_exact : closed_shell_agrees f -> closed_shell_exact d f.
Proof.
  intros H I A u HI HA Hu. destruct (Du I A u HI HA Hu) as (v & Hv). destruct (Dp I A _ HI HA (physical_closed _ _ Hu)) as (w & Hw).
  exists v. split; [exact Hv|]. rewrite Hw. f_equal. symmetry. apply (H I A u (proj1 HA) (proj1 Hu) (physical_onneg _ _ Hu) v w Hv Hw).
Qed.
Theorem spin_exact : spin_scales f -> spin_scales_exact d f.
Proof.
  intros H I A a HI HA Ha N. destruct (Dp I A a HI HA Ha) as (e & He). destruct (Du I A _ HI HA (physical_up _ _ Ha)) as (u & Hu).
  destruct (Du I A _ HI HA (physical_down _ _ Ha)) as (w & Hw). exists e, u, w. repeat split; try assumption.
  apply (H I A a (proj1 HA) (proj1 (proj2 HA)) (physical_ok _ _ Ha) N e u w He Hu Hw).
Qed.
End Exact.
Theorem screen_unpol_exact d f : defined_unpol d f -> screened_unpol f -> screened_unpol_exact d f.
Proof.
  intros Du H I A u t HI HA Hu Ht H0. destruct (Du I A u HI HA Hu) as (v & Hv). rewrite Hv. f_equal.
  apply (H I A u t (proj1 HA) (proj1 Hu) (physical_onneg _ _ Hu) Ht H0 v Hv).
Qed.
Theorem unif_exact e d f : is_pos (d_level d) = false -> defined_pol d f -> uniform_limit e [] f -> uniform_exact e d f.
Proof.
  intros Hl Dp H I A r0 r1 HI HA H0 H1 N T. destruct (Dp I A _ HI HA (physical_uniform _ r0 r1 Hl H0 H1)) as (v & Hv).
  exists v. split; [exact Hv|]. apply (H I A r0 r1 (proj1 HA) H0 H1); try assumption. intros x q [].
Qed.

(** Choosing entries of a checked list by position. *)
Lemma Forall_pick {X Y} (P : X -> Prop) (l : list X) (sub : list Y) (g : Y -> X) idx :
  Forall P l -> map (fun y => Some (g y)) sub = map (nth_error l) idx -> Forall (fun y => P (g y)) sub.
Proof.
  intros H. revert idx. induction sub as [|y sub IH]; intros [|i idx] E; try discriminate; constructor; cbn [map] in E.
  - injection E as E _. symmetry in E. apply nth_error_In in E. rewrite Forall_forall in H. apply H, E.
  - injection E as _ E. apply (IH idx E).
Qed.
Lemma Forall_and2 {X} (P Q S : X -> Prop) l : (forall x, P x -> Q x -> S x) -> Forall P l -> Forall Q l -> Forall S l.
Proof. intros H HP HQ. induction HP; inversion HQ; constructor; auto. Qed.
