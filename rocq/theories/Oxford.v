(** The Lieb-Oxford bound on exchange (C38): no density has an exchange energy per particle below
    -1.679 n^(1/3), n being the total density.  Statement, check and soundness. *)
From Coq Require Import Reals List QArith Qreals Bool Lra Lia.
From Verif Require Import Bytes Syntax Parser PostProcess Src Ast Semantics RPow Impl ImplThm ImplThm4 Vec Deriv Records Families Interval IntervalThm IntervalThm2
  Absint AbsintThm AbsintThm2 AbsintThm3 Defined Exact Inputs Library Refute.
Import ListNotations.
Open Scope R_scope.

(** The callable, in both spin modes. *)
Definition obeys_lieb_oxford (d : domain) (f : source) : Prop :=
  forall I impl p dim rho mo, ops_ok I -> dens_threshold (fp_scal p) < 1 / 2 ->
  (record_for impl f d 1 p /\ point_unpol d p dim rho mo ->
    exists v, epsilon_xc I impl p dim rho mo = Ok (Some v) /\ - (1679 / 1000) * Rpower (f_val rho []) (1 / 3) <= v) /\
  (record_for impl f d 2 p /\ point_pol d p dim rho mo /\ unclipped p rho ->
    exists v, epsilon_xc I impl p dim rho mo = Ok (Some v) /\
    - (1679 / 1000) * Rpower (f_val rho [0%nat] + f_val rho [1%nat]) (1 / 3) <= v).
(** A record with the given parameters and a density, away from the thresholds, for which the
    callable goes below the bound. *)
Definition reading (ps : list (bstr * Q)) : domain := {| d_level := Gga false; d_pars := map (fun e => (fst e, SAny)) ps |}.
Definition exceeds_lieb_oxford (ps : list (bstr * Q)) (f : source) : Prop :=
  exists impl p rho, record_for impl f (reading ps) 2 p /\ (forall x q, qlook ps x = Some q -> attrs_of p x = Some (Q2R q)) /\
  point_pol (reading ps) p 3 rho None /\ dens_threshold (fp_scal p) < 1 / 2 /\ unscreened p rho /\ unclipped p rho /\
  forall I, ops_ok I -> exists v, epsilon_xc I impl p 3 rho None = Ok (Some v) /\
  v < - (1679 / 1000) * Rpower (f_val rho [0%nat] + f_val rho [1%nat]) (1 / 3).

(** ** Check: the unpolarized formula at density 1 is at least -1.3326 *)
Definition unit_aenv (d : domain) : aenv :=
  ("r0"%b, (AR (const one) true, Some ([1%Q], [1%Q]))) :: tl (unpol_aenv d).
Definition unit_bound (d : domain) (c : compiled) : option itv :=
  if pars_named d && ssa 0 (c_unpol c) then shown (unpol_sg (d_level d)) (unit_aenv d) (c_unpol c) else None.
Definition unit_ok (d : domain) (c : compiled) : bool :=
  match unit_bound d c with Some i => bnd_le (Bd (q_up (-6663 # 5000)) false) (lo i) | None => false end.
Definition check_oxford (p : compiled * domain) : bool :=
  unit_ok (snd p) (fst p) && is_some (bounds_pol (snd p) (fst p)) && is_some (bounds_unpol (snd p) (fst p)) && library_ok (snd p) (fst p).

Lemma unit_bound_ok d c i I A u : unit_bound d c = Some i -> ops_ok I -> params_ok A (d_pars d) ->
  physical_unpol (d_level d) u -> u_r u = 1 -> exists v, unpol (c_src c) I A u = Some v /\ inside i v.
Proof.
  intros H HI HA Ha H1. unfold unit_bound in H. destruct (pars_named d && ssa 0 (c_unpol c)) eqn:E; [|discriminate].
  apply andb_prop in E. destruct E as [En Es]. rewrite result_unpol.
  assert (Hb : headed (unpol_basis (d_level d) u)) by (destruct (d_level d); eexists; reflexivity).
  refine (shown_ok I HI (unpol_basis (d_level d) u) Hb (unpol_sg (d_level d)) (unpol_basis_sorts _ _ Ha) _ _ _ _ _ Es H).
  apply alook_ok. unfold unit_aenv, unpol_aenv. cbn [tl]. destruct Ha as (H0 & Hl).
  constructor.
  { unfold entry_ok, fine. cbn [fst snd]. change (unpol_env A u "r0"%b) with (Some (VR (u_r u))). rewrite H1. cbn [good formed]. split.
    - replace 1 with (D2R one) by apply D2R_one. apply const_ok.
    - split; cbn [fst snd]; rewrite (lone _ Hb); [lra|field]. }
  apply Forall_app. split; [|apply (pars_entries _ _ A); [intros x Hx; apply unpol_attr, Hx|exact En|exact HA]].
  assert (G : forall pos l, gradient_unpol pos u -> l = Gga pos \/ l = Mgga pos -> Forall (entry_ok (unpol_basis l u) (unpol_env A u)) (unpol_grads pos)).
  { intros pos l (s & Es' & Gs) Hl'. assert (Hb' : headed (unpol_basis l u)) by (destruct l; eexists; reflexivity).
    constructor; [|constructor]. apply (given_ok _ Hb' _ "s0" (gsort pos) 1 s); [change (opt_val (u_s u) = Some (VR s)); rewrite Es'; reflexivity|apply gsort_ok, Gs|].
    destruct Hl' as [-> | ->]; cbn; rewrite Es'; reflexivity. }
  destruct (d_level d) as [|pos|pos] eqn:L; [constructor|apply G; auto|].
  destruct Hl as (Hg & (l0 & L0) & (t & T & P)). apply Forall_app. split; [apply G; auto|].
  constructor; [|constructor; [|constructor]].
  - apply (given_ok _ Hb _ "tau0" SPos 2 t); [change (opt_val (u_tau u) = Some (VR t)); rewrite T; reflexivity|exact P|cbn; rewrite T; reflexivity].
  - apply (free_input_ok _ _ "l0" l0); change (opt_val (u_l u) = Some (VR l0)); rewrite L0; reflexivity.
Qed.
Lemma unit_sound d c : unit_ok d c = true -> forall I A u, ops_ok I -> params_ok A (d_pars d) ->
  physical_unpol (d_level d) u -> u_r u = 1 -> exists v, unpol (c_src c) I A u = Some v /\ - (6663 / 5000) <= v.
Proof.
  intros H I A u HI HA Hu H1. unfold unit_ok in H. destruct (unit_bound d c) as [i|] eqn:E; [|discriminate].
  destruct (unit_bound_ok _ _ _ I A u E HI HA Hu H1) as (v & Hv & Iv). exists v. split; [exact Hv|].
  destruct Iv as [Il _]. pose proof (q_up_ge (-6663 # 5000)) as Q. replace (Q2R (-6663 # 5000)) with (- (6663 / 5000)) in Q by (unfold Q2R; cbn; lra).
  exact (bnd_le_ok _ _ _ _ H Q Il).
Qed.

(** ** From density 1 to every density, and from closed shells to both spins *)
Definition scale_shell (g : R) (u : unpol_args) : unpol_args := {|
  u_r := g ^ 3 * u_r u; u_s := omap (fun x => g ^ 8 * x) (u_s u);
  u_l := omap (fun x => g ^ 5 * x) (u_l u); u_tau := omap (fun x => g ^ 5 * x) (u_tau u) |}.
Lemma closed_scale g u : closed_shell (scale_shell g u) = scale_args g (closed_shell u).
Proof.
  unfold closed_shell, scale_shell, scale_args. destruct u as [r s l t]. cbn [u_r u_s u_l u_tau p_r0 p_r1 p_s0 p_s1 p_s2 p_l0 p_l1 p_tau0 p_tau1].
  f_equal; try (field; fail); [destruct s|destruct s|destruct s|destruct l|destruct l|destruct t|destruct t]; cbn [omap]; try reflexivity; f_equal; field.
Qed.
Lemma physical_scale_shell l g u : 0 < g -> physical_unpol l u -> physical_unpol l (scale_shell g u).
Proof.
  intros Hg (H0 & H). assert (forall n, 0 < g ^ n) as P by (intros; apply pow_lt, Hg).
  split; [apply Rmult_lt_0_compat; [apply P|exact H0]|].
  destruct l as [|pos|pos]; cbn [scale_shell u_s u_l u_tau].
  - apply onneg_scale; [apply P|exact H].
  - destruct H as (s & Es & Gs). exists (g ^ 8 * s). split; [cbn [u_s scale_shell]; rewrite Es; reflexivity|apply grad_scale; [apply P|exact Gs]].
  - destruct H as ((s & Es & Gs) & (x & Ex) & (t & Et & Pt)). split; [|split].
    + exists (g ^ 8 * s). split; [cbn [u_s scale_shell]; rewrite Es; reflexivity|apply grad_scale; [apply P|exact Gs]].
    + exists (g ^ 5 * x). cbn [u_l scale_shell]. rewrite Ex. reflexivity.
    + exists (g ^ 5 * t). cbn [u_tau scale_shell]. rewrite Et. split; [reflexivity|apply Rmult_lt_0_compat; [apply P|exact Pt]].
Qed.
Definition root3 (x : R) : R := Rpower x (1 / 3).
Lemma root3_pos x : 0 < root3 x. Proof. apply exp_pos. Qed.
Lemma root3_cube x : 0 < x -> root3 x ^ 3 = x.
Proof.
  intros H. unfold root3. rewrite <- Rpower_pow by apply exp_pos. rewrite Rpower_mult. replace (1 / 3 * INR 3) with 1 by (cbn; lra). apply Rpower_1, H.
Qed.
Lemma root3_mono x y : 0 < x -> x <= y -> root3 x <= root3 y.
Proof. intros H L. unfold root3. apply Rle_Rpower_l; [lra|split; assumption]. Qed.
Lemma root3_mult x y : 0 < x -> 0 < y -> root3 (x * y) = root3 x * root3 y.
Proof. intros. unfold root3. symmetry. apply Rpower_mult_distr; assumption. Qed.
Lemma root3_two : root3 2 <= 125993 / 100000.
Proof.
  destruct (Rle_dec (root3 2) (125993 / 100000)) as [L|N]; [exact L|exfalso].
  assert (H : (125993 / 100000) ^ 3 < root3 2 ^ 3).
  { pose proof (root3_pos 2). assert (125993 / 100000 < root3 2) as L by lra. set (x := root3 2) in *. set (y := 125993 / 100000) in *.
    assert (0 < y) by (unfold y; lra). replace (x ^ 3) with (x * (x * x)) by ring. replace (y ^ 3) with (y * (y * y)) by ring.
    apply Rmult_le_0_lt_compat; try nra. }
  rewrite root3_cube in H by lra. lra.
Qed.

Section Oxford.
Variables (d : domain) (f : source).
Hypothesis U : usable d f.
Hypothesis Dp : defined_pol d f.
Hypothesis Du : defined_unpol d f.
Hypothesis Closed : closed_shell_agrees f.
Hypothesis Scales : scales_with 1 f.
Hypothesis Spin : spin_scales f.
Hypothesis Screened : screened_unpol f.
Hypothesis Unit : forall I A u, ops_ok I -> params_ok A (d_pars d) ->
  physical_unpol (d_level d) u -> u_r u = 1 -> exists v, unpol f I A u = Some v /\ - (6663 / 5000) <= v.

Lemma shell_bound I A u t : ops_ok I -> params_ok A (d_pars d) -> A "p.dens_threshold"%b = Some t -> t < 1 / 2 ->
  physical_unpol (d_level d) u -> exists v, unpol f I A u = Some v /\ - (6663 / 5000) * root3 (u_r u) <= v.
Proof.
  intros HI HA Ht Hh Hu. destruct (Du I A u HI HA Hu) as (v & Hv). exists v. split; [exact Hv|].
  pose proof (proj1 Hu) as Hr. pose proof (root3_pos (u_r u)) as Hp.
  destruct (Rle_dec (u_r u / 2) t) as [L|N].
  { rewrite (Screened I A u t (proj1 HA) Hr (physical_onneg _ _ Hu) Ht L v Hv). lra. }
  pose proof (Rinv_0_lt_compat _ Hp) as Hg. set (g := / root3 (u_r u)) in *.
  assert (G3 : g ^ 3 * u_r u = 1).
  { unfold g. rewrite pow_inv. rewrite root3_cube by exact Hr. field. lra. }
  pose proof (physical_scale_shell _ g _ Hg Hu) as Hs.
  destruct (Unit I A _ HI HA Hs G3) as (w & Hw & B).
  destruct (Dp I A _ HI HA (physical_closed _ _ Hu)) as (v' & Hv').
  destruct (Dp I A _ HI HA (physical_closed _ _ Hs)) as (w' & Hw').
  assert (v = v') by exact (Closed I A u (proj1 HA) Hr (physical_onneg _ _ Hu) _ _ Hv Hv').
  assert (w = w') by exact (Closed I A _ (proj1 HA) (proj1 Hs) (physical_onneg _ _ Hs) _ _ Hw Hw').
  subst v' w'. rewrite closed_scale in Hw'.
  assert (E : w = g ^ 1 * v).
  { refine (Scales I A _ g (proj1 HA) (physical_ok _ _ (physical_closed _ _ Hu)) Hg _ _ _ _ Hv' Hw').
    - exists t. cbn [closed_shell p_r0 p_r1]. split; [exact Ht|lra].
    - exists t. cbn [scale_args closed_shell p_r0 p_r1]. split; [exact Ht|]. replace (g ^ 3 * (u_r u / 2)) with (1 / 2) by lra. lra. }
  rewrite pow_1 in E. replace v with (root3 (u_r u) * w) by (rewrite E; unfold g; field; lra). nra.
Qed.

Lemma spins_bound I A a t : ops_ok I -> params_ok A (d_pars d) -> A "p.dens_threshold"%b = Some t -> t < 1 / 2 ->
  physical_pol (d_level d) a -> not_clipped A a ->
  exists v, pol f I A a = Some v /\ - (1679 / 1000) * root3 (p_r0 a + p_r1 a) <= v.
Proof.
  intros HI HA Ht Hh Ha N. destruct (Dp I A a HI HA Ha) as (v & Hv). exists v. split; [exact Hv|].
  destruct (shell_bound I A _ t HI HA Ht Hh (physical_up _ _ Ha)) as (e0 & E0 & B0).
  destruct (shell_bound I A _ t HI HA Ht Hh (physical_down _ _ Ha)) as (e1 & E1 & B1).
  pose proof (Spin I A a (proj1 HA) (ex_intro _ t Ht) (physical_ok _ _ Ha) N v e0 e1 Hv E0 E1) as S.
  destruct Ha as (P0 & P1 & _). cbn [spin_up spin_down u_r] in B0, B1.
  set (n := p_r0 a + p_r1 a) in *. assert (Pn : 0 < n) by (unfold n; lra).
  assert (M : forall r, 0 < r -> r <= n -> root3 (2 * r) <= 125993 / 100000 * root3 n).
  { intros r Hr Hn. rewrite root3_mult by lra. pose proof (root3_mono r n Hr Hn). pose proof root3_two. pose proof (root3_pos r). pose proof (root3_pos 2). nra. }
  pose proof (M (p_r0 a) P0 ltac:(unfold n; lra)) as M0. pose proof (M (p_r1 a) P1 ltac:(unfold n; lra)) as M1. pose proof (root3_pos n) as Q.
  assert (C0 : - (1679 / 1000) * root3 n <= e0) by lra. assert (C1 : - (1679 / 1000) * root3 n <= e1) by lra.
  apply (Rmult_le_reg_l n); [exact Pn|]. rewrite S. unfold n at 1. nra.
Qed.

Theorem oxford_library : obeys_lieb_oxford d f.
Proof.
  intros I impl p dim rho mo HI Ht. change (dens_threshold (fp_scal p)) with (dens_threshold (fp_scal p)) in Ht.
  split.
  - intros [R P]. rewrite (eval_unpol d f U I impl p dim rho mo R (proj1 P)).
    destruct (shell_bound I _ _ (dens_threshold (fp_scal p)) HI (proj2 (proj2 (proj2 R))) eq_refl Ht
      (point_unpol_physical d p dim rho mo (level_of d f U _ _ _ R) P)) as (v & Hv & Hn).
    assert (E : u_r (unpol_at (fp_type p) dim rho mo) = f_val rho []) by reflexivity. rewrite E in Hn. fold (root3 (f_val rho [])).
    pose proof (root3_pos (f_val rho [])).
    destruct (Rlt_dec _ _); [exists 0; split; [reflexivity|lra]|exists v; rewrite Hv; split; [reflexivity|lra]].
  - intros (R & P & N). rewrite (eval_pol d f U I impl p dim rho mo R (proj1 P)).
    destruct (spins_bound I _ _ (dens_threshold (fp_scal p)) HI (proj2 (proj2 (proj2 R))) eq_refl Ht
      (point_pol_physical d p dim rho mo (level_of d f U _ _ _ R) P) (clip p _ dim rho mo N)) as (v & Hv & Hn).
    assert (E : p_r0 (pol_at (fp_type p) dim rho mo) + p_r1 (pol_at (fp_type p) dim rho mo) = f_val rho [0%nat] + f_val rho [1%nat]) by reflexivity.
    rewrite E in Hn. fold (root3 (f_val rho [0%nat] + f_val rho [1%nat])). pose proof (root3_pos (f_val rho [0%nat] + f_val rho [1%nat])).
    destruct (Rlt_dec _ _); [exists 0; split; [reflexivity|lra]|exists v; rewrite Hv; split; [reflexivity|lra]].
Qed.
End Oxford.

Theorem oxford_sound p : check_oxford p = true -> closed_shell_agrees (c_src (fst p)) -> scales_with 1 (c_src (fst p)) ->
  spin_scales (c_src (fst p)) -> screened_unpol (c_src (fst p)) -> obeys_lieb_oxford (snd p) (c_src (fst p)).
Proof.
  intros H. apply andb_prop in H. destruct H as [H L]. apply andb_prop in H. destruct H as [H Du]. apply andb_prop in H. destruct H as [Hu Dp].
  intros C Sc Sp Sr. apply oxford_library; try assumption.
  - exact (library_sound _ _ L).
  - exact (defined_pol_sound _ _ Dp).
  - exact (defined_unpol_sound _ _ Du).
  - exact (unit_sound _ _ Hu).
Qed.



(** ** Refutation: spin densities 49/50 and 1/50 with orthogonal gradients of lengths [k] and 1 *)
Definition strong_scalars : scalars := {|
  cam_omega := 0; cam_alpha := 0; cam_beta := 0; nlc_b := 0; nlc_C := 0;
  dens_threshold := / 1000; zeta_threshold := / 1000; sigma_threshold := / 1000; tau_threshold := / 1000 |}.
Definition strong_record (ps : qlist) (f : source) : func_p :=
  FuncP (src_name f) "gga" 2 (src_name f) strong_scalars (fun y => qget ps ("params."%b +++ y)) None None.
Definition strong_impl (f : source) : modules := fun n => if beqb n (src_name f) then Some f else None.
Definition strong_field (k : Q) : field R := Field [2%nat]
  (fun ix => match ix with [0%nat] => 49 / 50 | _ => 1 / 50 end)
  (fun ix => match ix with [0%nat] => fun i => match i with 0%nat => Q2R k | _ => 0 end | _ => fun i => match i with 1%nat => 1 | _ => 0 end end)
  (fun _ _ _ => 0).
Definition strong_ps : qlist := [("p.dens_threshold"%b, (1 # 1000)%Q); ("p.zeta_threshold"%b, (1 # 1000)%Q)].
Definition strong_xs (k : Q) : qlist :=
  [("r0"%b, (49 # 50)%Q); ("r1"%b, (1 # 50)%Q); ("s0"%b, (k * k)%Q); ("s1"%b, 0%Q); ("s2"%b, 1%Q)].
Definition is_param (x : bstr) : bool := match bstrip "params." x with Some _ => true | None => false end.
Definition maple_named (n : bstr) : bool := negb (beqb n "") && negb (beqb n DEORBITALIZE).
Definition refute_oxford {S : setting} (ps : qlist) (k : Q) (c : compiled) : bool :=
  library_ok (reading ps) c && match name_to_type (src_name (c_src c)) with Ok t => beqb t "gga" | Err _ => false end &&
  maple_named (src_name (c_src c)) && forallb (fun e => is_param (fst e)) ps &&
  match at_pol (strong_ps ++ ps) (strong_xs k) c with Some i => bnd_lt (hi i) (Bd (q_dn (-1679 # 1000)) false) | None => false end.

Lemma strong_point k : pol_at "gga" 3 (strong_field k) None = q_pol (strong_xs k).
Proof.
  unfold pol_at, q_pol, qval, qget. cbn. rewrite Q2R_mult. set (x := Q2R k).
  assert (E0 : Q2R (49 # 50) = 49 / 50) by (unfold Q2R; cbn; lra). assert (E1 : Q2R (1 # 50) = 1 / 50) by (unfold Q2R; cbn; lra).
  rewrite E0, E1, Q2R_0, Q2R_1. f_equal; f_equal; ring.
Qed.
(** [at_pol] bounds the value for all attributes that agree with the given ones. *)
Lemma at_pol_any {S : setting} {K : pi_known} ps xs c i I A : at_pol ps xs c = Some i -> ops_ok I ->
  (forall x q, qlook ps x = Some q -> A x = Some (Q2R q)) -> exists v, pol (c_src c) I A (q_pol xs) = Some v /\ inside i v.
Proof.
  intros H HI HA. unfold at_pol in H. destruct (_ && _ && _) eqn:E in H; [|discriminate].
  apply andb_prop in E. destruct E as [E Es]. apply andb_prop in E. destruct E as [Ep Ex]. rewrite result_pol.
  refine (shown_ok I HI [1] headed1 [SPos] sorts1 _ _ _ _ _ Es H). apply point_env_ok.
  intros x q Hq. rewrite qlook_app in Hq. destruct (qlook ps x) as [q'|] eqn:Eq.
  - injection Hq as ->. pose proof (name_at _ _ _ Ep Eq) as N. rewrite pol_attr by exact N. rewrite (HA _ _ Eq). reflexivity.
  - pose proof (arg_at _ _ _ _ Ex Hq) as N. unfold pol_names in N. cbn [In] in N.
    repeat destruct N as [N|N]; try contradiction; subst x; unfold pol_env, q_pol; cbn [p_r0 p_r1 p_s0 p_s1 p_s2 p_l0 p_l1 p_tau0 p_tau1];
      cbn -[qval qget]; rewrite ?(qval_ok _ _ _ Hq), ?(qget_ok _ _ _ Hq); reflexivity.
Qed.
Lemma param_attr ps f x : is_param x = true -> attrs_of (strong_record ps f) x = qget ps x.
Proof.
  unfold is_param, attrs_of. destruct (bstrip "params." x) as [y|] eqn:E; [|discriminate]. intros _. apply bstrip_app in E. subst x. reflexivity.
Qed.
Lemma strong_attrs ps f : forallb (fun e => is_param (fst e)) ps = true ->
  forall x q, qlook (strong_ps ++ ps) x = Some q -> attrs_of (strong_record ps f) x = Some (Q2R q).
Proof.
  intros N x q H. rewrite qlook_app in H. unfold strong_ps in H. cbn [qlook] in H.
  destruct (beqb x "p.dens_threshold") eqn:E1.
  { apply beqb_eq in E1. subst x. injection H as <-. change (Some (/ 1000) = Some (Q2R (1 # 1000))). f_equal. unfold Q2R. cbn. lra. }
  destruct (beqb x "p.zeta_threshold") eqn:E2.
  { apply beqb_eq in E2. subst x. injection H as <-. change (Some (/ 1000) = Some (Q2R (1 # 1000))). f_equal. unfold Q2R. cbn. lra. }
  rewrite param_attr; [exact (qget_ok _ _ _ H)|]. destruct (qlook_in _ _ _ H) as (e & He & <-). rewrite forallb_forall in N. exact (N e He).
Qed.
Lemma qlook_some (ps : qlist) x q : In (x, q) ps -> exists q', qlook ps x = Some q'.
Proof.
  induction ps as [|[y r] ps IH]; [intros []|]. cbn [qlook]. intros [E|H].
  - injection E as <- <-. rewrite beqb_refl. eauto.
  - destruct (beqb x y); eauto.
Qed.
Theorem refute_oxford_sound {S : setting} {K : pi_known} ps k c : refute_oxford ps k c = true -> exceeds_lieb_oxford ps (c_src c).
Proof.
  unfold refute_oxford. intros H. apply andb_prop in H. destruct H as [H Hb]. apply andb_prop in H. destruct H as [H Hp].
  apply andb_prop in H. destruct H as [H Hn]. apply andb_prop in H. destruct H as [Hl Ht]. pose proof (library_sound _ _ Hl) as U.
  set (f := c_src c) in *. exists (strong_impl f), (strong_record ps f), (strong_field k).
  destruct (name_to_type (src_name f)) as [t|e] eqn:T; [|discriminate]. apply beqb_eq in Ht. subst t.
  assert (A2 : forall x q, qlook (strong_ps ++ ps) x = Some q -> attrs_of (strong_record ps f) x = Some (Q2R q)) by exact (strong_attrs _ f Hp).
  assert (A1 : forall x q, qlook ps x = Some q -> attrs_of (strong_record ps f) x = Some (Q2R q)).
  { intros x q Hq. destruct (qlook_in _ _ _ Hq) as (e & He & <-). rewrite forallb_forall in Hp. rewrite param_attr by exact (Hp e He). exact (qget_ok _ _ _ Hq). }
  assert (R : record_for (strong_impl f) f (reading ps) 2 (strong_record ps f)).
  { unfold maple_named in Hn. apply andb_prop in Hn. destruct Hn as [N1 N2]. apply negb_true_iff in N1, N2. split; [|split; [exact T|split; [reflexivity|]]].
    - split; [exact (proj1 (beqb_neq _ _) N1)|]. split; [exact (proj1 (beqb_neq _ _) N2)|]. unfold strong_impl. cbn [fp_maple strong_record]. rewrite beqb_refl. reflexivity.
    - split; [exists (/ 1000); split; [reflexivity|lra]|]. split; [exists (/ 1000); reflexivity|].
      intros x s Hx. cbn [reading d_pars] in Hx. apply in_map_iff in Hx. destruct Hx as ([y q] & E & Hy). cbn [fst] in E. injection E as -> <-.
      destruct (qlook_some _ _ _ Hy) as (q' & Hq). exists (Q2R q'). split; [exact (A1 _ _ Hq)|exact Logic.I]. }
  assert (W : well_formed (strong_record ps f) (strong_field k) None).
  { split; [discriminate|]. split; [reflexivity|discriminate]. }
  assert (P : point_pol (reading ps) (strong_record ps f) 3 (strong_field k) None).
  { split; [exact W|]. split; [cbn; lra|]. split; [cbn; lra|]. split; discriminate. }
  split; [exact R|]. split; [exact A1|]. split; [exact P|]. split; [cbn; lra|]. split; [split; cbn; lra|]. split; [split; cbn; lra|].
  intros I HI. rewrite (eval_pol _ _ U I _ _ 3%nat _ None R W). destruct (at_pol _ _ c) as [i|] eqn:E in Hb; [|discriminate].
  destruct (at_pol_any _ _ _ _ I _ E HI A2) as (v & Hv & Iv). exists v. split.
  - destruct (Rlt_dec _ _) as [L|_]; [exfalso; cbn in L; lra|]. rewrite strong_point. f_equal. exact Hv.
  - replace (f_val (strong_field k) [0%nat] + f_val (strong_field k) [1%nat]) with 1 by (cbn; lra). rewrite Rpower_1_l.
    destruct Iv as [_ Iv]. pose proof (q_dn_le (-1679 # 1000)) as Q. replace (Q2R (-1679 # 1000)) with (- (1679 / 1000)) in Q by (unfold Q2R; cbn; lra).
    assert (v < D2R (q_dn (-1679 # 1000))); [|lra]. exact (bnd_lt_ok _ _ _ _ Hb Iv (Rle_refl _)).
Qed.
