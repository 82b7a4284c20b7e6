(** Statements about the generated functions [pol] and [unpol] of a functional, and
    their reduction to a run of the equality checker.  The statements use only the
    semantics of Semantics.v. *)
From Coq Require Import Reals List Bool NArith ZArith QArith Qreals Lra Lia.
From Verif Require Import Bytes Syntax Parser PostProcess Src Ast Semantics RPow Norm NormSound NormCheck NormThm Problems.
Import ListNotations.
Open Scope R_scope.

Definition omap (f : R -> R) (o : option R) : option R :=
  match o with Some x => Some (f x) | None => None end.
Definition onneg (o : option R) : Prop := match o with Some x => 0 <= x | None => True end.

(** The zeta threshold lies strictly between 0 and 1. *)
Definition zeta_ok (A : attrs) : Prop := exists z, A "p.zeta_threshold"%b = Some z /\ 0 < z < 1.

(** ** Statements *)

(** The closed-shell point: the density and tau are split evenly over the two spin
    channels. *)
Definition closed_shell (u : unpol_args) : pol_args := {|
  p_r0 := u_r u / 2; p_r1 := u_r u / 2;
  p_s0 := omap (fun x => x / 4) (u_s u); p_s1 := omap (fun x => x / 4) (u_s u);
  p_s2 := omap (fun x => x / 4) (u_s u);
  p_l0 := omap (fun x => x / 2) (u_l u); p_l1 := omap (fun x => x / 2) (u_l u);
  p_tau0 := omap (fun x => x / 2) (u_tau u); p_tau1 := omap (fun x => x / 2) (u_tau u) |}.
Definition closed_shell_agrees (f : source) : Prop :=
  forall I A u, zeta_ok A -> 0 < u_r u -> onneg (u_s u) ->
  forall v w, unpol f I A u = Some v -> pol f I A (closed_shell u) = Some w -> v = w.

Definition swap_spins (a : pol_args) : pol_args := {|
  p_r0 := p_r1 a; p_r1 := p_r0 a; p_s0 := p_s2 a; p_s1 := p_s1 a; p_s2 := p_s0 a;
  p_l0 := p_l1 a; p_l1 := p_l0 a; p_tau0 := p_tau1 a; p_tau1 := p_tau0 a |}.
Definition pol_ok (a : pol_args) : Prop :=
  0 < p_r0 a /\ 0 < p_r1 a /\ onneg (p_s0 a) /\ onneg (p_s2 a).
Definition spin_symmetric (f : source) : Prop :=
  forall I A a, zeta_ok A -> pol_ok a ->
  forall v w, pol f I A a = Some v -> pol f I A (swap_spins a) = Some w -> v = w.

(** Scaling the coordinates by [g]. *)
Definition scale_args (g : R) (a : pol_args) : pol_args := {|
  p_r0 := g ^ 3 * p_r0 a; p_r1 := g ^ 3 * p_r1 a;
  p_s0 := omap (fun x => g ^ 8 * x) (p_s0 a); p_s1 := omap (fun x => g ^ 8 * x) (p_s1 a);
  p_s2 := omap (fun x => g ^ 8 * x) (p_s2 a);
  p_l0 := omap (fun x => g ^ 5 * x) (p_l0 a); p_l1 := omap (fun x => g ^ 5 * x) (p_l1 a);
  p_tau0 := omap (fun x => g ^ 5 * x) (p_tau0 a); p_tau1 := omap (fun x => g ^ 5 * x) (p_tau1 a) |}.
Definition above_threshold (A : attrs) (a : pol_args) : Prop :=
  exists d, A "p.dens_threshold"%b = Some d /\ d < p_r0 a /\ d < p_r1 a.
Definition scales_with (n : nat) (f : source) : Prop :=
  forall I A a g, zeta_ok A -> pol_ok a -> 0 < g ->
  above_threshold A a -> above_threshold A (scale_args g a) ->
  forall v w, pol f I A a = Some v -> pol f I A (scale_args g a) = Some w -> w = g ^ n * v.

(** Neither relative spin density is clipped by the zeta threshold. *)
Definition not_clipped (A : attrs) (a : pol_args) : Prop :=
  forall z, A "p.zeta_threshold"%b = Some z ->
  z < 2 * p_r0 a / (p_r0 a + p_r1 a) /\ z < 2 * p_r1 a / (p_r0 a + p_r1 a).
Definition spin_up (a : pol_args) : unpol_args := {|
  u_r := 2 * p_r0 a; u_s := omap (fun x => 4 * x) (p_s0 a);
  u_l := omap (fun x => 2 * x) (p_l0 a); u_tau := omap (fun x => 2 * x) (p_tau0 a) |}.
Definition spin_down (a : pol_args) : unpol_args := {|
  u_r := 2 * p_r1 a; u_s := omap (fun x => 4 * x) (p_s2 a);
  u_l := omap (fun x => 2 * x) (p_l1 a); u_tau := omap (fun x => 2 * x) (p_tau1 a) |}.
Definition spin_scales (f : source) : Prop :=
  forall I A a, zeta_ok A -> (exists d, A "p.dens_threshold"%b = Some d) -> pol_ok a -> not_clipped A a ->
  forall e u d, pol f I A a = Some e -> unpol f I A (spin_up a) = Some u -> unpol f I A (spin_down a) = Some d ->
  (p_r0 a + p_r1 a) * e = (2 * p_r0 a * u + 2 * p_r1 a * d) / 2.

(** Screening of small densities. *)
Definition screened_pol (f : source) : Prop :=
  forall I A a d, zeta_ok A -> pol_ok a -> A "p.dens_threshold"%b = Some d -> p_r0 a <= d -> p_r1 a <= d ->
  forall v, pol f I A a = Some v -> v = 0.
Definition screened_unpol (f : source) : Prop :=
  forall I A u d, zeta_ok A -> 0 < u_r u -> onneg (u_s u) -> A "p.dens_threshold"%b = Some d -> u_r u / 2 <= d ->
  forall v, unpol f I A u = Some v -> v = 0.

(** A uniform gas with spin densities [r0] and [r1]: no gradient, no Laplacian, and the
    Thomas-Fermi kinetic energy density in each channel. *)
Definition tf (r : R) : R := 3 / 10 * Rpower (6 * PI ^ 2) (2 / 3) * Rpower r (5 / 3).
Definition uniform_gas (r0 r1 : R) : pol_args := {|
  p_r0 := r0; p_r1 := r1; p_s0 := Some 0; p_s1 := Some 0; p_s2 := Some 0;
  p_l0 := Some 0; p_l1 := Some 0; p_tau0 := Some (tf r0); p_tau1 := Some (tf r1) |}.
Definition slater_energy (r0 r1 : R) : R :=
  - (3 / 2) * Rpower (3 / (4 * PI)) (1 / 3) * (Rpower r0 (4 / 3) + Rpower r1 (4 / 3)).
Definition tf_energy (r0 r1 : R) : R := tf r0 + tf r1.
Definition has_params (A : attrs) (pars : list (bstr * Q)) : Prop :=
  forall x q, In (x, q) pars -> A x = Some (Q2R q).
(** The energy per volume at the uniform gas is [e r0 r1], the parameters [pars] having the
    given values and the others any value. *)
Definition uniform_limit (e : R -> R -> R) (pars : list (bstr * Q)) (f : source) : Prop :=
  forall I A r0 r1, zeta_ok A -> 0 < r0 -> 0 < r1 -> has_params A pars ->
  not_clipped A (uniform_gas r0 r1) -> above_threshold A (uniform_gas r0 r1) ->
  forall v, pol f I A (uniform_gas r0 r1) = Some v -> (r0 + r1) * v = e r0 r1.

(** ** Environments as base valuations *)
Definition as_attrs (e : env) : attrs := fun x => match e x with Some (VR r) => Some r | _ => None end.

Lemma bind_args_real l A : (forall x v, A x = Some v -> exists r, v = VR r) ->
  forall x v, bind_args l A x = Some v -> exists r, v = VR r.
Proof.
  intros HA. induction l as [|[y o] l IH]; simpl; [exact HA|]. intros x v. unfold upd.
  destruct (beqb x y); [|apply IH]. destruct o as [r|]; simpl; intros H; [|discriminate].
  injection H as <-. eauto.
Qed.
Lemma attr_env_real A x v : attr_env A x = Some v -> exists r, v = VR r.
Proof.
  unfold attr_env. destruct (attr_name x); [|discriminate]. unfold opt_val.
  destruct (A x) as [r|]; [|discriminate]. intros H. injection H as <-. eauto.
Qed.
Lemma base_as_attrs e : (forall x v, e x = Some v -> exists r, v = VR r) ->
  forall x, base_env (as_attrs e) x = e x.
Proof.
  intros H x. unfold base_env, as_attrs. destruct (e x) as [v|] eqn:E; [|reflexivity].
  destruct (H x v E) as [r ->]. reflexivity.
Qed.
Lemma base_pol A a x : base_env (as_attrs (pol_env A a)) x = pol_env A a x.
Proof. apply base_as_attrs. intros y v. apply bind_args_real. apply attr_env_real. Qed.
Lemma base_unpol A a x : base_env (as_attrs (unpol_env A a)) x = unpol_env A a x.
Proof. apply base_as_attrs. intros y v. apply bind_args_real. apply attr_env_real. Qed.

(** Evaluation depends on the environment pointwise. *)
Lemma eval_env I e1 e2 e : (forall x, e1 x = e2 x) -> eval I e1 e = eval I e2 e.
Proof.
  intros H. induction e; cbn [eval]; try rewrite ?IHe, ?IHe1, ?IHe2, ?IHe3; try reflexivity. apply H.
Qed.
Lemma result_pol c I A a : pol (c_src c) I A a = result I (pol_env A a) (c_pol c).
Proof. unfold pol, run_text. rewrite (c_pol_ok c). reflexivity. Qed.
Lemma result_unpol c I A a : unpol (c_src c) I A a = result I (unpol_env A a) (c_unpol c).
Proof. unfold unpol, run_text. rewrite (c_unpol_ok c). reflexivity. Qed.

Lemma Q2R_int z : Q2R (z # 1) = IZR z.
Proof. unfold Q2R; simpl. lra. Qed.
Lemma Q2R_half : Q2R (1 # 2) = / 2. Proof. unfold Q2R; simpl. lra. Qed.
Lemma Q2R_quarter : Q2R (1 # 4) = / 4. Proof. unfold Q2R; simpl. lra. Qed.

(** Case analysis on which argument a name is. *)
Ltac name_cases x :=
  repeat match goal with
  | H : context [beqb x ?n] |- _ =>
      let E := fresh "E" in destruct (beqb x n) eqn:E; [apply beqb_eq in E; subst x|]
  | |- context [beqb x ?n] =>
      let E := fresh "E" in destruct (beqb x n) eqn:E; [apply beqb_eq in E; subst x|]
  end.

Lemma Rleb_gt x y : y < x -> Rleb x y = false.
Proof. intros H. unfold Rleb. destruct (Rle_dec x y); [lra|reflexivity]. Qed.
Lemma Rleb_le x y : x <= y -> Rleb x y = true.
Proof. intros H. unfold Rleb. destruct (Rle_dec x y); [reflexivity|lra]. Qed.

Lemma zt_small_ok I (e : env) z : e "p.zeta_threshold"%b = Some (VR z) -> z < 1 ->
  forall c b, In (c, b) zt_small -> eval I e c = Some (VB b).
Proof.
  intros He Hz c b [H|[H|[]]]; injection H as <- <-; cbn [eval num zt]; rewrite He, Q2R_int; cbn [cmp_sem];
    rewrite Rleb_gt by lra; reflexivity.
Qed.
Lemma clipped_eval I (e : env) x z r0 r1 rx :
  e "p.zeta_threshold"%b = Some (VR z) -> e "r0"%b = Some (VR r0) -> e "r1"%b = Some (VR r1) -> e x = Some (VR rx) ->
  r0 + r1 <> 0 ->
  eval I e (clipped x) = Some (VB (Rleb (2 * rx / (r0 + r1)) z)).
Proof.
  intros Hz H0 H1 Hx Hn. unfold clipped, num, zt. cbn [eval]. rewrite Hz, H0, H1, Hx, Q2R_int. cbn [lift2].
  destruct (Req_EM_T (r0 + r1) 0); [contradiction|]. reflexivity.
Qed.

Lemma pol_env_zt A a z : A "p.zeta_threshold"%b = Some z -> pol_env A a "p.zeta_threshold"%b = Some (VR z).
Proof.
  intros H. transitivity (attr_env A "p.zeta_threshold"%b); [reflexivity|].
  unfold attr_env. simpl. rewrite H. reflexivity.
Qed.
Lemma unpol_env_zt A a z : A "p.zeta_threshold"%b = Some z -> unpol_env A a "p.zeta_threshold"%b = Some (VR z).
Proof.
  intros H. transitivity (attr_env A "p.zeta_threshold"%b); [reflexivity|].
  unfold attr_env. simpl. rewrite H. reflexivity.
Qed.
Lemma pol_env_dt A a z : A "p.dens_threshold"%b = Some z -> pol_env A a "p.dens_threshold"%b = Some (VR z).
Proof.
  intros H. transitivity (attr_env A "p.dens_threshold"%b); [reflexivity|].
  unfold attr_env. simpl. rewrite H. reflexivity.
Qed.
Lemma unpol_env_dt A a z : A "p.dens_threshold"%b = Some z -> unpol_env A a "p.dens_threshold"%b = Some (VR z).
Proof.
  intros H. transitivity (attr_env A "p.dens_threshold"%b); [reflexivity|].
  unfold attr_env. simpl. rewrite H. reflexivity.
Qed.

(** The flags of a base environment given by arguments. *)
Lemma unpol_flags_ok A u z : A "p.zeta_threshold"%b = Some z -> 0 < z -> 0 < u_r u -> onneg (u_s u) ->
  forall x r, as_attrs (unpol_env A u) x = Some r -> fholds (vflag_of unpol_flags x) r.
Proof.
  intros Hz Hz0 Hr Hs x r H. unfold vflag_of, unpol_flags, zt_flag. cbn [find fst].
  destruct (beqb x "r0") eqn:E0; [|destruct (beqb x "s0") eqn:E1; [|destruct (beqb x "p.zeta_threshold") eqn:E2]];
    [apply beqb_eq in E0|apply beqb_eq in E1|apply beqb_eq in E2|]; try subst x; cbn [fholds].
  - cbv in H. injection H as <-. exact Hr.
  - unfold as_attrs in H. change (unpol_env A u "s0"%b) with (opt_val (u_s u)) in H.
    destruct (u_s u) as [s|]; [|discriminate]. injection H as <-. exact Hs.
  - unfold as_attrs in H. rewrite (unpol_env_zt _ _ _ Hz) in H. injection H as <-. exact Hz0.
  - exact Logic.I.
Qed.
Lemma pol_flags_ok A a z : A "p.zeta_threshold"%b = Some z -> 0 < z -> pol_ok a ->
  forall x r, as_attrs (pol_env A a) x = Some r -> fholds (vflag_of pol_flags x) r.
Proof.
  intros Hz Hz0 (Hr0 & Hr1 & Hs0 & Hs2) x r H. unfold vflag_of, pol_flags, zt_flag. cbn [find fst].
  destruct (beqb x "r0") eqn:E0; [apply beqb_eq in E0; subst x; cbv in H; injection H as <-; exact Hr0|].
  destruct (beqb x "r1") eqn:E1; [apply beqb_eq in E1; subst x; cbv in H; injection H as <-; exact Hr1|].
  destruct (beqb x "s0") eqn:E2.
  { apply beqb_eq in E2; subst x. unfold as_attrs in H. change (pol_env A a "s0"%b) with (opt_val (p_s0 a)) in H.
    destruct (p_s0 a) as [s|]; [|discriminate]. injection H as <-. exact Hs0. }
  destruct (beqb x "s2") eqn:E3.
  { apply beqb_eq in E3; subst x. unfold as_attrs in H. change (pol_env A a "s2"%b) with (opt_val (p_s2 a)) in H.
    destruct (p_s2 a) as [s|]; [|discriminate]. injection H as <-. exact Hs2. }
  destruct (beqb x "p.zeta_threshold") eqn:E4; [|exact Logic.I].
  apply beqb_eq in E4; subst x. unfold as_attrs in H. rewrite (pol_env_zt _ _ _ Hz) in H. injection H as <-. exact Hz0.
Qed.

(** A run with the base inputs themselves. *)
Lemma init_ok_same I B e : (forall x, base_env B x = e x) -> init_ok I B [] e.
Proof. intros H x v Hv. simpl. rewrite H. exact Hv. Qed.

(** An input that is a multiple of a base input. *)
Lemma eval_scaled I (e : env) (k : expr) c x o f v :
  eval I e k = Some (VR c) -> e x = opt_val o -> (forall r, f r = c * r) ->
  opt_val (omap f o) = Some v -> eval I e (EMul k (EVar x)) = Some v.
Proof.
  intros Hk Hx Hf Hv. cbn [eval]. rewrite Hk, Hx. destruct o as [r|]; [|discriminate].
  simpl in *. rewrite Hf in Hv. exact Hv.
Qed.
Lemma eval_half I e : eval I e half = Some (VR (/ 2)).
Proof. cbn. rewrite Q2R_half. reflexivity. Qed.
Lemma eval_quarter I e : eval I e quarter = Some (VR (/ 4)).
Proof. cbn. rewrite Q2R_quarter. reflexivity. Qed.
Lemma eval_num I e z : eval I e (num z) = Some (VR (IZR z)).
Proof. unfold num. cbn [eval]. rewrite Q2R_int. reflexivity. Qed.

Ltac run_cases :=
  match goal with H : In ?r _ |- _ =>
    repeat (destruct H as [<-|H]; [|]); [..|destruct H] end.

(** *** C01 *)
Lemma closed_shell_init_ok I A u :
  init_ok I (as_attrs (unpol_env A u)) closed_shell_init (pol_env A (closed_shell u)).
Proof.
  intros x v Hv. unfold closed_shell_init. cbn [assoc].
  assert (Hb := base_unpol A u). set (e := base_env (as_attrs (unpol_env A u))) in *.
  unfold pol_env in Hv. cbn [bind_args] in Hv. unfold upd in Hv.
  assert (Hr0 : e "r0"%b = opt_val (Some (u_r u))) by (rewrite Hb; reflexivity).
  assert (Hs0 : e "s0"%b = opt_val (u_s u)) by (rewrite Hb; reflexivity).
  assert (Hl0 : e "l0"%b = opt_val (u_l u)) by (rewrite Hb; reflexivity).
  assert (Ht0 : e "tau0"%b = opt_val (u_tau u)) by (rewrite Hb; reflexivity).
  destruct (beqb x "r0") eqn:E0; [eapply eval_scaled with (f := fun r => r / 2); [apply eval_half|exact Hr0|intros; lra|exact Hv]|].
  destruct (beqb x "r1") eqn:E1; [eapply eval_scaled with (f := fun r => r / 2); [apply eval_half|exact Hr0|intros; lra|exact Hv]|].
  destruct (beqb x "s0") eqn:E2; [eapply eval_scaled with (f := fun r => r / 4); [apply eval_quarter|exact Hs0|intros; lra|exact Hv]|].
  destruct (beqb x "s1") eqn:E3; [eapply eval_scaled with (f := fun r => r / 4); [apply eval_quarter|exact Hs0|intros; lra|exact Hv]|].
  destruct (beqb x "s2") eqn:E4; [eapply eval_scaled with (f := fun r => r / 4); [apply eval_quarter|exact Hs0|intros; lra|exact Hv]|].
  destruct (beqb x "l0") eqn:E5; [eapply eval_scaled with (f := fun r => r / 2); [apply eval_half|exact Hl0|intros; lra|exact Hv]|].
  destruct (beqb x "l1") eqn:E6; [eapply eval_scaled with (f := fun r => r / 2); [apply eval_half|exact Hl0|intros; lra|exact Hv]|].
  destruct (beqb x "tau0") eqn:E7; [eapply eval_scaled with (f := fun r => r / 2); [apply eval_half|exact Ht0|intros; lra|exact Hv]|].
  destruct (beqb x "tau1") eqn:E8; [eapply eval_scaled with (f := fun r => r / 2); [apply eval_half|exact Ht0|intros; lra|exact Hv]|].
  rewrite Hb. unfold unpol_env. cbn [bind_args]. unfold upd. rewrite E0, E2, E5, E7. exact Hv.
Qed.

Theorem closed_shell_sound k c : check (pb_closed_shell k c) = true -> closed_shell_agrees (c_src c).
Proof.
  intros Hc I A u (z & Hz & Hz0 & Hz1) Hr Hs v w Hv Hw. rewrite result_unpol in Hv. rewrite result_pol in Hw.
  set (B := as_attrs (unpol_env A u)).
  set (inp := fun n => if beqb n "u" then unpol_env A u else pol_env A (closed_shell u)).
  assert (Hp : problem_holds I B inp (pb_closed_shell k c)).
  { constructor; cbn [pb_closed_shell pb_flags pb_known pb_excl pb_runs].
    - apply (unpol_flags_ok A u z); assumption.
    - apply (zt_small_ok I _ z); [|exact Hz1]. unfold B. rewrite base_unpol. apply unpol_env_zt, Hz.
    - intros e e' [].
    - intros r [<-|[<-|[]]]; cbn [run_init run_name].
      + apply init_ok_same, base_unpol.
      + apply closed_shell_init_ok. }
  assert (H := check_sound I B inp _ Hc Hp (EVar "u") (EVar "p") (or_introl eq_refl) (VR v) (VR w)).
  cut (VR v = VR w); [intros E; injection E; auto|]. apply H.
  - transitivity (opt_val (result I (unpol_env A u) (c_unpol c))); [reflexivity|]. rewrite Hv. reflexivity.
  - transitivity (opt_val (result I (pol_env A (closed_shell u)) (c_pol c))); [reflexivity|]. rewrite Hw. reflexivity.
Qed.

(** *** C02 *)
Lemma swap_init_ok I A a :
  init_ok I (as_attrs (pol_env A a)) swap_init (pol_env A (swap_spins a)).
Proof.
  intros x v Hv. unfold swap_init. cbn [assoc].
  assert (Hb := base_pol A a). set (e := base_env (as_attrs (pol_env A a))) in *.
  unfold pol_env in Hv. cbn [bind_args] in Hv. unfold upd in Hv. cbn [swap_spins p_r0 p_r1 p_s0 p_s1 p_s2 p_l0 p_l1 p_tau0 p_tau1] in Hv.
  destruct (beqb x "r0") eqn:E0; [cbn [eval]; rewrite Hb; exact Hv|].
  destruct (beqb x "r1") eqn:E1; [cbn [eval]; rewrite Hb; exact Hv|].
  destruct (beqb x "s0") eqn:E2; [cbn [eval]; rewrite Hb; exact Hv|].
  destruct (beqb x "s1") eqn:E3.
  { apply beqb_eq in E3. subst x. cbn. rewrite Hb. exact Hv. }
  destruct (beqb x "s2") eqn:E4; [cbn [eval]; rewrite Hb; exact Hv|].
  destruct (beqb x "l0") eqn:E5; [cbn [eval]; rewrite Hb; exact Hv|].
  destruct (beqb x "l1") eqn:E6; [cbn [eval]; rewrite Hb; exact Hv|].
  destruct (beqb x "tau0") eqn:E7; [cbn [eval]; rewrite Hb; exact Hv|].
  destruct (beqb x "tau1") eqn:E8; [cbn [eval]; rewrite Hb; exact Hv|].
  rewrite Hb. unfold pol_env. cbn [bind_args]. unfold upd. rewrite E0, E1, E2, E3, E4, E5, E6, E7, E8. exact Hv.
Qed.

Theorem swap_sound k c : check (pb_swap k c) = true -> spin_symmetric (c_src c).
Proof.
  intros Hc I A a (z & Hz & Hz0 & Hz1) Ha v w Hv Hw. rewrite result_pol in Hv, Hw.
  set (B := as_attrs (pol_env A a)).
  set (inp := fun n => if beqb n "u" then pol_env A a else pol_env A (swap_spins a)).
  assert (Hp : problem_holds I B inp (pb_swap k c)).
  { constructor; cbn [pb_swap pb_flags pb_known pb_excl pb_runs].
    - apply (pol_flags_ok A a z); assumption.
    - apply (zt_small_ok I _ z); [|exact Hz1]. unfold B. rewrite base_pol. apply pol_env_zt, Hz.
    - intros e e' [H|[]]. injection H as <- <-. destruct Ha as (H0 & H1 & _).
      assert (Hn : p_r0 a + p_r1 a <> 0) by lra.
      exists (Rleb (2 * p_r0 a / (p_r0 a + p_r1 a)) z), (Rleb (2 * p_r1 a / (p_r0 a + p_r1 a)) z).
      assert (Hez : base_env B "p.zeta_threshold"%b = Some (VR z)) by (unfold B; rewrite base_pol; apply pol_env_zt, Hz).
      assert (He0 : base_env B "r0"%b = Some (VR (p_r0 a))) by (unfold B; rewrite base_pol; reflexivity).
      assert (He1 : base_env B "r1"%b = Some (VR (p_r1 a))) by (unfold B; rewrite base_pol; reflexivity).
      split; [apply (clipped_eval I _ _ _ _ _ _ Hez He0 He1 He0 Hn)|].
      split; [apply (clipped_eval I _ _ _ _ _ _ Hez He0 He1 He1 Hn)|].
      assert (2 * p_r0 a / (p_r0 a + p_r1 a) + 2 * p_r1 a / (p_r0 a + p_r1 a) = 2) by (field; lra).
      destruct (Rle_dec (2 * p_r0 a / (p_r0 a + p_r1 a)) z) as [Hle|Hgt].
      + rewrite (Rleb_gt (2 * p_r1 a / (p_r0 a + p_r1 a))) by lra. apply andb_false_r.
      + rewrite Rleb_gt by lra. reflexivity.
    - intros r [<-|[<-|[]]]; cbn [run_init run_name].
      + apply init_ok_same, base_pol.
      + apply swap_init_ok. }
  assert (H := check_sound I B inp _ Hc Hp (EVar "u") (EVar "p") (or_introl eq_refl) (VR v) (VR w)).
  cut (VR v = VR w); [intros E; injection E; auto|]. apply H.
  - transitivity (opt_val (result I (pol_env A a) (c_pol c))); [reflexivity|]. rewrite Hv. reflexivity.
  - transitivity (opt_val (result I (pol_env A (swap_spins a)) (c_pol c))); [reflexivity|]. rewrite Hw. reflexivity.
Qed.

(** *** C03 *)
Lemma eval_gpow I (e : env) n g : 0 < g -> e "%g"%b = Some (VR g) ->
  eval I e (EPow (EVar "%g") (num (Z.of_nat n))) = Some (VR (g ^ n)).
Proof.
  intros Hg H. cbn [eval]. rewrite H, eval_num. cbn [lift2]. unfold pypow.
  destruct (Rlt_dec 0 g); [|contradiction]. rewrite <- INR_IZR_INZ, Rpower_pow by exact Hg. reflexivity.
Qed.

(** The base valuation of the scaling problem: the arguments and the scale factor. *)
Definition with_g (g : R) (e : env) : env := upd e "%g" (Some (VR g)).
Lemma base_with_g g A a x : base_env (as_attrs (with_g g (pol_env A a))) x = with_g g (pol_env A a) x.
Proof.
  apply base_as_attrs. intros y v. unfold with_g, upd. destruct (beqb y "%g").
  - intros H. injection H as <-. eauto.
  - apply bind_args_real. apply attr_env_real.
Qed.
Lemma with_g_other g A a x : beqb x "%g" = false -> with_g g (pol_env A a) x = pol_env A a x.
Proof. intros H. unfold with_g, upd. rewrite H. reflexivity. Qed.
Lemma pol_env_g A a : pol_env A a "%g"%b = None.
Proof. reflexivity. Qed.

Lemma eval_gscaled I (e : env) n x o g v : 0 < g -> e "%g"%b = Some (VR g) -> e x = opt_val o ->
  opt_val (omap (fun r => g ^ n * r) o) = Some v ->
  eval I e (snd (gpow (Z.of_nat n) x)) = Some v.
Proof.
  intros Hg He Hx Hv. unfold gpow, snd.
  eapply eval_scaled; [apply eval_gpow; eassumption|exact Hx| |exact Hv]. reflexivity.
Qed.

Lemma scale_init_ok I A a g : 0 < g ->
  init_ok I (as_attrs (with_g g (pol_env A a))) scale_init (pol_env A (scale_args g a)).
Proof.
  intros Hg x v Hv. unfold scale_init. unfold gpow at 1 2 3 4 5 6 7 8 9. cbn [assoc].
  assert (Hb := base_with_g g A a). set (e := base_env (as_attrs (with_g g (pol_env A a)))) in *.
  assert (Hgg : e "%g"%b = Some (VR g)) by (rewrite Hb; reflexivity).
  unfold pol_env in Hv. cbn [bind_args] in Hv. unfold upd in Hv.
  cbn [scale_args p_r0 p_r1 p_s0 p_s1 p_s2 p_l0 p_l1 p_tau0 p_tau1] in Hv.
  assert (Hr0 : e "r0"%b = opt_val (Some (p_r0 a))) by (rewrite Hb; reflexivity).
  assert (Hr1 : e "r1"%b = opt_val (Some (p_r1 a))) by (rewrite Hb; reflexivity).
  assert (Hs0 : e "s0"%b = opt_val (p_s0 a)) by (rewrite Hb; reflexivity).
  assert (Hs1 : e "s1"%b = opt_val (p_s1 a)) by (rewrite Hb; reflexivity).
  assert (Hs2 : e "s2"%b = opt_val (p_s2 a)) by (rewrite Hb; reflexivity).
  assert (Hl0 : e "l0"%b = opt_val (p_l0 a)) by (rewrite Hb; reflexivity).
  assert (Hl1 : e "l1"%b = opt_val (p_l1 a)) by (rewrite Hb; reflexivity).
  assert (Ht0 : e "tau0"%b = opt_val (p_tau0 a)) by (rewrite Hb; reflexivity).
  assert (Ht1 : e "tau1"%b = opt_val (p_tau1 a)) by (rewrite Hb; reflexivity).
  destruct (beqb x "r0") eqn:E0; [exact (eval_gscaled I e 3 _ _ g v Hg Hgg Hr0 Hv)|].
  destruct (beqb x "r1") eqn:E1; [exact (eval_gscaled I e 3 _ _ g v Hg Hgg Hr1 Hv)|].
  destruct (beqb x "s0") eqn:E2; [exact (eval_gscaled I e 8 _ _ g v Hg Hgg Hs0 Hv)|].
  destruct (beqb x "s1") eqn:E3; [exact (eval_gscaled I e 8 _ _ g v Hg Hgg Hs1 Hv)|].
  destruct (beqb x "s2") eqn:E4; [exact (eval_gscaled I e 8 _ _ g v Hg Hgg Hs2 Hv)|].
  destruct (beqb x "l0") eqn:E5; [exact (eval_gscaled I e 5 _ _ g v Hg Hgg Hl0 Hv)|].
  destruct (beqb x "l1") eqn:E6; [exact (eval_gscaled I e 5 _ _ g v Hg Hgg Hl1 Hv)|].
  destruct (beqb x "tau0") eqn:E7; [exact (eval_gscaled I e 5 _ _ g v Hg Hgg Ht0 Hv)|].
  destruct (beqb x "tau1") eqn:E8; [exact (eval_gscaled I e 5 _ _ g v Hg Hgg Ht1 Hv)|].
  rewrite Hb. destruct (beqb x "%g") eqn:E9.
  - apply beqb_eq in E9. subst x. discriminate.
  - rewrite with_g_other by exact E9. unfold pol_env. cbn [bind_args]. unfold upd.
    rewrite E0, E1, E2, E3, E4, E5, E6, E7, E8. exact Hv.
Qed.

Lemma above_ok I (e : env) a x d : eval I e a = Some (VR x) -> e "p.dens_threshold"%b = Some (VR d) -> d < x ->
  eval I e (ECmp CLe a dt) = Some (VB false).
Proof. intros Ha Hd H. cbn [eval dt]. rewrite Ha, Hd. cbn [cmp_sem]. rewrite Rleb_gt by exact H. reflexivity. Qed.
Lemma below_ok I (e : env) a x d : eval I e a = Some (VR x) -> e "p.dens_threshold"%b = Some (VR d) -> x <= d ->
  eval I e (ECmp CLe a dt) = Some (VB true).
Proof. intros Ha Hd H. cbn [eval dt]. rewrite Ha, Hd. cbn [cmp_sem]. rewrite Rleb_le by exact H. reflexivity. Qed.

Theorem scale_sound n k c : check (pb_scale (Z.of_nat n) k c) = true -> scales_with n (c_src c).
Proof.
  intros Hc I A a g (z & Hz & Hz0 & Hz1) Ha Hg (d & Hd & Hd0 & Hd1) (d' & Hd' & Hd0' & Hd1') v w Hv Hw.
  rewrite Hd in Hd'. injection Hd' as <-. rewrite result_pol in Hv, Hw.
  set (B := as_attrs (with_g g (pol_env A a))).
  assert (Hb : forall x, base_env B x = with_g g (pol_env A a) x) by apply base_with_g.
  assert (Hgg : base_env B "%g"%b = Some (VR g)) by (rewrite Hb; reflexivity).
  assert (Hdt : base_env B "p.dens_threshold"%b = Some (VR d)).
  { rewrite Hb, with_g_other by reflexivity. apply pol_env_dt, Hd. }
  assert (Hr0 : base_env B "r0"%b = Some (VR (p_r0 a))) by (rewrite Hb; reflexivity).
  assert (Hr1 : base_env B "r1"%b = Some (VR (p_r1 a))) by (rewrite Hb; reflexivity).
  set (inp := fun n => if beqb n "u" then pol_env A a else pol_env A (scale_args g a)).
  assert (Hp : problem_holds I B inp (pb_scale (Z.of_nat n) k c)).
  { constructor; cbn [pb_scale pb_flags pb_known pb_excl pb_runs].
    - intros x r H. unfold vflag_of. cbn [find fst]. destruct (beqb x "%g") eqn:E.
      + apply beqb_eq in E. subst x. injection H as <-. exact Hg.
      + assert (H' : as_attrs (pol_env A a) x = Some r).
        { unfold B, as_attrs in H. rewrite with_g_other in H by exact E. exact H. }
        exact (pol_flags_ok A a z Hz Hz0 Ha x r H').
    - intros e b H. apply in_app_or in H. destruct H as [H|H].
      + revert e b H. apply (zt_small_ok I _ z); [|exact Hz1]. rewrite Hb, with_g_other by reflexivity. apply pol_env_zt, Hz.
      + destruct H as [H|[H|[H|[H|[]]]]]; apply pair_equal_spec in H; destruct H as [<- <-].
        * exact (above_ok I _ (EVar "r0") _ _ Hr0 Hdt Hd0).
        * exact (above_ok I _ (EVar "r1") _ _ Hr1 Hdt Hd1).
        * exact (above_ok I _ _ _ _ (eval_gscaled I (base_env B) 3 "r0"%b (Some (p_r0 a)) g _ Hg Hgg Hr0 eq_refl) Hdt Hd0').
        * exact (above_ok I _ _ _ _ (eval_gscaled I (base_env B) 3 "r1"%b (Some (p_r1 a)) g _ Hg Hgg Hr1 eq_refl) Hdt Hd1').
    - intros e e' [].
    - intros r [<-|[<-|[]]]; cbn [run_init run_name].
      + intros x v0 Hv0. cbn [assoc]. rewrite Hb. destruct (beqb x "%g") eqn:E.
        * apply beqb_eq in E. subst x. discriminate.
        * rewrite with_g_other by exact E. exact Hv0.
      + apply scale_init_ok, Hg. }
  assert (H := check_sound I B inp _ Hc Hp (EMul (EPow (EVar "%g") (num (Z.of_nat n))) (EVar "u")) (EVar "p")
                 (or_introl eq_refl) (VR (g ^ n * v)) (VR w)).
  cut (VR (g ^ n * v) = VR w); [intros E; injection E; auto|]. apply H.
  - eapply (eval_scaled I _ _ (g ^ n) "u"%b (Some v)).
    + apply eval_gpow; [exact Hg|]. transitivity (base_env B "%g"%b); [reflexivity|exact Hgg].
    + transitivity (opt_val (result I (pol_env A a) (c_pol c))); [reflexivity|]. rewrite Hv. reflexivity.
    + intros r. reflexivity.
    + reflexivity.
  - transitivity (opt_val (result I (pol_env A (scale_args g a)) (c_pol c))); [reflexivity|]. rewrite Hw. reflexivity.
Qed.

(** *** C04 *)
(** The arguments of [pol] are not attribute names. *)
Lemma attr_pol_env A a x v : attr_env A x = Some v -> pol_env A a x = Some v.
Proof.
  intros H. assert (Hn : attr_name x = true) by (unfold attr_env in H; destruct (attr_name x); [reflexivity|discriminate]).
  unfold pol_env. cbn [bind_args]. unfold upd.
  repeat match goal with |- context [beqb x ?n] =>
    let E := fresh "E" in destruct (beqb x n) eqn:E; [apply beqb_eq in E; subst x; discriminate|clear E] end.
  exact H.
Qed.
Lemma up_init_ok I A a :
  init_ok I (as_attrs (pol_env A a)) up_init (unpol_env A (spin_up a)).
Proof.
  intros x v Hv. unfold up_init. cbn [assoc].
  assert (Hb := base_pol A a). set (e := base_env (as_attrs (pol_env A a))) in *.
  unfold unpol_env in Hv. cbn [bind_args] in Hv. unfold upd in Hv. cbn [spin_up u_r u_s u_l u_tau] in Hv.
  assert (Hr0 : e "r0"%b = opt_val (Some (p_r0 a))) by (rewrite Hb; reflexivity).
  assert (Hs0 : e "s0"%b = opt_val (p_s0 a)) by (rewrite Hb; reflexivity).
  assert (Hl0 : e "l0"%b = opt_val (p_l0 a)) by (rewrite Hb; reflexivity).
  assert (Ht0 : e "tau0"%b = opt_val (p_tau0 a)) by (rewrite Hb; reflexivity).
  destruct (beqb x "r0") eqn:E0; [eapply eval_scaled with (f := fun r => 2 * r); [apply eval_num|exact Hr0|reflexivity|exact Hv]|].
  destruct (beqb x "s0") eqn:E2; [eapply eval_scaled with (f := fun r => 4 * r); [apply eval_num|exact Hs0|reflexivity|exact Hv]|].
  destruct (beqb x "l0") eqn:E5; [eapply eval_scaled with (f := fun r => 2 * r); [apply eval_num|exact Hl0|reflexivity|exact Hv]|].
  destruct (beqb x "tau0") eqn:E7; [eapply eval_scaled with (f := fun r => 2 * r); [apply eval_num|exact Ht0|reflexivity|exact Hv]|].
  rewrite Hb. apply attr_pol_env. exact Hv.
Qed.
Lemma down_init_ok I A a :
  init_ok I (as_attrs (pol_env A a)) down_init (unpol_env A (spin_down a)).
Proof.
  intros x v Hv. unfold down_init. cbn [assoc].
  assert (Hb := base_pol A a). set (e := base_env (as_attrs (pol_env A a))) in *.
  unfold unpol_env in Hv. cbn [bind_args] in Hv. unfold upd in Hv. cbn [spin_down u_r u_s u_l u_tau] in Hv.
  assert (Hr0 : e "r1"%b = opt_val (Some (p_r1 a))) by (rewrite Hb; reflexivity).
  assert (Hs0 : e "s2"%b = opt_val (p_s2 a)) by (rewrite Hb; reflexivity).
  assert (Hl0 : e "l1"%b = opt_val (p_l1 a)) by (rewrite Hb; reflexivity).
  assert (Ht0 : e "tau1"%b = opt_val (p_tau1 a)) by (rewrite Hb; reflexivity).
  destruct (beqb x "r0") eqn:E0; [eapply eval_scaled with (f := fun r => 2 * r); [apply eval_num|exact Hr0|reflexivity|exact Hv]|].
  destruct (beqb x "s0") eqn:E2; [eapply eval_scaled with (f := fun r => 4 * r); [apply eval_num|exact Hs0|reflexivity|exact Hv]|].
  destruct (beqb x "l0") eqn:E5; [eapply eval_scaled with (f := fun r => 2 * r); [apply eval_num|exact Hl0|reflexivity|exact Hv]|].
  destruct (beqb x "tau0") eqn:E7; [eapply eval_scaled with (f := fun r => 2 * r); [apply eval_num|exact Ht0|reflexivity|exact Hv]|].
  rewrite Hb. apply attr_pol_env. exact Hv.
Qed.

Lemma unclipped_ok I A a z : A "p.zeta_threshold"%b = Some z -> pol_ok a -> not_clipped A a ->
  forall e b, In (e, b) unclipped -> eval I (base_env (as_attrs (pol_env A a))) e = Some (VB b).
Proof.
  intros Hz (H0 & H1 & _) Hn e b H. destruct (Hn z Hz) as [Hn0 Hn1].
  set (B := as_attrs (pol_env A a)).
  assert (Hez : base_env B "p.zeta_threshold"%b = Some (VR z)) by (unfold B; rewrite base_pol; apply pol_env_zt, Hz).
  assert (He0 : base_env B "r0"%b = Some (VR (p_r0 a))) by (unfold B; rewrite base_pol; reflexivity).
  assert (He1 : base_env B "r1"%b = Some (VR (p_r1 a))) by (unfold B; rewrite base_pol; reflexivity).
  assert (Hs : p_r0 a + p_r1 a <> 0) by lra.
  destruct H as [H|[H|[]]]; apply pair_equal_spec in H; destruct H as [<- <-].
  - rewrite (clipped_eval I _ _ _ _ _ _ Hez He0 He1 He0 Hs), Rleb_gt by assumption. reflexivity.
  - rewrite (clipped_eval I _ _ _ _ _ _ Hez He0 He1 He1 Hs), Rleb_gt by assumption. reflexivity.
Qed.

Theorem spin_scaling_sound k c : chk_spin_scaling k c = true -> spin_scales (c_src c).
Proof.
  intros Hc I A a (z & Hz & Hz0 & Hz1) (d & Hd) Ha Hn e u dn He Hu Hdn.
  rewrite result_pol in He. rewrite result_unpol in Hu, Hdn.
  set (B := as_attrs (pol_env A a)).
  assert (Hb : forall x, base_env B x = pol_env A a x) by apply base_pol.
  assert (Hdt : base_env B "p.dens_threshold"%b = Some (VR d)) by (rewrite Hb; apply pol_env_dt, Hd).
  assert (Hr0 : base_env B "r0"%b = Some (VR (p_r0 a))) by (rewrite Hb; reflexivity).
  assert (Hr1 : base_env B "r1"%b = Some (VR (p_r1 a))) by (rewrite Hb; reflexivity).
  set (b0 := Rleb (p_r0 a) d). set (b1 := Rleb (p_r1 a) d).
  assert (Hck : check (pb_spin_scaling b0 b1 k c) = true).
  { unfold chk_spin_scaling in Hc. rewrite forallb_forall in Hc. apply (Hc (b0, b1)).
    destruct b0, b1; cbn [In]; auto. }
  set (inp := fun n => if beqb n "p" then pol_env A a else if beqb n "u" then unpol_env A (spin_up a)
                       else unpol_env A (spin_down a)).
  assert (Hp : problem_holds I B inp (pb_spin_scaling b0 b1 k c)).
  { constructor; cbn [pb_spin_scaling pb_flags pb_known pb_excl pb_runs].
    - apply (pol_flags_ok A a z); assumption.
    - intros x b H. apply in_app_or in H. destruct H as [H|H]; [|apply in_app_or in H; destruct H as [H|H]].
      + revert x b H. apply (zt_small_ok I _ z); [|exact Hz1]. rewrite Hb. apply pol_env_zt, Hz.
      + exact (unclipped_ok I A a z Hz Ha Hn x b H).
      + destruct H as [H|[H|[]]]; apply pair_equal_spec in H; destruct H as [<- <-];
          cbn [eval dt]; rewrite ?Hr0, ?Hr1, Hdt; reflexivity.
    - intros x x' [].
    - intros r [<-|[<-|[<-|[]]]]; cbn [run_init run_name].
      + apply init_ok_same, Hb.
      + apply up_init_ok.
      + apply down_init_ok. }
  assert (H := check_sound I B inp _ Hck Hp _ _ (or_introl eq_refl)
                 (VR ((p_r0 a + p_r1 a) * e)) (VR (p_r0 a * u + p_r1 a * dn))).
  cut (VR ((p_r0 a + p_r1 a) * e) = VR (p_r0 a * u + p_r1 a * dn)); [intros E; injection E; lra|].
  set (G := goal_env I B inp (pb_runs (pb_spin_scaling b0 b1 k c))) in *.
  assert (G0 : G "r0"%b = Some (VR (p_r0 a))) by (transitivity (base_env B "r0"%b); [reflexivity|exact Hr0]).
  assert (G1 : G "r1"%b = Some (VR (p_r1 a))) by (transitivity (base_env B "r1"%b); [reflexivity|exact Hr1]).
  assert (Gp : G "p"%b = Some (VR e)).
  { transitivity (opt_val (result I (pol_env A a) (c_pol c))); [reflexivity|]. rewrite He. reflexivity. }
  assert (Gu : G "u"%b = Some (VR u)).
  { transitivity (opt_val (result I (unpol_env A (spin_up a)) (c_unpol c))); [reflexivity|]. rewrite Hu. reflexivity. }
  assert (Gd : G "d"%b = Some (VR dn)).
  { transitivity (opt_val (result I (unpol_env A (spin_down a)) (c_unpol c))); [reflexivity|]. rewrite Hdn. reflexivity. }
  clearbody G. apply H; cbn [eval]; rewrite G0, G1, ?Gp, ?Gu, ?Gd; reflexivity.
Qed.

(** *** C07 *)
Theorem screen_pol_sound k c : check (pb_screen_pol k c) = true -> screened_pol (c_src c).
Proof.
  intros Hc I A a d (z & Hz & Hz0 & Hz1) Ha Hd Hd0 Hd1 v Hv. rewrite result_pol in Hv.
  set (B := as_attrs (pol_env A a)).
  assert (Hb : forall x, base_env B x = pol_env A a x) by apply base_pol.
  assert (Hdt : base_env B "p.dens_threshold"%b = Some (VR d)) by (rewrite Hb; apply pol_env_dt, Hd).
  assert (Hr0 : base_env B "r0"%b = Some (VR (p_r0 a))) by (rewrite Hb; reflexivity).
  assert (Hr1 : base_env B "r1"%b = Some (VR (p_r1 a))) by (rewrite Hb; reflexivity).
  set (inp := fun _ : bstr => pol_env A a).
  assert (Hp : problem_holds I B inp (pb_screen_pol k c)).
  { constructor; cbn [pb_screen_pol pb_flags pb_known pb_excl pb_runs].
    - apply (pol_flags_ok A a z); assumption.
    - intros x b H. apply in_app_or in H. destruct H as [H|H].
      + revert x b H. apply (zt_small_ok I _ z); [|exact Hz1]. rewrite Hb. apply pol_env_zt, Hz.
      + destruct H as [H|[H|[]]]; apply pair_equal_spec in H; destruct H as [<- <-].
        * exact (below_ok I _ (EVar "r0") _ _ Hr0 Hdt Hd0).
        * exact (below_ok I _ (EVar "r1") _ _ Hr1 Hdt Hd1).
    - intros x x' [].
    - intros r [<-|[]]; cbn [run_init run_name]. apply init_ok_same, Hb. }
  assert (H := check_sound I B inp _ Hc Hp (EVar "p") (num 0) (or_introl eq_refl) (VR v) (VR 0)).
  cut (VR v = VR 0); [intros E; injection E; auto|]. apply H.
  - transitivity (opt_val (result I (pol_env A a) (c_pol c))); [reflexivity|]. rewrite Hv. reflexivity.
  - apply eval_num.
Qed.
Theorem screen_unpol_sound k c : check (pb_screen_unpol k c) = true -> screened_unpol (c_src c).
Proof.
  intros Hc I A a d (z & Hz & Hz0 & Hz1) Hr Hs Hd Hd0 v Hv. rewrite result_unpol in Hv.
  set (B := as_attrs (unpol_env A a)).
  assert (Hb : forall x, base_env B x = unpol_env A a x) by apply base_unpol.
  assert (Hdt : base_env B "p.dens_threshold"%b = Some (VR d)) by (rewrite Hb; apply unpol_env_dt, Hd).
  assert (Hr0 : base_env B "r0"%b = Some (VR (u_r a))) by (rewrite Hb; reflexivity).
  set (inp := fun _ : bstr => unpol_env A a).
  assert (Hp : problem_holds I B inp (pb_screen_unpol k c)).
  { constructor; cbn [pb_screen_unpol pb_flags pb_known pb_excl pb_runs].
    - apply (unpol_flags_ok A a z); assumption.
    - intros x b H. apply in_app_or in H. destruct H as [H|H].
      + revert x b H. apply (zt_small_ok I _ z); [|exact Hz1]. rewrite Hb. apply unpol_env_zt, Hz.
      + destruct H as [H|[]]; apply pair_equal_spec in H; destruct H as [<- <-].
        apply (below_ok I _ _ (/ 2 * u_r a) d); [|exact Hdt|lra].
        cbn [eval half]. rewrite Hr0, Q2R_half. reflexivity.
    - intros x x' [].
    - intros r [<-|[]]; cbn [run_init run_name]. apply init_ok_same, Hb. }
  assert (H := check_sound I B inp _ Hc Hp (EVar "p") (num 0) (or_introl eq_refl) (VR v) (VR 0)).
  cut (VR v = VR 0); [intros E; injection E; auto|]. apply H.
  - transitivity (opt_val (result I (unpol_env A a) (c_unpol c))); [reflexivity|]. rewrite Hv. reflexivity.
  - apply eval_num.
Qed.

(** *** C05 *)
Lemma assoc_In (l : list (bstr * expr)) x e : assoc x l = Some e -> In (x, e) l.
Proof.
  induction l as [|[y e'] l IH]; cbn [assoc]; [discriminate|]. destruct (beqb x y) eqn:E.
  - intros H. injection H as <-. apply beqb_eq in E. subst y. left. reflexivity.
  - intros H. right. apply IH, H.
Qed.
Lemma init_ok_self I B init e : (forall x, base_env B x = e x) ->
  (forall x t, In (x, t) init -> eval I (base_env B) t = e x) -> init_ok I B init e.
Proof.
  intros Hb H x v Hv. destruct (assoc x init) as [t|] eqn:E.
  - rewrite (H x t (assoc_In _ _ _ E)). exact Hv.
  - rewrite Hb. exact Hv.
Qed.

Lemma pypow_pos x y : 0 < x -> pypow x y = Some (Rpower x y).
Proof. intros H. unfold pypow. destruct (Rlt_dec 0 x); [reflexivity|contradiction]. Qed.
Lemma Q2R_eq n d x : x = IZR n / IZR (Zpos d) -> Q2R (n # d) = x.
Proof. intros ->. reflexivity. Qed.
Lemma eval_tf I (e : env) x r : e x = Some (VR r) -> 0 < r -> eval I e (tf_tau x) = Some (VR (tf r)).
Proof.
  intros Hx Hr. unfold tf_tau. cbn [eval]. rewrite Hx, !eval_num. cbn [lift2].
  assert (HP := PI_RGT_0). rewrite pypow_pos by exact HP. cbn [lift2].
  assert (E : Rpower PI (IZR 2) = PI ^ 2) by (change (IZR 2) with (INR 2); apply Rpower_pow, HP).
  rewrite E. assert (0 < PI ^ 2) by (apply pow_lt, HP).
  rewrite pypow_pos by lra. cbn [lift2]. rewrite pypow_pos by exact Hr. cbn [lift2].
  rewrite (Q2R_eq 3 10 (3 / 10)), (Q2R_eq 2 3 (2 / 3)), (Q2R_eq 5 3 (5 / 3)) by reflexivity. reflexivity.
Qed.
Lemma eval_slater_one I (e : env) x r : e x = Some (VR r) -> 0 < r ->
  eval I e (slater_one x) = Some (VR (- (3 / 2) * Rpower (3 / (4 * PI)) (1 / 3) * Rpower r (4 / 3))).
Proof.
  intros Hx Hr. unfold slater_one. cbn [eval]. rewrite Hx, !eval_num. cbn [lift2].
  assert (HP := PI_RGT_0). destruct (Req_EM_T (4 * PI) 0) as [E|E]; [lra|]. cbn [lift2].
  assert (0 < 3 / (4 * PI)) by (apply Rdiv_lt_0_compat; lra).
  rewrite pypow_pos by assumption. cbn [lift2]. rewrite pypow_pos by exact Hr. cbn [lift2].
  rewrite (Q2R_eq (-3) 2 (- (3 / 2))), (Q2R_eq 1 3 (1 / 3)), (Q2R_eq 4 3 (4 / 3)) by lra. reflexivity.
Qed.

Definition chk_uniform (target : expr) (pars : list (bstr * Q)) (k : N) (c : compiled) : bool :=
  forallb (fun x => attr_name (fst x)) pars && check (pb_uniform target pars k c).

Lemma uniform_sound target e pars k c :
  (forall I (G : env) r0 r1, G "r0"%b = Some (VR r0) -> G "r1"%b = Some (VR r1) -> 0 < r0 -> 0 < r1 ->
     eval I G target = Some (VR (e r0 r1))) ->
  chk_uniform target pars k c = true -> uniform_limit e pars (c_src c).
Proof.
  intros Ht Hc I A r0 r1 (z & Hz & Hz0 & Hz1) H0 H1 Hpars Hn (d & Hd & Hd0 & Hd1) v Hv.
  unfold chk_uniform in Hc. apply andb_true_iff in Hc. destruct Hc as [Hnm Hc]. rewrite forallb_forall in Hnm.
  rewrite result_pol in Hv. set (a := uniform_gas r0 r1) in *.
  set (B := as_attrs (pol_env A a)).
  assert (Ha : pol_ok a) by (repeat split; cbn; lra).
  assert (Hb : forall x, base_env B x = pol_env A a x) by apply base_pol.
  assert (Hdt : base_env B "p.dens_threshold"%b = Some (VR d)) by (rewrite Hb; apply pol_env_dt, Hd).
  assert (Hr0 : base_env B "r0"%b = Some (VR r0)) by (rewrite Hb; reflexivity).
  assert (Hr1 : base_env B "r1"%b = Some (VR r1)) by (rewrite Hb; reflexivity).
  set (inp := fun _ : bstr => pol_env A a).
  assert (Hp : problem_holds I B inp (pb_uniform target pars k c)).
  { constructor; cbn [pb_uniform pb_flags pb_known pb_excl pb_runs].
    - apply (pol_flags_ok A a z); assumption.
    - intros x b H. apply in_app_or in H. destruct H as [H|H]; [|apply in_app_or in H; destruct H as [H|H]].
      + revert x b H. apply (zt_small_ok I _ z); [|exact Hz1]. rewrite Hb. apply pol_env_zt, Hz.
      + exact (unclipped_ok I A a z Hz Ha Hn x b H).
      + destruct H as [H|[H|[]]]; apply pair_equal_spec in H; destruct H as [<- <-].
        * exact (above_ok I _ (EVar "r0") _ _ Hr0 Hdt Hd0).
        * exact (above_ok I _ (EVar "r1") _ _ Hr1 Hdt Hd1).
    - intros x x' [].
    - intros r [<-|[]]; cbn [run_init run_name]. apply init_ok_self; [exact Hb|].
      intros x t H. apply in_app_or in H. destruct H as [H|H].
      + destruct H as [H|[H|[H|[H|[H|[H|[H|[]]]]]]]]; apply pair_equal_spec in H; destruct H as [<- <-];
          try (rewrite eval_num; reflexivity).
        * rewrite (eval_tf I _ _ r0) by assumption. reflexivity.
        * rewrite (eval_tf I _ _ r1) by assumption. reflexivity.
      + apply in_map_iff in H. destruct H as ((y & q) & H & Hin). apply pair_equal_spec in H. destruct H as [<- <-].
        cbn [fst snd eval]. symmetry. apply attr_pol_env. unfold attr_env. rewrite (Hnm _ Hin : attr_name y = true).
        rewrite (Hpars y q Hin). reflexivity. }
  assert (H := check_sound I B inp _ Hc Hp _ _ (or_introl eq_refl) (VR ((r0 + r1) * v)) (VR (e r0 r1))).
  set (G := goal_env I B inp (pb_runs (pb_uniform target pars k c))) in *.
  assert (G0 : G "r0"%b = Some (VR r0)) by (transitivity (base_env B "r0"%b); [reflexivity|exact Hr0]).
  assert (G1 : G "r1"%b = Some (VR r1)) by (transitivity (base_env B "r1"%b); [reflexivity|exact Hr1]).
  assert (Gp : G "p"%b = Some (VR v)).
  { transitivity (opt_val (result I (pol_env A a) (c_pol c))); [reflexivity|]. rewrite Hv. reflexivity. }
  clearbody G. cut (VR ((r0 + r1) * v) = VR (e r0 r1)); [intros E; injection E; auto|]. apply H.
  - cbn [eval]. rewrite G0, G1, Gp. reflexivity.
  - apply Ht; assumption.
Qed.
Theorem uniform_x_sound pars k c : chk_uniform slater pars k c = true -> uniform_limit slater_energy pars (c_src c).
Proof.
  apply uniform_sound. intros I G r0 r1 G0 G1 H0 H1. unfold slater. cbn [eval].
  rewrite (eval_slater_one I G _ r0 G0 H0), (eval_slater_one I G _ r1 G1 H1). cbn [lift2].
  unfold slater_energy. do 2 f_equal. ring.
Qed.
Theorem uniform_k_sound pars k c : chk_uniform thomas_fermi pars k c = true -> uniform_limit tf_energy pars (c_src c).
Proof.
  apply uniform_sound. intros I G r0 r1 G0 G1 H0 H1. unfold thomas_fermi. cbn [eval].
  rewrite (eval_tf I G _ r0 G0 H0), (eval_tf I G _ r1 G1 H1). reflexivity.
Qed.
