(** The limit of a uniform density with its dependence on the parameters: the energy is that of the
    uniform gas times a factor made of parameters, so the limit of C05 holds exactly where the
    factor is one. *)
From Coq Require Import Reals List QArith Qreals Bool Arith Lra Lia NArith.
From Verif Require Import Bytes Syntax Parser PostProcess Src Ast Semantics Free Vec RPow Norm NormThm Problems Families
  Impl ImplThm ImplThm2 ImplThm4 Records Exact Inputs Library Callable.
Import ListNotations.
Open Scope R_scope.

(** The functional [ru_src], which reads the parameters [ru_names]; [ru_when] restricts their
    values, and [ru_factor] is the factor. *)
Record rule := Rule { ru_src : source; ru_names : list bstr; ru_when : (bstr -> R) -> Prop; ru_factor : (bstr -> R) -> R }.

(** At the formula. *)
Definition limit_times (e : R -> R -> R) (u : rule) : Prop :=
  forall I A r0 r1 x, zeta_ok A -> 0 < r0 -> 0 < r1 -> (forall n, In n (ru_names u) -> A n = Some (x n)) -> ru_when u x ->
  not_clipped A (uniform_gas r0 r1) -> above_threshold A (uniform_gas r0 r1) ->
  forall v, pol (ru_src u) I A (uniform_gas r0 r1) = Some v -> (r0 + r1) * v = ru_factor u x * e r0 r1.
(** At the callable: the energy per volume at a uniform density, and where it is that of the
    uniform gas. *)
Definition limit_factor (e : R -> R -> R) (u : rule) : Prop :=
  forall I impl p dim rho mo x v,
  any_record impl (ru_src u) 2 p -> (forall n, In n (ru_names u) -> attrs_of p n = Some (x n)) -> ru_when u x ->
  well_formed p rho mo -> positive_pol rho -> uniform dim rho ->
  (fp_type p = "mgga"%b -> forall s, (s < 2)%nat -> tau_pol dim mo s = tf (f_val rho [s])) ->
  unscreened p rho -> unclipped p rho ->
  epsilon_xc I impl p dim rho mo = Ok (Some v) ->
  let n0 := f_val rho [0%nat] in let n1 := f_val rho [1%nat] in
  (n0 + n1) * v = ru_factor u x * e n0 n1 /\ ((n0 + n1) * v = e n0 n1 <-> ru_factor u x = 1).

(** ** Soundness *)
Section Sound.
Variables (target : expr) (e : R -> R -> R) (u : rule) (pars : list (bstr * Q)).
Hypothesis Hgiven : forall x, ru_when u x -> forall n q, In (n, q) pars -> In n (ru_names u) /\ x n = Q2R q.
Hypothesis Hnames : forallb attr_name (ru_names u) = true.
Hypothesis Ht : forall I (G : env) r0 r1 x, G "r0"%b = Some (VR r0) -> G "r1"%b = Some (VR r1) -> 0 < r0 -> 0 < r1 ->
  (forall n, In n (ru_names u) -> G n = Some (VR (x n))) -> ru_when u x -> eval I G target = Some (VR (ru_factor u x * e r0 r1)).
Lemma times_sound k c : c_src c = ru_src u -> chk_uniform target pars k c = true -> limit_times e u.
Proof.
  intros Hsrc Hc I A r0 r1 x (z & Hz & Hz0 & Hz1) H0 H1 Hx Hw Hn (d & Hd & Hd0 & Hd1) v Hv. rewrite <- Hsrc in Hv.
  pose proof (fun n q H => Hgiven x Hw n q H) as Hpars.
  pose proof (proj1 (forallb_forall _ _) Hnames) as HN.
  unfold chk_uniform in Hc. apply andb_true_iff in Hc. destruct Hc as [Hnm Hc]. rewrite forallb_forall in Hnm.
  rewrite result_pol in Hv. set (a := uniform_gas r0 r1) in *.
  set (B := as_attrs (pol_env A a)).
  assert (Ha : pol_ok a) by (repeat split; cbn; lra).
  assert (Hb : forall x, base_env B x = pol_env A a x) by apply base_pol.
  assert (Hdt : base_env B "p.dens_threshold"%b = Some (VR d)) by (rewrite Hb; apply pol_env_dt, Hd).
  assert (Hr0 : base_env B "r0"%b = Some (VR r0)) by (rewrite Hb; reflexivity).
  assert (Hr1 : base_env B "r1"%b = Some (VR r1)) by (rewrite Hb; reflexivity).
  assert (Hat : forall n, In n (ru_names u) -> pol_env A a n = Some (VR (x n))).
  { intros n Hi. apply attr_pol_env. unfold attr_env. rewrite (HN _ Hi), (Hx n Hi). reflexivity. }
  set (inp := fun _ : bstr => pol_env A a).
  assert (Hp : problem_holds I B inp (pb_uniform target pars k c)).
  { constructor; cbn [pb_uniform pb_flags pb_known pb_excl pb_runs].
    - apply (pol_flags_ok A a z); assumption.
    - intros y b H. apply in_app_or in H. destruct H as [H|H]; [|apply in_app_or in H; destruct H as [H|H]].
      + revert y b H. apply (zt_small_ok I _ z); [|exact Hz1]. rewrite Hb. apply pol_env_zt, Hz.
      + exact (unclipped_ok I A a z Hz Ha Hn y b H).
      + destruct H as [H|[H|[]]]; apply pair_equal_spec in H; destruct H as [<- <-].
        * exact (above_ok I _ (EVar "r0") _ _ Hr0 Hdt Hd0).
        * exact (above_ok I _ (EVar "r1") _ _ Hr1 Hdt Hd1).
    - intros y y' [].
    - intros r [<-|[]]; cbn [run_init run_name]. apply init_ok_self; [exact Hb|].
      intros y t H. apply in_app_or in H. destruct H as [H|H].
      + destruct H as [H|[H|[H|[H|[H|[H|[H|[]]]]]]]]; apply pair_equal_spec in H; destruct H as [<- <-];
          try (rewrite eval_num; reflexivity).
        * rewrite (eval_tf I _ _ r0) by assumption. reflexivity.
        * rewrite (eval_tf I _ _ r1) by assumption. reflexivity.
      + apply in_map_iff in H. destruct H as ((n & q) & H & Hin). apply pair_equal_spec in H. destruct H as [<- <-].
        cbn [fst snd eval]. destruct (Hpars n q Hin) as [Hi Hq]. unfold inp. rewrite (Hat n Hi), Hq. reflexivity. }
  assert (H := check_sound I B inp _ Hc Hp _ _ (or_introl eq_refl) (VR ((r0 + r1) * v)) (VR (ru_factor u x * e r0 r1))).
  set (G := goal_env I B inp (pb_runs (pb_uniform target pars k c))) in *.
  assert (G0 : G "r0"%b = Some (VR r0)) by (transitivity (base_env B "r0"%b); [reflexivity|exact Hr0]).
  assert (G1 : G "r1"%b = Some (VR r1)) by (transitivity (base_env B "r1"%b); [reflexivity|exact Hr1]).
  assert (Gp : G "p"%b = Some (VR v)).
  { transitivity (opt_val (result I (pol_env A a) (c_pol c))); [reflexivity|]. rewrite Hv. reflexivity. }
  assert (Gn : forall n, In n (ru_names u) -> G n = Some (VR (x n))).
  { intros n Hi. transitivity (base_env B n); [|rewrite Hb; exact (Hat n Hi)].
    unfold G, goal_env. cbn [pb_uniform pb_runs find run_name]. destruct (beqb n "p") eqn:E; [|reflexivity].
    apply beqb_eq in E. pose proof (HN n Hi) as F. rewrite E in F. discriminate. }
  clearbody G. cut (VR ((r0 + r1) * v) = VR (ru_factor u x * e r0 r1)); [intros E; injection E; auto|]. apply H.
  - cbn [eval]. rewrite G0, G1, Gp. reflexivity.
  - apply Ht; assumption.
Qed.
Hypothesis He : forall r0 r1, 0 < r0 -> 0 < r1 -> e r0 r1 <> 0.
Theorem factor_sound k c : c_src c = ru_src u -> inputs_ok c = true -> chk_uniform target pars k c = true -> limit_factor e u.
Proof.
  intros Hs Hi Hc I impl p dim rho mo x v R HP Hw W P Hu Htau N C E n0 n1. pose proof P as [Q0 Q1]. fold n0 in Q0. fold n1 in Q1.
  cut ((n0 + n1) * v = ru_factor u x * e n0 n1).
  { intros Eq. split; [exact Eq|]. rewrite Eq. pose proof (He n0 n1 Q0 Q1) as D. split; intros F.
    - apply (Rmult_eq_reg_r (e n0 n1)); [lra|exact D].
    - rewrite F. lra. }
  pose proof (reads_family_sound c Hi) as RF. rewrite Hs in RF.
  apply (value_pol I impl (ru_src u) p dim rho mo _ W) in E; [|exact R].
  destruct (Rlt_dec _ _) as [B|_] in E; [destruct (unscreened_total p rho Q0 Q1 N B)|].
  rewrite (uniform_args (fp_type p) dim rho mo Hu Htau), (RF _ (proj1 (proj2 R)) I) in E.
  exact (times_sound k c Hs Hc I (attrs_of p) _ _ x (zeta_of _ _ _ _ R) Q0 Q1 HP Hw (clip p (fp_type p) dim rho mo C) (unscreened_above p (fp_type p) dim rho mo N) v (eq_sym E)).
Qed.
End Sound.

(** The two energies of the uniform gas are not zero. *)
Lemma slater_nonzero r0 r1 : 0 < r0 -> 0 < r1 -> slater_energy r0 r1 <> 0.
Proof.
  intros H0 H1. unfold slater_energy. assert (P := PI_RGT_0).
  assert (0 < Rpower (3 / (4 * PI)) (1 / 3)) by apply exp_pos. assert (0 < Rpower r0 (4 / 3)) by apply exp_pos. assert (0 < Rpower r1 (4 / 3)) by apply exp_pos. 
  intros E. assert (0 < Rpower (3 / (4 * PI)) (1 / 3) * (Rpower r0 (4 / 3) + Rpower r1 (4 / 3))) by (apply Rmult_lt_0_compat; lra). lra.
Qed.
Lemma tf_nonzero r0 r1 : 0 < r0 -> 0 < r1 -> tf_energy r0 r1 <> 0.
Proof. intros H0 H1. unfold tf_energy. pose proof (tf_pos _ H0). pose proof (tf_pos _ H1). lra. Qed.

(** The target of the check: an expression for the factor times the energy. *)
Section Target.
Variables (w : expr) (u : rule) (pars : list (bstr * Q)) (k : N) (c : compiled).
Hypothesis Hgiven : forall x, ru_when u x -> forall n q, In (n, q) pars -> In n (ru_names u) /\ x n = Q2R q.
Hypothesis Hnames : forallb attr_name (ru_names u) = true.
Hypothesis Hw : forall I (G : env) x, (forall n, In n (ru_names u) -> G n = Some (VR (x n))) -> ru_when u x -> eval I G w = Some (VR (ru_factor u x)).
Hypothesis Hs : c_src c = ru_src u.
Hypothesis Hi : inputs_ok c = true.
Theorem factor_x : chk_uniform (EMul w slater) pars k c = true -> limit_factor slater_energy u.
Proof.
  apply factor_sound; [exact Hgiven|exact Hnames| |exact slater_nonzero|exact Hs|exact Hi].
  intros I G r0 r1 x G0 G1 H0 H1 Hx Hu. cbn [eval]. rewrite (Hw I G x Hx Hu). unfold slater. cbn [eval].
  rewrite (eval_slater_one I G _ r0 G0 H0), (eval_slater_one I G _ r1 G1 H1). cbn [lift2].
  unfold slater_energy. do 2 f_equal. ring.
Qed.
Theorem factor_k : chk_uniform (EMul w thomas_fermi) pars k c = true -> limit_factor tf_energy u.
Proof.
  apply factor_sound; [exact Hgiven|exact Hnames| |exact tf_nonzero|exact Hs|exact Hi].
  intros I G r0 r1 x G0 G1 H0 H1 Hx Hu. cbn [eval]. rewrite (Hw I G x Hx Hu). unfold thomas_fermi. cbn [eval].
  rewrite (eval_tf I G _ r0 G0 H0), (eval_tf I G _ r1 G1 H1). reflexivity.
Qed.
End Target.
