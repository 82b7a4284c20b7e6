(** The functionals of RunRefute.v and RunPrecise.v as calls: runs of the checks of Calls.v. *)
From Coq Require Import Reals List QArith NArith Bool Lra.
From Verif Require Import Bytes Syntax Parser PostProcess Src Ast Semantics Families Interval IntervalThm Absint AbsintThm AbsintThm2 AbsintThm3 Problems Library Callable Refute Undefined
  RunRefute Precise RunPrecise Kinetic RunKinetic Decided Sloc Fam FamCallable Corr Calls.
Import ListNotations.
Open Scope R_scope.

Definition given_as (ps : compiled -> qlist) (l : list compiled) : list (source * qlist) := map (fun c => (c_src c, ps c)) l.
Definition shell_calls : list (source * qlist) :=
  given_as half_params unequal_both ++ given_as shell_params unequal_shell ++ given_as half_params [a_gga_c_ft97].
Definition swap_calls : list (source * qlist) := given_as half_params [a_gga_x_lb; a_lda_xc_ksdt; a_mgga_x_2d_prp10].
Definition spin_calls : list (source * qlist) :=
  given_as half_params unequal_both ++ given_as half_params unequal_spins ++ given_as half_params [a_mgga_x_2d_prp10; a_gga_x_lb].
Definition scaling_calls : list (source * qlist) :=
  given_as half_params unequal_scaling ++ given_as ranged_params unequal_ranged ++ given_as half_params (other_scaling_slow ++ other_scaling_fast).
Definition scaling_k_calls : list (source * qlist) := given_as half_params other_scaling_k.
Definition limit_x_calls : list (source * qlist) := given_as half_params other_limit_x.
Definition limit_k_calls : list (source * qlist) := given_as half_params other_limit_k.
(** gga_x_fd_lb94 raises a NameError on every call (C34). *)
Definition no_value_left : list compiled := [
  a_gga_c_q2d; a_gga_k_meyer; a_gga_x_chachiyo; a_gga_x_vmt84; a_mgga_x_jk; a_mgga_x_r2scan; a_mgga_x_r4scan;
  a_mgga_x_rppscan; a_mgga_x_rscan; a_mgga_x_scan].
Definition no_value_calls : list (source * qlist) := given_as half_params no_value_left.

(** ** Runs *)
Lemma both_ready : forallb (fun c => callable_shell (half_params c) shell_point c) unequal_both = true. Proof. vm_cast_no_check (eq_refl true). Qed.
Lemma shell_ready : forallb (fun c => callable_shell (shell_params c) shell_point c) unequal_shell = true. Proof. vm_cast_no_check (eq_refl true). Qed.
Lemma ft97_ready : callable_shell (half_params a_gga_c_ft97) step_point a_gga_c_ft97 = true. Proof. vm_cast_no_check (eq_refl true). Qed.
Lemma lb_ready : callable_point (half_params a_gga_x_lb) uneven_point a_gga_x_lb = true. Proof. vm_cast_no_check (eq_refl true). Qed.
Lemma lb_swapped_ready : callable_point (half_params a_gga_x_lb) (rename to_swapped uneven_point) a_gga_x_lb = true. Proof. vm_cast_no_check (eq_refl true). Qed.
Lemma ksdt_ready : callable_point (half_params a_lda_xc_ksdt) steep_point a_lda_xc_ksdt = true. Proof. vm_cast_no_check (eq_refl true). Qed.
Lemma prp10_ready : callable_point (half_params a_mgga_x_2d_prp10) two_gases a_mgga_x_2d_prp10 = true. Proof. vm_cast_no_check (eq_refl true). Qed.
Lemma spins_ready : forallb (fun c => callable_point (half_params c) steep_point c) unequal_spins = true. Proof. vm_cast_no_check (eq_refl true). Qed.
Lemma scaling_ready : forallb (fun c => callable_point (half_params c) steep_point c) unequal_scaling = true. Proof. vm_cast_no_check (eq_refl true). Qed.
Lemma ranged_ready : forallb (fun c => callable_point (ranged_params c) two_gases c) unequal_ranged = true. Proof. vm_cast_no_check (eq_refl true). Qed.
Lemma others_ready : forallb (fun c => callable_point (half_params c) some_point c) (other_scaling_slow ++ other_scaling_fast ++ other_scaling_k) = true.
Proof. vm_cast_no_check (eq_refl true). Qed.
Lemma limits_ready : forallb (fun c => calls_ok (half_params c) c) (other_limit_x ++ other_limit_k) = true. Proof. vm_cast_no_check (eq_refl true). Qed.
Lemma no_value_ready : forallb (fun c => callable_point (half_params c) flat_pol c && callable_shell (half_params c) flat_unpol c) no_value_left = true.
Proof. vm_cast_no_check (eq_refl true). Qed.
Lemma gvt4_ready : callable_point (half_params a_mgga_x_gvt4) fast_point a_mgga_x_gvt4 = true. Proof. vm_cast_no_check (eq_refl true). Qed.
Lemma gea2_ready : callable_point (half_params a_mgga_k_gea2) peak a_mgga_k_gea2 = true. Proof. vm_cast_no_check (eq_refl true). Qed.

Lemma Forall_given (P : qlist -> source -> Prop) ps (s t : compiled -> bool) l : (forall c, s c = true -> t c = true -> P (ps c) (c_src c)) ->
  forallb s l = true -> forallb t l = true -> Forall (fun p => P (snd p) (fst p)) (given_as ps l).
Proof.
  intros S A B. apply Forall_forall. intros q H. unfold given_as in H. apply in_map_iff in H. destruct H as (c & <- & Hc).
  rewrite forallb_forall in A, B. exact (S c (A c Hc) (B c Hc)).
Qed.
Lemma part {A} (t : A -> bool) l k : forallb t (l ++ k) = true -> forallb t l = true /\ forallb t k = true.
Proof. rewrite forallb_app. apply andb_prop. Qed.

Lemma both_calls : Forall (fun p => call_shell_differs (snd p) (fst p) /\ call_spin_otherwise (snd p) (fst p)) (given_as half_params unequal_both).
Proof.
  pose proof both_ready as R. unfold unequal_both in R. apply part in R. destruct R as [R1 R]. apply part in R. destruct R as [R2 R3].
  assert (B : forall ps xs c {S : setting} {K : pi_known}, callable_shell ps xs c = true -> refute_both ps xs c = true ->
    call_shell_differs ps (c_src c) /\ call_spin_otherwise ps (c_src c)).
  { intros ps xs c S K H T. apply (call_both_sound ps xs c H). unfold refute_both in T. destruct (qlook ps "p.dens_threshold"); [exact T|discriminate]. }
  unfold unequal_both, given_as. rewrite !map_app. apply Forall_app. split.
  { exact (Forall_given (fun ps f => call_shell_differs ps f /\ call_spin_otherwise ps f) half_params _ _ _ (fun c => @B _ _ c _ (close_pi 80 8)) R1 both_80_run). }
  apply Forall_app. split.
  { exact (Forall_given (fun ps f => call_shell_differs ps f /\ call_spin_otherwise ps f) half_params _ _ _ (fun c => @B _ _ c _ (close_pi 96 8)) R2 both_96_run). }
  exact (Forall_given (fun ps f => call_shell_differs ps f /\ call_spin_otherwise ps f) half_params _ _ _ (fun c => @B _ _ c _ (close_pi 112 8)) R3 both_112_run).
Qed.
Lemma shell_calls_differ : Forall (fun p => call_shell_differs (snd p) (fst p)) shell_calls.
Proof.
  apply Forall_app. split; [exact (Forall_impl _ (fun p => @proj1 _ _) both_calls)|]. apply Forall_app. split.
  - exact (Forall_given call_shell_differs shell_params _ _ _ (fun c A B => proj1 (@call_both_sound _ (close_pi 88 8) _ _ c A B)) shell_ready shell_run).
  - constructor; [|constructor]. exact (proj1 (@call_both_sound _ (close_pi 80 14) _ _ _ ft97_ready ft97_run)).
Qed.
Lemma swap_calls_differ : Forall (fun p => call_asymmetric (snd p) (fst p)) swap_calls.
Proof.
  constructor; [exact (call_swap_sound _ _ _ lb_ready swap_run)|].
  constructor; [exact (@call_swap_sound _ (close_pi 64 8) _ _ _ ksdt_ready ksdt_run)|].
  constructor; [exact (@call_swap_sound _ (close_pi 64 8) _ _ _ prp10_ready prp10_swap_run)|constructor].
Qed.
Lemma spin_calls_differ : Forall (fun p => call_spin_otherwise (snd p) (fst p)) spin_calls.
Proof.
  apply Forall_app. split; [exact (Forall_impl _ (fun p => @proj2 _ _) both_calls)|]. apply Forall_app. split.
  - exact (Forall_given call_spin_otherwise half_params _ _ _ (fun c => @call_spin_sound _ (close_pi 48 8) _ _ c) spins_ready spins_run).
  - constructor; [exact (@call_spin_sound _ (close_pi 64 8) _ _ _ prp10_ready prp10_spin_run)|].
    constructor; [exact (call_spin_sound _ _ _ lb_swapped_ready spin_run)|constructor].
Qed.
Lemma scaling_calls_differ : Forall (fun p => call_scales_otherwise 1 (snd p) (fst p)) scaling_calls.
Proof.
  pose proof others_ready as R. apply part in R. destruct R as [R1 R]. apply part in R. destruct R as [R2 _].
  apply Forall_app. split.
  { exact (Forall_given (call_scales_otherwise 1) half_params _ _ _ (fun c => @call_scale_sound _ (close_pi 64 8) 1 (1 # 100) _ _ c) scaling_ready scaling_run). }
  apply Forall_app. split.
  { exact (Forall_given (call_scales_otherwise 1) ranged_params _ _ _ (fun c => @call_scale_sound _ (close_pi 64 8) 1 (1 # 10) _ _ c) ranged_ready ranged_run). }
  unfold given_as. rewrite map_app. apply Forall_app. split.
  - exact (Forall_given (call_scales_otherwise 1) half_params _ _ _ (fun c => call_scale_sound 1 (1 # 100) _ some_point c) R1 scale_slow_run).
  - exact (Forall_given (call_scales_otherwise 1) half_params _ _ _ (fun c => call_scale_sound 1 64 _ some_point c) R2 scale_fast_run).
Qed.
Lemma scaling_k_calls_differ : Forall (fun p => call_scales_otherwise 2 (snd p) (fst p)) scaling_k_calls.
Proof.
  pose proof others_ready as R. apply part in R. destruct R as [_ R]. apply part in R. destruct R as [_ R].
  exact (Forall_given (call_scales_otherwise 2) half_params _ _ _ (fun c => call_scale_sound 2 64 _ some_point c) R scale_k_run).
Qed.
Lemma limit_x_calls_differ : Forall (fun p => call_misses_limit slater_energy (snd p) (fst p)) limit_x_calls.
Proof.
  pose proof limits_ready as R. apply part in R. destruct R as [R _].
  exact (Forall_given (call_misses_limit slater_energy) half_params _ _ _ (fun c => call_limit_x_sound (11 # 20) (9 # 20) _ c) R limit_x_run).
Qed.
Lemma limit_k_calls_differ : Forall (fun p => call_misses_limit tf_energy (snd p) (fst p)) limit_k_calls.
Proof.
  pose proof limits_ready as R. apply part in R. destruct R as [_ R].
  exact (Forall_given (call_misses_limit tf_energy) half_params _ _ _ (fun c => call_limit_k_sound (11 # 20) (9 # 20) _ c) R limit_k_run).
Qed.
Lemma no_value_calls_fail : Forall (fun p => call_without_value (snd p) (fst p)) no_value_calls.
Proof.
  assert (R : forallb (fun c => fails_pol (half_params c) flat_pol c && fails_unpol (half_params c) flat_unpol c) no_value_left = true).
  { apply forallb_forall. intros c Hc. pose proof no_value_run as H. rewrite forallb_forall in H. apply (H c). unfold no_value, no_value_left in *. cbn [In] in *. tauto. }
  refine (Forall_given call_without_value half_params _ _ _ _ no_value_ready R). intros c A B. apply andb_prop in A. destruct A as [A1 A2].
  exact (call_value_sound _ flat_pol flat_unpol c A1 A2 eq_refl eq_refl B).
Qed.
Lemma gvt4_call : call_with_sign (fun v => 0 < v) (half_params a_mgga_x_gvt4) f_mgga_x_gvt4.
Proof.
  refine (call_sign_sound _ lo_pos _ _ _ (fun i v => lo_pos_ok i v) gvt4_ready eq_refl _).
  pose proof sign_run as H. unfold refute_sign in H. apply andb_prop in H. exact (proj2 H).
Qed.
Lemma gea2_call : call_with_sign (fun v => v < 0) (half_params a_mgga_k_gea2) f_mgga_k_gea2.
Proof.
  refine (@call_sign_sound _ (close_pi 64 8) _ (fun i => lo_pos (ineg i)) _ _ _ _ gea2_ready eq_refl _).
  - intros i v H J. pose proof (lo_pos_ok _ _ H (ineg_ok _ _ J)). lra.
  - pose proof gea2_run as H. unfold refute_kinetic in H. apply andb_prop in H. exact (proj2 H).
Qed.

(** ** The statements of Callable.v decided for the library *)
Lemma carry_over sel (P Q : source -> Prop) (D : qlist -> source -> Prop) bad missing calls :
  decided sel P bad missing -> (forall f, P f -> Q f) -> map fst calls = bad -> Forall (fun p => D (snd p) (fst p)) calls ->
  (forall ps f, D ps f -> ~ Q f) -> decided sel Q bad missing.
Proof.
  intros H C E B N. unfold decided in *. rewrite Forall_forall in *. intros f Hf S. destruct (H f Hf S) as [M|M]; [left; exact M|right].
  split; [|intros K; apply C, M, K]. intros Hq Hb. rewrite <- E in Hb. apply in_map_iff in Hb. destruct Hb as (p & <- & Hp). exact (N _ _ (B p Hp) Hq).
Qed.
Lemma shell_calls_decided : decided any closed_shell_callable closed_shell_exceptions [].
Proof. exact (carry_over _ _ _ _ _ _ shell_calls closed_shell_decided closed_callable eq_refl shell_calls_differ shell_contradicts). Qed.
Lemma swap_calls_decided : decided any spin_symmetric_callable swap_exceptions [f_mgga_x_tb09].
Proof. exact (carry_over _ _ _ _ _ _ swap_calls swap_decided swap_callable eq_refl swap_calls_differ swap_contradicts). Qed.
Lemma scaling_calls_decided : decided exchange (scales_callable 1) scaling_exceptions [f_lda_x_1d_exponential; f_lda_x_1d_soft].
Proof. exact (carry_over _ _ _ _ _ _ scaling_calls scaling_x_decided (fun f => scale_callable f 1) eq_refl scaling_calls_differ (scale_contradicts 1)). Qed.
Lemma scaling_k_calls_decided : decided kinetic (scales_callable 2) other_scaling_k_functionals [].
Proof. exact (carry_over _ _ _ _ _ _ scaling_k_calls scaling_k_decided (fun f => scale_callable f 2) eq_refl scaling_k_calls_differ (scale_contradicts 2)). Qed.
Lemma spin_calls_decided : decided separable spin_scales_callable spin_exceptions [f_mgga_x_tb09].
Proof. exact (carry_over _ _ _ _ _ _ spin_calls spin_decided spin_callable eq_refl spin_calls_differ spin_contradicts). Qed.
