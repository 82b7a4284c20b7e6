(** The runs of the refuting checkers of Refute.v and Undefined.v. *)
From Coq Require Import List QArith NArith Bool.
From Verif Require Import Bytes Syntax Parser PostProcess Src Ast Semantics Families Interval Absint Problems Refute Undefined Fam.
Import ListNotations.

Definition half_params (c : compiled) : qlist := params_at (1 # 2) c.
(** The majority channel almost uniform, the other one nearly empty. *)
Definition uneven_point : qlist := [
  ("r0", 1 # 1); ("r1", 1 # 1000000); ("s0", 1 # 1000000000000); ("s1", 0 # 1); ("s2", 1 # 10000000000000000000000);
  ("l0", 0 # 1); ("l1", 0 # 1); ("tau0", 24 # 1); ("tau1", 30 # 1)]%b.
(** A nearly uniform density with a large kinetic-energy density. *)
Definition fast_point : qlist := [
  ("r0", 1 # 1); ("r1", 1 # 2); ("s0", 1 # 1000); ("s1", 0 # 1); ("s2", 1 # 1000);
  ("l0", 0 # 1); ("l1", 0 # 1); ("tau0", 24 # 1); ("tau1", 30 # 1)]%b.
(** Zero gradient and Laplacian. *)
Definition flat_pol : qlist := flat (11 # 20) (9 # 20) ++ [("tau0", 9 # 20); ("tau1", 3 # 10)]%b.
Definition flat_unpol : qlist := [("r0", 11 # 20); ("s0", 0 # 1); ("l0", 0 # 1); ("tau0", 9 # 20)]%b.

Definition other_scaling_slow : list compiled := [
  a_gga_x_2d_b86; a_gga_x_2d_b86_mgc; a_gga_x_2d_b88; a_gga_x_2d_pbe; a_gga_x_ityh; a_gga_x_ityh_optx; a_gga_x_ityh_pbe; a_gga_x_kt; a_gga_x_n12;
  a_hyb_gga_x_cam_s12; a_hyb_mgga_x_js18; a_hyb_mgga_x_pjs18; a_lda_x_2d; a_lda_x_erf; a_mgga_x_m11; a_mgga_x_mn12].
Definition other_scaling_fast : list compiled := [a_gga_x_hjs; a_gga_x_hjs_b88_v2].
Definition other_scaling_k : list compiled := [a_lda_k_gds08_worker; a_lda_k_zlp].
Definition no_value : list compiled := [
  a_gga_c_q2d; a_gga_k_meyer; a_gga_x_chachiyo; a_gga_x_fd_lb94; a_gga_x_vmt84; a_mgga_x_jk; a_mgga_x_r2scan; a_mgga_x_r4scan;
  a_mgga_x_rppscan; a_mgga_x_rscan; a_mgga_x_scan].
Definition other_limit_x : list compiled := [
  a_gga_x_2d_b86; a_gga_x_2d_b86_mgc; a_gga_x_2d_b88; a_gga_x_2d_pbe; a_gga_x_hcth_a; a_hyb_mgga_x_dldf; a_lda_x_2d; a_mgga_x_gvt4;
  a_mgga_x_mbeef; a_mgga_x_mbeefvdw].
Definition other_limit_k : list compiled := [a_gga_k_exp4; a_lda_k_zlp].

Lemma swap_run : refute_swap (half_params a_gga_x_lb) uneven_point a_gga_x_lb = true.
Proof. vm_cast_no_check (eq_refl true). Qed.
Lemma spin_run : refute_spin (half_params a_gga_x_lb) (rename to_swapped uneven_point) a_gga_x_lb = true.
Proof. vm_cast_no_check (eq_refl true). Qed.
Lemma sign_run : refute_sign (half_params a_mgga_x_gvt4) fast_point a_mgga_x_gvt4 = true.
Proof. vm_cast_no_check (eq_refl true). Qed.
Lemma scale_slow_run : forallb (fun c => refute_scale 1 (1 # 100) (half_params c) some_point c) other_scaling_slow = true.
Proof. vm_cast_no_check (eq_refl true). Qed.
Lemma scale_fast_run : forallb (fun c => refute_scale 1 64 (half_params c) some_point c) other_scaling_fast = true.
Proof. vm_cast_no_check (eq_refl true). Qed.
Lemma scale_k_run : forallb (fun c => refute_scale 2 64 (half_params c) some_point c) other_scaling_k = true.
Proof. vm_cast_no_check (eq_refl true). Qed.
Lemma no_value_run : forallb (fun c => fails_pol (half_params c) flat_pol c && fails_unpol (half_params c) flat_unpol c) no_value = true.
Proof. vm_cast_no_check (eq_refl true). Qed.
Lemma limit_x_run : forallb (fun c => refute_uniform slater (11 # 20) (9 # 20) (half_params c) c) other_limit_x = true.
Proof. vm_cast_no_check (eq_refl true). Qed.
Lemma limit_k_run : forallb (fun c => refute_uniform thomas_fermi (11 # 20) (9 # 20) (half_params c) c) other_limit_k = true.
Proof. vm_cast_no_check (eq_refl true). Qed.

Definition other_scaling_functionals : list source := [
  f_gga_x_2d_b86; f_gga_x_2d_b86_mgc; f_gga_x_2d_b88; f_gga_x_2d_pbe; f_gga_x_ityh; f_gga_x_ityh_optx; f_gga_x_ityh_pbe; f_gga_x_kt; f_gga_x_n12;
  f_hyb_gga_x_cam_s12; f_hyb_mgga_x_js18; f_hyb_mgga_x_pjs18; f_lda_x_2d; f_lda_x_erf; f_mgga_x_m11; f_mgga_x_mn12;
  f_gga_x_hjs; f_gga_x_hjs_b88_v2].
Definition other_scaling_k_functionals : list source := [f_lda_k_gds08_worker; f_lda_k_zlp].
Definition no_value_functionals : list source := [
  f_gga_c_q2d; f_gga_k_meyer; f_gga_x_chachiyo; f_gga_x_fd_lb94; f_gga_x_vmt84; f_mgga_x_jk; f_mgga_x_r2scan; f_mgga_x_r4scan;
  f_mgga_x_rppscan; f_mgga_x_rscan; f_mgga_x_scan].
Definition other_limit_x_functionals : list source := [
  f_gga_x_2d_b86; f_gga_x_2d_b86_mgc; f_gga_x_2d_b88; f_gga_x_2d_pbe; f_gga_x_hcth_a; f_hyb_mgga_x_dldf; f_lda_x_2d; f_mgga_x_gvt4;
  f_mgga_x_mbeef; f_mgga_x_mbeefvdw].
Definition other_limit_k_functionals : list source := [f_gga_k_exp4; f_lda_k_zlp].

Lemma Forall_run (t : compiled -> bool) (P : source -> Prop) l : (forall c, t c = true -> P (c_src c)) -> forallb t l = true -> Forall P (map c_src l).
Proof. intros S H. apply Forall_src, Forall_forall. intros c Hc. rewrite forallb_forall in H. exact (S c (H c Hc)). Qed.
Lemma other_scaling_x : Forall (scales_otherwise 1) other_scaling_functionals.
Proof.
  change other_scaling_functionals with (map c_src other_scaling_slow ++ map c_src other_scaling_fast). apply Forall_app. split.
  - exact (Forall_run _ _ _ (fun c => refute_scale_sound 1 (1 # 100) _ some_point c) scale_slow_run).
  - exact (Forall_run _ _ _ (fun c => refute_scale_sound 1 64 _ some_point c) scale_fast_run).
Qed.
Lemma other_scaling_kinetic : Forall (scales_otherwise 2) other_scaling_k_functionals.
Proof.
  change other_scaling_k_functionals with (map c_src other_scaling_k).
  exact (Forall_run _ _ _ (fun c => refute_scale_sound 2 64 _ some_point c) scale_k_run).
Qed.
Lemma no_value_flat : Forall (fun f => undefined_pol f /\ undefined_unpol f) no_value_functionals.
Proof.
  change no_value_functionals with (map c_src no_value). refine (Forall_run _ _ _ _ no_value_run). intros c H.
  apply andb_prop in H. destruct H as [H1 H2]. split; [exact (fails_pol_sound _ _ _ H1)|exact (fails_unpol_sound _ _ _ H2)].
Qed.
Lemma other_limit_exchange : Forall (misses_limit slater_energy) other_limit_x_functionals.
Proof.
  change other_limit_x_functionals with (map c_src other_limit_x).
  exact (Forall_run _ _ _ (fun c => refute_uniform_x_sound (11 # 20) (9 # 20) _ c) limit_x_run).
Qed.
Lemma other_limit_kinetic : Forall (misses_limit tf_energy) other_limit_k_functionals.
Proof.
  change other_limit_k_functionals with (map c_src other_limit_k).
  exact (Forall_run _ _ _ (fun c => refute_uniform_k_sound (11 # 20) (9 # 20) _ c) limit_k_run).
Qed.
Lemma lb_asymmetric : spin_asymmetric f_gga_x_lb /\ ~ spin_symmetric f_gga_x_lb.
Proof. pose proof (refute_swap_sound _ _ _ swap_run : spin_asymmetric f_gga_x_lb) as H. split; [exact H|exact (asymmetric_refutes _ H)]. Qed.
Lemma lb_spin : spin_scales_otherwise f_gga_x_lb /\ ~ spin_scales f_gga_x_lb.
Proof. pose proof (refute_spin_sound _ _ _ spin_run : spin_scales_otherwise f_gga_x_lb) as H. split; [exact H|exact (spin_otherwise_refutes _ H)]. Qed.
Lemma gvt4_positive : positive_somewhere f_mgga_x_gvt4.
Proof. exact (refute_sign_sound _ _ _ sign_run). Qed.
Lemma Forall_also (P Q : source -> Prop) l : (forall f, P f -> Q f) -> Forall P l -> Forall (fun f => P f /\ Q f) l.
Proof. intros H. induction 1; constructor; auto. Qed.
Lemma scaling_x_refuted : Forall (fun f => scales_otherwise 1 f /\ ~ scales_with 1 f) other_scaling_functionals.
Proof. exact (Forall_also _ _ _ (otherwise_refutes 1) other_scaling_x). Qed.
Lemma scaling_k_refuted : Forall (fun f => scales_otherwise 2 f /\ ~ scales_with 2 f) other_scaling_k_functionals.
Proof. exact (Forall_also _ _ _ (otherwise_refutes 2) other_scaling_kinetic). Qed.
Lemma limit_x_refuted : Forall (fun f => misses_limit slater_energy f /\ ~ uniform_limit slater_energy [] f) other_limit_x_functionals.
Proof. exact (Forall_also _ _ _ (misses_refutes slater_energy) other_limit_exchange). Qed.
Lemma limit_k_refuted : Forall (fun f => misses_limit tf_energy f /\ ~ uniform_limit tf_energy [] f) other_limit_k_functionals.
Proof. exact (Forall_also _ _ _ (misses_refutes tf_energy) other_limit_kinetic). Qed.
