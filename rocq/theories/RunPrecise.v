(** Runs of the refuting checkers of Refute.v with close bounds. *)
From Coq Require Import List QArith NArith Bool.
From Verif Require Import Bytes Syntax Parser PostProcess Src Ast Semantics Families Interval Absint Problems Refute RunRefute Precise Fam.
Import ListNotations.

(** A closed shell with a reduced gradient of order 1; unequal parameters for gga_c_optc. *)
Definition shell_point : qlist := [("r0", 8 # 1); ("s0", 10240 # 1); ("l0", 1 # 5); ("tau0", 300 # 1)]%b.
Definition shell_params (c : compiled) : qlist := ("params.c1"%b, 1 # 3) :: half_params c.
(** For gga_c_ft97: a gradient at which the branch [0.10e8 <= ...] is taken in one spin mode only. *)
Definition step_point : qlist := [("r0", 1 # 1); ("s0", 105311388823350130229444 # 1000000000000000000000)]%b.
Definition steep_point : qlist := [
  ("r0", 11 # 20); ("r1", 9 # 20); ("s0", 12 # 1); ("s1", 1 # 2); ("s2", 8 # 1); ("l0", 1 # 5); ("l1", - 1 # 10);
  ("tau0", 9 # 1); ("tau1", 8 # 1)]%b%Q.
(** Two uniform densities of different size. *)
Definition two_gases : qlist := [
  ("r0", 1 # 1000); ("r1", 1 # 1); ("s0", 0 # 1); ("s1", 0 # 1); ("s2", 0 # 1); ("l0", 0 # 1); ("l1", 0 # 1);
  ("tau0", 0 # 1); ("tau1", 0 # 1)]%b.
Definition ranged_params (c : compiled) : qlist := [("p.cam_omega", 200 # 1); ("params.a[0]", 3 # 1)]%b ++ half_params c.

(** The spin modes differ, for a closed shell, and so do the energy and the sum of those of two
    spin channels. *)
Definition unequal_80 : list compiled := [a_gga_k_exp4; a_gga_x_htbs; a_gga_x_rge2; a_mgga_x_2d_js17; a_mgga_x_task].
Definition unequal_96 : list compiled := [a_gga_x_lg93; a_gga_x_lv_rpw86; a_gga_x_sg4].
Definition unequal_112 : list compiled := [a_gga_x_bpccac].
Definition unequal_both : list compiled := unequal_80 ++ unequal_96 ++ unequal_112.
(** Functionals that do not claim spin scaling. *)
Definition unequal_shell : list compiled := [
  a_gga_c_op_pw91; a_gga_c_optc; a_gga_xc_th3; a_lda_c_ml1; a_mgga_c_kcisk; a_mgga_c_tpssloc; a_lda_c_pk09].
Definition unequal_spins : list compiled := [a_lda_k_zlp; a_lda_x_rel].
Definition unequal_scaling : list compiled := [a_gga_x_ft97; a_lda_x_rel; a_lda_x_sloc; a_mgga_x_2d_js17; a_mgga_x_rscan].
Definition unequal_ranged : list compiled := [
  a_gga_x_sfat; a_gga_x_sfat_pbe; a_gga_x_wpbeh; a_lda_x_yukawa; a_mgga_x_2d_prhg07; a_mgga_x_2d_prp10; a_mgga_x_m11_l].

Lemma both_80_run : forallb (fun c => @refute_both (close 80 8) (half_params c) shell_point c) unequal_80 = true.
Proof. vm_cast_no_check (eq_refl true). Qed.
Lemma both_96_run : forallb (fun c => @refute_both (close 96 8) (half_params c) shell_point c) unequal_96 = true.
Proof. vm_cast_no_check (eq_refl true). Qed.
Lemma both_112_run : forallb (fun c => @refute_both (close 112 8) (half_params c) shell_point c) unequal_112 = true.
Proof. vm_cast_no_check (eq_refl true). Qed.
Lemma shell_run : forallb (fun c => @refute_closed (close 88 8) (shell_params c) shell_point c) unequal_shell = true.
Proof. vm_cast_no_check (eq_refl true). Qed.
Lemma ft97_run : @refute_closed (close 80 14) (half_params a_gga_c_ft97) step_point a_gga_c_ft97 = true.
Proof. vm_cast_no_check (eq_refl true). Qed.
Lemma ksdt_run : @refute_swap (close 64 8) (half_params a_lda_xc_ksdt) steep_point a_lda_xc_ksdt = true.
Proof. vm_cast_no_check (eq_refl true). Qed.
Lemma prp10_swap_run : @refute_swap (close 64 8) (half_params a_mgga_x_2d_prp10) two_gases a_mgga_x_2d_prp10 = true.
Proof. vm_cast_no_check (eq_refl true). Qed.
Lemma spins_run : forallb (fun c => @refute_spin (close 48 8) (half_params c) steep_point c) unequal_spins = true.
Proof. vm_cast_no_check (eq_refl true). Qed.
Lemma prp10_spin_run : @refute_spin (close 64 8) (half_params a_mgga_x_2d_prp10) two_gases a_mgga_x_2d_prp10 = true.
Proof. vm_cast_no_check (eq_refl true). Qed.
Lemma scaling_run : forallb (fun c => @refute_scale (close 64 8) 1 (1 # 100) (half_params c) steep_point c) unequal_scaling = true.
Proof. vm_cast_no_check (eq_refl true). Qed.
Lemma ranged_run : forallb (fun c => @refute_scale (close 64 8) 1 (1 # 10) (ranged_params c) two_gases c) unequal_ranged = true.
Proof. vm_cast_no_check (eq_refl true). Qed.

(** The functionals for which the statements of C01-C04 fail. *)
Definition closed_shell_exceptions : list source := map c_src unequal_both ++ map c_src unequal_shell ++ [f_gga_c_ft97].
Definition swap_exceptions : list source := [f_gga_x_lb; f_lda_xc_ksdt; f_mgga_x_2d_prp10].
Definition spin_exceptions : list source := map c_src unequal_both ++ map c_src unequal_spins ++ [f_mgga_x_2d_prp10; f_gga_x_lb].
Definition scaling_exceptions : list source := map c_src unequal_scaling ++ map c_src unequal_ranged ++ other_scaling_functionals.

Lemma both_differ : Forall (fun f => closed_shell_differs f /\ spin_scales_otherwise f) (map c_src unequal_both).
Proof.
  unfold unequal_both. rewrite !map_app. apply Forall_app. split; [exact (Forall_run _ _ _ (fun c => @refute_both_sound _ (close_pi 80 8) _ _ c) both_80_run)|].
  apply Forall_app. split; [exact (Forall_run _ _ _ (fun c => @refute_both_sound _ (close_pi 96 8) _ _ c) both_96_run)|].
  exact (Forall_run _ _ _ (fun c => @refute_both_sound _ (close_pi 112 8) _ _ c) both_112_run).
Qed.
Lemma closed_shell_differ : Forall closed_shell_differs closed_shell_exceptions.
Proof.
  apply Forall_app. split; [exact (Forall_impl _ (fun f => @proj1 _ _) both_differ)|].
  apply Forall_app. split; [exact (Forall_run _ _ _ (fun c => @refute_closed_sound _ (close_pi 88 8) _ _ c) shell_run)|].
  constructor; [exact (@refute_closed_sound _ (close_pi 80 14) _ _ _ ft97_run)|constructor].
Qed.
Lemma swap_differ : Forall spin_asymmetric swap_exceptions.
Proof.
  constructor; [exact (proj1 lb_asymmetric)|].
  constructor; [exact (@refute_swap_sound _ (close_pi 64 8) _ _ _ ksdt_run)|].
  constructor; [exact (@refute_swap_sound _ (close_pi 64 8) _ _ _ prp10_swap_run)|constructor].
Qed.
Lemma spin_differ : Forall spin_scales_otherwise spin_exceptions.
Proof.
  apply Forall_app. split; [exact (Forall_impl _ (fun f => @proj2 _ _) both_differ)|].
  apply Forall_app. split; [exact (Forall_run _ _ _ (fun c => @refute_spin_sound _ (close_pi 48 8) _ _ c) spins_run)|].
  constructor; [exact (@refute_spin_sound _ (close_pi 64 8) _ _ _ prp10_spin_run)|]. constructor; [exact (proj1 lb_spin)|constructor].
Qed.
Lemma scaling_differ : Forall (scales_otherwise 1) scaling_exceptions.
Proof.
  apply Forall_app. split; [exact (Forall_run _ _ _ (fun c => @refute_scale_sound _ (close_pi 64 8) 1 (1 # 100) _ _ c) scaling_run)|].
  apply Forall_app. split; [exact (Forall_run _ _ _ (fun c => @refute_scale_sound _ (close_pi 64 8) 1 (1 # 10) _ _ c) ranged_run)|].
  exact other_scaling_x.
Qed.
