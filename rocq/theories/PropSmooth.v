(** C39: the energy density is differentiable in the density. *)
From Coq Require Import Reals List QArith Qreals Bool Lra.
From Verif Require Import Bytes Syntax Parser Src Ast Semantics Impl ImplThm ImplThm4 Records Samples Interval Absint AbsintThm Defined Domains Inputs
  Library FamSamples Smooth SmoothLib SmoothFam FamSmooth SmoothSample Pz.
Import ListNotations.
Open Scope R_scope.

(** Every functional and every mixture: a value is differentiable along every differentiable path of
    densities and orbitals, unless a density is at a threshold or the formula has a kink there. *)
Theorem C39_differentiable_off_kinks : forall I impl p, ops_smooth I -> differentiable_off_kinks I impl p.
Proof. exact callable_smooth. Qed.
Print Assumptions C39_differentiable_off_kinks.
Example C39_example_mixture :
  differentiable (fun t => epsilon_xc smooth_ops (lib_impl f_gga_x_pbe) pbe_mix 3 (moving_unpol t) None).
Proof.
  destruct pbe_mix_value as (v & Hv).
  refine (C39_differentiable_off_kinks smooth_ops (lib_impl f_gga_x_pbe) pbe_mix smooth_ops_smooth 3%nat moving_unpol None v moving_unpol_path no_orbitals Hv _).
  split; [exact pbe_calm|split; [exact pbe_calm|exact Logic.I]].
Qed.

(** Functionals without kinks at physical points, spin-unpolarized. *)
Theorem C39_unpolarized_partial :
  Forall (fun p => differentiable_unpol (snd p) (fst p)) (smooth_unpol_functionals ++ map with_slope sloped_unpol_functionals).
Proof. exact (proj2 (Forall_app _ _ _) (conj smooth_unpol_holds sloped_unpol_holds)). Qed.
Print Assumptions C39_unpolarized_partial.
Example C39_example_unpol : differentiable (fun t => epsilon_xc smooth_ops (lib_impl f_gga_x_pbe) (pbe 1) 3 (moving_unpol t) None).
Proof.
  assert (M : In (f_gga_x_pbe, d_gga_x_pbe) smooth_unpol_functionals) by in_list.
  exact (proj1 (Forall_forall _ _) C39_unpolarized_partial _ (in_or_app _ _ _ (or_introl M)) smooth_ops (lib_impl f_gga_x_pbe) (pbe 1) 3%nat moving_unpol None
    smooth_ops_ok smooth_ops_smooth (pbe_record 1) moving_unpol_path no_orbitals moving_point moving_off).
Qed.

(** Spin-polarized, on both sides of the thresholds. *)
Theorem C39_polarized_partial :
  Forall (fun p => differentiable_pol (snd p) (fst p)) (smooth_pol_functionals ++ map with_slope sloped_pol_functionals).
Proof. exact (proj2 (Forall_app _ _ _) (conj smooth_pol_holds sloped_pol_holds)). Qed.
Print Assumptions C39_polarized_partial.
Example C39_example_pol : differentiable (fun t => epsilon_xc smooth_ops (lib_impl f_lda_x) (slater 2) 3 (moving_pol t) None).
Proof.
  assert (M : In (f_lda_x, d_lda_x) smooth_pol_functionals) by in_list.
  exact (proj1 (Forall_forall _ _) C39_polarized_partial _ (in_or_app _ _ _ (or_introl M)) smooth_ops (lib_impl f_lda_x) (slater 2) 3%nat moving_pol None
    smooth_ops_ok smooth_ops_smooth (slater_record 2) moving_pol_path no_orbitals moving_point_pol moving_off_pol).
Qed.

(** Spin-polarized exchange and kinetic energies above the thresholds. *)
Theorem C39_exchange_partial :
  Forall (fun p => differentiable_above (snd p) (fst p)) (smooth_above_functionals ++ map with_slope sloped_above_functionals).
Proof. exact (proj2 (Forall_app _ _ _) (conj smooth_above_holds sloped_above_holds)). Qed.
Print Assumptions C39_exchange_partial.
Example C39_example_exchange : differentiable (fun t => epsilon_xc smooth_ops (lib_impl f_gga_x_pbe) (pbe 2) 3 (moving_pol t) None).
Proof.
  assert (M : In (f_gga_x_pbe, d_gga_x_pbe) smooth_above_functionals) by in_list.
  refine (proj1 (Forall_forall _ _) C39_exchange_partial _ (in_or_app _ _ _ (or_introl M)) smooth_ops (lib_impl f_gga_x_pbe) (pbe 2) 3%nat moving_pol None
    smooth_ops_ok smooth_ops_smooth (pbe_record 2) moving_pol_path no_orbitals _ _ _).
  - apply gga_point_pol; try reflexivity; cbn; lra.
  - split; cbn; lra.
  - apply sample_unclipped; [reflexivity|cbn; lra|cbn; lra].
Qed.

(** The correlation of Perdew and Zunger jumps at the Wigner-Seitz radius 1 unless its two formulas agree there. *)
Theorem C39_perdew_zunger_refuted : forall I impl p dim g b x y d, record_for impl f_lda_c_pz d_lda_c_pz 1 p ->
  fp_params p "gamma[0]"%b = Some g -> fp_params p "b[0]"%b = Some b -> fp_params p "beta1[0]"%b = Some x ->
  fp_params p "beta2[0]"%b = Some y -> fp_params p "d[0]"%b = Some d ->
  dens_threshold (fp_scal p) < wigner_seitz 1 -> g / (1 + x + y) <> b + d ->
  ~ differentiable (fun t => epsilon_xc I impl p dim (swelling t) None).
Proof. exact pz_jumps. Qed.
Print Assumptions C39_perdew_zunger_refuted.
(** With the published numbers. *)
Example C39_example_perdew_zunger : ~ differentiable_unpol d_lda_c_pz f_lda_c_pz.
Proof.
  intros H. refine (C39_perdew_zunger_refuted smooth_ops (lib_impl f_lda_c_pz) pz 3 (-1423 / 10000) (-48 / 1000) (10529 / 10000) (3334 / 10000) (-116 / 10000)
    pz_record eq_refl eq_refl eq_refl eq_refl eq_refl pz_thick ltac:(lra) _).
  refine (H smooth_ops (lib_impl f_lda_c_pz) pz 3%nat swelling None smooth_ops_ok smooth_ops_smooth pz_record swelling_path no_orbitals _ _).
  - split; [split; [reflexivity|split; [discriminate|discriminate]]|]. split; [apply seitz_pos; lra|]. split; discriminate.
  - change (wigner_seitz (1 + 0) <> / 100 /\ wigner_seitz (1 + 0) / 2 <> / 100). rewrite Rplus_0_r. pose proof PI_4. pose proof PI_RGT_0.
    assert (K : 3 / 16 <= wigner_seitz 1).
    { unfold wigner_seitz. replace (3 / (4 * PI) / 1 ^ 3) with (3 * / (4 * PI)) by (field; lra).
      assert (/ 16 <= / (4 * PI)) by (apply Rinv_le_contravar; lra). lra. }
    lra.
Qed.
