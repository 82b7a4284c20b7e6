(** Spin scaling: run of the equality checker. Written by tools/gen_families.py. *)
From Coq Require Import List QArith NArith.
From Verif Require Import Bytes Syntax Parser PostProcess Src Ast Semantics Norm Problems Families.
Import ListNotations.

Definition spin_list1 : list compiled := [
  a_gga_k_apbe; a_gga_k_lc94; a_gga_k_lkt; a_gga_k_mpbe; a_gga_k_pearson; a_gga_k_rational_p;
  a_gga_k_vt84f; a_gga_x_2d_b88; a_gga_x_ak13; a_gga_x_b88; a_gga_x_cap; a_gga_x_ev93;
  a_gga_x_g96; a_gga_x_herman; a_gga_x_ityh; a_gga_x_kt; a_gga_x_lsrpbe; a_gga_x_ncap;
  a_gga_x_pbe; a_gga_x_pbepow; a_gga_x_pw91; a_gga_x_rpbe; a_gga_x_sfat_pbe; a_gga_x_vmt;
  a_gga_x_wpbeh; a_hyb_mgga_x_js18; a_lda_k_gds08_worker; a_lda_x_1d_soft; a_mgga_k_csk;
  a_mgga_k_gea4; a_mgga_k_pgslb; a_mgga_x_br89; a_mgga_x_ft98; a_mgga_x_gx; a_mgga_x_m06l;
  a_mgga_x_m11_l; a_mgga_x_mbrxc_bg; a_mgga_x_mn12; a_mgga_x_mvs; a_mgga_x_pkzb; a_mgga_x_regtm;
  a_mgga_x_rlda; a_mgga_x_rtpss; a_mgga_x_tau_hcth; a_mgga_x_tpss].
Lemma spin_run1 : forallb (chk_spin_scaling 0) spin_list1 = true.
Proof. vm_cast_no_check (eq_refl true). Qed.
Lemma spin_all1 : Forall (fun c => spin_scales (c_src c)) spin_list1.
Proof.
  apply Forall_forall. intros c H. pose proof spin_run1 as E. rewrite forallb_forall in E.
  exact (spin_scaling_sound 0 c (E c H)).
Qed.
