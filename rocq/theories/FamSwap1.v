(** Spin-flip symmetry: run of the equality checker. Written by tools/gen_families.py. *)
From Coq Require Import List QArith NArith.
From Verif Require Import Bytes Syntax Parser PostProcess Src Ast Semantics Norm Problems Families.
Import ListNotations.

Definition swap_list1 : list compiled := [
  a_gga_c_acgga; a_gga_c_bmk; a_gga_c_cs1; a_gga_c_gaploc; a_gga_c_lyp; a_gga_c_op_g96;
  a_gga_c_op_xalpha; a_gga_c_p86vwn; a_gga_c_pbeloc; a_gga_c_regtpss; a_gga_c_sg4; a_gga_c_w94;
  a_gga_c_zpbeint; a_gga_k_apbe; a_gga_k_exp4; a_gga_k_lgap_ge; a_gga_k_meyer; a_gga_k_ol2;
  a_gga_k_pw86; a_gga_k_thakkar; a_gga_x_2d_b86_mgc; a_gga_x_airy; a_gga_x_b86; a_gga_x_bpccac;
  a_gga_x_chachiyo; a_gga_x_fd_lb94; a_gga_x_gg99; a_gga_x_hjs; a_gga_x_ityh; a_gga_x_kt;
  a_gga_x_lspbe; a_gga_x_mpbe; a_gga_x_ol2; a_gga_x_pbea; a_gga_x_pbetrans; a_gga_x_q1d;
  a_gga_x_rpbe; a_gga_x_sfat_pbe; a_gga_x_ssb_sw; a_gga_x_wc; a_gga_xc_th1; a_hyb_gga_x_cam_s12;
  a_hyb_lda_xc_bn05; a_hyb_mgga_x_m05; a_lda_c_1d_csc; a_lda_c_2d_prm; a_lda_c_gk72;
  a_lda_c_lp96; a_lda_c_pmgb06; a_lda_c_rc04; a_lda_c_vwn_1; a_lda_c_vwn_4; a_lda_c_wigner;
  a_lda_k_zlp; a_lda_x_1d_soft; a_lda_x_rel; a_lda_xc_1d_ehwlrg; a_lda_xc_zlp; a_mgga_c_bc95;
  a_mgga_c_cs; a_mgga_c_ltapw; a_mgga_c_m08; a_mgga_c_revscan; a_mgga_c_rppscan; a_mgga_c_scan;
  a_mgga_c_vsxc; a_mgga_k_gea2; a_mgga_k_pc07; a_mgga_x_2d_js17; a_mgga_x_br89_explicit;
  a_mgga_x_gdme; a_mgga_x_jk; a_mgga_x_m08; a_mgga_x_mbeefvdw; a_mgga_x_mbrxh_bg; a_mgga_x_ms;
  a_mgga_x_mvsb; a_mgga_x_r2scan; a_mgga_x_regtpss; a_mgga_x_rppscan; a_mgga_x_sa_tpss;
  a_mgga_x_tau_hcth; a_mgga_x_tpss; a_mgga_xc_b98; a_mgga_xc_zlp].
Lemma swap_run1 : forallb (fun c => check (pb_swap 0 c)) swap_list1 = true.
Proof. vm_cast_no_check (eq_refl true). Qed.
Lemma swap_all1 : Forall (fun c => spin_symmetric (c_src c)) swap_list1.
Proof.
  apply Forall_forall. intros c H. pose proof swap_run1 as E. rewrite forallb_forall in E.
  exact (swap_sound 0 c (E c H)).
Qed.
