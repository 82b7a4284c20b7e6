(** Screening inside the unpolarized formulas: run of the equality checker. Written by tools/gen_families.py. *)
From Coq Require Import List QArith NArith.
From Verif Require Import Bytes Syntax Parser PostProcess Src Ast Semantics Norm Problems Families.
Import ListNotations.

Definition scru_list1 : list compiled := [
  a_gga_c_op_b88; a_gga_c_op_g96; a_gga_c_op_pbe; a_gga_c_op_pw91; a_gga_c_op_xalpha;
  a_gga_k_apbe; a_gga_k_apbeint; a_gga_k_dk; a_gga_k_exp4; a_gga_k_lc94; a_gga_k_lgap;
  a_gga_k_lgap_ge; a_gga_k_lkt; a_gga_k_llp; a_gga_k_meyer; a_gga_k_mpbe; a_gga_k_ol1;
  a_gga_k_ol2; a_gga_k_pearson; a_gga_k_pg; a_gga_k_pw86; a_gga_k_rational_p; a_gga_k_tflw;
  a_gga_k_thakkar; a_gga_k_vt84f; a_gga_x_2d_b86; a_gga_x_2d_b86_mgc; a_gga_x_2d_b88;
  a_gga_x_2d_pbe; a_gga_x_airy; a_gga_x_ak13; a_gga_x_am05; a_gga_x_b86; a_gga_x_b88;
  a_gga_x_bayesian; a_gga_x_beefvdw; a_gga_x_bpccac; a_gga_x_c09x; a_gga_x_cap; a_gga_x_chachiyo;
  a_gga_x_dk87; a_gga_x_ev93; a_gga_x_fd_lb94; a_gga_x_ft97; a_gga_x_g96; a_gga_x_gg99;
  a_gga_x_hcth_a; a_gga_x_herman; a_gga_x_hjs; a_gga_x_hjs_b88_v2; a_gga_x_htbs; a_gga_x_ityh;
  a_gga_x_ityh_optx; a_gga_x_ityh_pbe; a_gga_x_kt; a_gga_x_lag; a_gga_x_lg93; a_gga_x_lspbe;
  a_gga_x_lsrpbe; a_gga_x_lv_rpw86; a_gga_x_mpbe; a_gga_x_n12; a_gga_x_ncap; a_gga_x_ol2;
  a_gga_x_optx; a_gga_x_pbe; a_gga_x_pbea; a_gga_x_pbeint; a_gga_x_pbetrans; a_gga_x_pw86;
  a_gga_x_pw91; a_gga_x_q1d; a_gga_x_q2d; a_gga_x_rge2; a_gga_x_rpbe; a_gga_x_s12; a_gga_x_sfat;
  a_gga_x_sfat_pbe; a_gga_x_sg4; a_gga_x_sogga11; a_gga_x_ssb_sw; a_gga_x_vmt; a_gga_x_vmt84;
  a_gga_x_wc; a_hyb_gga_x_cam_s12; a_hyb_mgga_x_dldf; a_hyb_mgga_x_m05; a_lda_k_gds08_worker;
  a_lda_x; a_lda_x_1d_exponential; a_lda_x_1d_soft; a_lda_x_rel; a_mgga_c_b88; a_mgga_c_b94;
  a_mgga_k_csk; a_mgga_k_csk_loc; a_mgga_k_gea2; a_mgga_k_gea4; a_mgga_k_lk; a_mgga_k_pc07;
  a_mgga_k_pgslb; a_mgga_k_rda; a_mgga_x_2d_js17; a_mgga_x_2d_prhg07; a_mgga_x_br89;
  a_mgga_x_br89_explicit; a_mgga_x_edmgga; a_mgga_x_ft98; a_mgga_x_gdme; a_mgga_x_gvt4;
  a_mgga_x_gx; a_mgga_x_jk; a_mgga_x_lta; a_mgga_x_m06l; a_mgga_x_m08; a_mgga_x_m11;
  a_mgga_x_m11_l; a_mgga_x_mbeef; a_mgga_x_mbeefvdw; a_mgga_x_mbr; a_mgga_x_mbrxc_bg;
  a_mgga_x_mbrxh_bg; a_mgga_x_mcml; a_mgga_x_mggac; a_mgga_x_mn12; a_mgga_x_ms; a_mgga_x_msb;
  a_mgga_x_mvs; a_mgga_x_mvsb; a_mgga_x_pbe_gx; a_mgga_x_pkzb; a_mgga_x_r2scan; a_mgga_x_r4scan;
  a_mgga_x_regtm; a_mgga_x_regtpss; a_mgga_x_revtm; a_mgga_x_rlda; a_mgga_x_rppscan;
  a_mgga_x_rscan; a_mgga_x_rtpss; a_mgga_x_sa_tpss; a_mgga_x_scan; a_mgga_x_tau_hcth;
  a_mgga_x_th; a_mgga_x_tm; a_mgga_x_tpss; a_mgga_x_vcml; a_mgga_x_vt84].
Lemma scru_run1 : forallb (fun c => check (pb_screen_unpol 0 c)) scru_list1 = true.
Proof. vm_cast_no_check (eq_refl true). Qed.
Lemma scru_all1 : Forall (fun c => screened_unpol (c_src c)) scru_list1.
Proof.
  apply Forall_forall. intros c H. pose proof scru_run1 as E. rewrite forallb_forall in E.
  exact (screen_unpol_sound 0 c (E c H)).
Qed.
