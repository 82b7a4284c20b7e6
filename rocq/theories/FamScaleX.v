(** Coordinate scaling of exchange: run of the equality checker. Written by tools/gen_families.py. *)
From Coq Require Import List QArith NArith.
From Verif Require Import Bytes Syntax Parser PostProcess Src Ast Semantics Norm Problems Families.
Import ListNotations.

Definition scale1_list1 : list compiled := [
  a_gga_x_airy; a_gga_x_ak13; a_gga_x_am05; a_gga_x_b86; a_gga_x_b88; a_gga_x_bayesian;
  a_gga_x_beefvdw; a_gga_x_bpccac; a_gga_x_c09x; a_gga_x_cap; a_gga_x_chachiyo; a_gga_x_dk87;
  a_gga_x_ev93; a_gga_x_fd_lb94; a_gga_x_g96; a_gga_x_gg99; a_gga_x_hcth_a; a_gga_x_herman;
  a_gga_x_htbs; a_gga_x_lag; a_gga_x_lb; a_gga_x_lg93; a_gga_x_lspbe; a_gga_x_lsrpbe;
  a_gga_x_lv_rpw86; a_gga_x_mpbe; a_gga_x_ncap; a_gga_x_ol2; a_gga_x_optx; a_gga_x_pbe;
  a_gga_x_pbea; a_gga_x_pbeint; a_gga_x_pbepow; a_gga_x_pbetrans; a_gga_x_pw86; a_gga_x_pw91;
  a_gga_x_q1d; a_gga_x_q2d; a_gga_x_rge2; a_gga_x_rpbe; a_gga_x_s12; a_gga_x_sg4;
  a_gga_x_sogga11; a_gga_x_ssb_sw; a_gga_x_vmt; a_gga_x_vmt84; a_gga_x_wc; a_hyb_mgga_x_dldf;
  a_hyb_mgga_x_m05; a_lda_x; a_mgga_x_br89; a_mgga_x_br89_explicit; a_mgga_x_edmgga;
  a_mgga_x_ft98; a_mgga_x_gdme; a_mgga_x_gvt4; a_mgga_x_gx; a_mgga_x_jk; a_mgga_x_lta;
  a_mgga_x_m06l; a_mgga_x_m08; a_mgga_x_mbeef; a_mgga_x_mbeefvdw; a_mgga_x_mbr;
  a_mgga_x_mbrxc_bg; a_mgga_x_mbrxh_bg; a_mgga_x_mcml; a_mgga_x_mggac; a_mgga_x_ms; a_mgga_x_msb;
  a_mgga_x_mvs; a_mgga_x_mvsb; a_mgga_x_pbe_gx; a_mgga_x_pkzb; a_mgga_x_r2scan; a_mgga_x_r4scan;
  a_mgga_x_regtm; a_mgga_x_regtpss; a_mgga_x_revtm; a_mgga_x_rlda; a_mgga_x_rppscan;
  a_mgga_x_rtpss; a_mgga_x_sa_tpss; a_mgga_x_scan; a_mgga_x_task; a_mgga_x_tau_hcth;
  a_mgga_x_tb09; a_mgga_x_th; a_mgga_x_tm; a_mgga_x_tpss; a_mgga_x_vcml; a_mgga_x_vt84].
Lemma scale1_run1 : forallb (fun c => check (pb_scale 1 0 c)) scale1_list1 = true.
Proof. vm_cast_no_check (eq_refl true). Qed.
Lemma scale1_all1 : Forall (fun c => scales_with 1 (c_src c)) scale1_list1.
Proof.
  apply Forall_forall. intros c H. pose proof scale1_run1 as E. rewrite forallb_forall in E.
  exact (scale_sound 1 0 c (E c H)).
Qed.
