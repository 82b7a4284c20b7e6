(** The statements of Families.v for whole lists of functionals. Written by
    tools/gen_families.py. *)
From Coq Require Import List QArith NArith.
From Verif Require Import Bytes Syntax Parser PostProcess Src Ast Semantics Families.
From Verif Require Import FamClosed1 FamClosed2 FamClosed3 FamClosedK1 FamClosedK12 FamSwap1 FamSwap2 FamSwap3 FamSwapK1 FamScaleX FamScaleK FamSpin1 FamSpin2 FamSpin3 FamSpinK2 FamScreenP FamScreenU FamUnifX FamUnifK.
Import ListNotations.

Lemma Forall_src (P : source -> Prop) l : Forall (fun c => P (c_src c)) l -> Forall P (map c_src l).
Proof. induction 1; constructor; assumption. Qed.

Definition closed_shell_functionals : list source := [
  f_gga_c_acgga; f_gga_c_bmk; f_gga_c_cs1; f_gga_c_hcth_a; f_gga_c_lypr; f_gga_c_op_pbe;
  f_gga_c_p86vwn; f_gga_c_pbeloc; f_gga_c_regtpss; f_gga_c_sg4; f_gga_c_w94; f_gga_c_zpbeint;
  f_gga_k_apbe; f_gga_k_lc94; f_gga_k_lkt; f_gga_k_mpbe; f_gga_k_pearson; f_gga_k_rational_p;
  f_gga_k_vt84f; f_gga_x_2d_b88; f_gga_x_ak13; f_gga_x_b88; f_gga_x_cap; f_gga_x_ev93;
  f_gga_x_g96; f_gga_x_herman; f_gga_x_ityh; f_gga_x_kt; f_gga_x_lspbe; f_gga_x_n12;
  f_gga_x_optx; f_gga_x_pbeint; f_gga_x_pw91; f_gga_x_rpbe; f_gga_x_sfat_pbe; f_gga_x_vmt;
  f_gga_x_wpbeh; f_hyb_gga_xc_case21; f_hyb_mgga_x_dldf; f_hyb_mgga_x_pjs18; f_lda_c_1d_loos;
  f_lda_c_chachiyo; f_lda_c_gombas; f_lda_c_pmgb06; f_lda_c_rc04; f_lda_c_vwn_1; f_lda_c_vwn_4;
  f_lda_c_wigner; f_lda_k_zlp; f_lda_x_1d_soft; f_lda_x_rel; f_lda_xc_1d_ehwlrg; f_lda_xc_tih;
  f_mgga_c_b94; f_mgga_c_ccalda; f_mgga_c_ltapw; f_mgga_c_m08; f_mgga_c_revscan;
  f_mgga_c_rppscan; f_mgga_c_scan; f_mgga_k_csk; f_mgga_k_gea4; f_mgga_k_pgslb;
  f_mgga_x_2d_prp10; f_mgga_x_edmgga; f_mgga_x_gvt4; f_mgga_x_lta; f_mgga_x_m11; f_mgga_x_mbr;
  f_mgga_x_mggac; f_mgga_x_msb; f_mgga_x_pbe_gx; f_mgga_x_r4scan; f_mgga_x_revtm; f_mgga_x_rscan;
  f_mgga_x_scan; f_mgga_x_th; f_mgga_x_vt84; f_mgga_xc_cc06; f_gga_c_acggap; f_gga_c_ccdf;
  f_gga_c_gapc; f_gga_c_lm; f_gga_c_op_b88; f_gga_c_op_xalpha; f_gga_c_pbe; f_gga_c_pw91;
  f_gga_c_revtca; f_gga_c_sogga11; f_gga_c_wi; f_gga_c_zvpbeint; f_gga_k_apbeint; f_gga_k_lgap;
  f_gga_k_llp; f_gga_k_ol1; f_gga_k_pg; f_gga_k_tflw; f_gga_x_2d_b86; f_gga_x_2d_pbe;
  f_gga_x_am05; f_gga_x_bayesian; f_gga_x_chachiyo; f_gga_x_fd_lb94; f_gga_x_gg99; f_gga_x_hjs;
  f_gga_x_ityh_optx; f_gga_x_lag; f_gga_x_lsrpbe; f_gga_x_ncap; f_gga_x_pbe; f_gga_x_pbetrans;
  f_gga_x_q1d; f_gga_x_s12; f_gga_x_sogga11; f_gga_x_vmt84; f_gga_xc_b97; f_hyb_gga_xc_wb97;
  f_hyb_mgga_x_js18; f_hyb_mgga_xc_wb97mv; f_lda_c_2d_amgb; f_lda_c_chachiyo_mod; f_lda_c_hl;
  f_lda_c_pw; f_lda_c_rpa; f_lda_c_vwn_2; f_lda_c_vwn_rpa; f_lda_k_gds08_worker; f_lda_x;
  f_lda_x_2d; f_lda_x_sloc; f_lda_xc_ksdt; f_lda_xc_zlp; f_mgga_c_bc95; f_mgga_c_cs;
  f_mgga_c_m05; f_mgga_c_pkzb; f_mgga_c_revtpss; f_mgga_c_rregtm; f_mgga_c_tpss;
  f_mgga_k_csk_loc; f_mgga_k_lk; f_mgga_k_rda; f_mgga_x_br89; f_mgga_x_ft98; f_mgga_x_gx;
  f_mgga_x_m06l; f_mgga_x_m11_l; f_mgga_x_mbrxc_bg; f_mgga_x_mn12; f_mgga_x_mvs; f_mgga_x_pkzb;
  f_mgga_x_regtm; f_mgga_x_rlda; f_mgga_x_rtpss; f_mgga_x_tau_hcth; f_mgga_x_tm; f_mgga_xc_b97mv;
  f_mgga_xc_lp90; f_gga_c_am05; f_gga_c_chachiyo; f_gga_c_gaploc; f_gga_c_lyp; f_gga_c_op_g96;
  f_gga_c_p86; f_gga_c_pbe_vwn; f_gga_c_q2d; f_gga_c_scan_e0; f_gga_c_tca; f_gga_c_wl;
  f_gga_c_zvpbeloc; f_gga_k_dk; f_gga_k_lgap_ge; f_gga_k_meyer; f_gga_k_ol2; f_gga_k_pw86;
  f_gga_k_thakkar; f_gga_x_2d_b86_mgc; f_gga_x_airy; f_gga_x_b86; f_gga_x_c09x; f_gga_x_dk87;
  f_gga_x_ft97; f_gga_x_hcth_a; f_gga_x_hjs_b88_v2; f_gga_x_ityh_pbe; f_gga_x_lb; f_gga_x_mpbe;
  f_gga_x_ol2; f_gga_x_pbea; f_gga_x_pw86; f_gga_x_q2d; f_gga_x_sfat; f_gga_x_ssb_sw; f_gga_x_wc;
  f_hyb_gga_x_cam_s12; f_hyb_lda_xc_bn05; f_hyb_mgga_x_m05; f_lda_c_1d_csc; f_lda_c_2d_prm;
  f_lda_c_gk72; f_lda_c_lp96; f_lda_c_pz; f_lda_c_vwn; f_lda_c_vwn_3; f_lda_c_w20; f_lda_k_tf;
  f_lda_x_1d_exponential; f_lda_x_erf; f_lda_x_yukawa; f_lda_xc_teter93; f_mgga_c_b88;
  f_mgga_c_cc; f_mgga_c_kcis; f_mgga_c_m06l; f_mgga_c_r2scan; f_mgga_c_rmggac; f_mgga_c_rscan;
  f_mgga_c_vsxc; f_mgga_k_gea2; f_mgga_k_pc07; f_mgga_x_2d_prhg07; f_mgga_x_br89_explicit;
  f_mgga_x_gdme; f_mgga_x_jk; f_mgga_x_m08; f_mgga_x_mbeefvdw; f_mgga_x_mbrxh_bg; f_mgga_x_ms;
  f_mgga_x_mvsb; f_mgga_x_r2scan; f_mgga_x_regtpss; f_mgga_x_rppscan; f_mgga_x_sa_tpss;
  f_mgga_x_tb09; f_mgga_x_tpss; f_mgga_xc_b98; f_mgga_xc_zlp; f_gga_x_beefvdw; f_gga_x_pbepow;
  f_mgga_x_mbeef; f_mgga_x_mcml; f_mgga_x_vcml; f_gga_xc_th1; f_gga_xc_th2].
Lemma closed_shell_holds : Forall (closed_shell_agrees) closed_shell_functionals.
Proof.
  change closed_shell_functionals with (map c_src (closed_shell_list1 ++ closed_shell_list2 ++ closed_shell_list3 ++ closed_shell_list4 ++ closed_shell_list5)).
  apply Forall_src. apply Forall_app. split; [exact closed_shell_all1|]. apply Forall_app. split; [exact closed_shell_all2|]. apply Forall_app. split; [exact closed_shell_all3|]. apply Forall_app. split; [exact closed_shell_all4|]. exact closed_shell_all5.
Qed.

Definition swap_functionals : list source := [
  f_gga_c_acgga; f_gga_c_bmk; f_gga_c_cs1; f_gga_c_gaploc; f_gga_c_lyp; f_gga_c_op_g96;
  f_gga_c_op_xalpha; f_gga_c_p86vwn; f_gga_c_pbeloc; f_gga_c_regtpss; f_gga_c_sg4; f_gga_c_w94;
  f_gga_c_zpbeint; f_gga_k_apbe; f_gga_k_exp4; f_gga_k_lgap_ge; f_gga_k_meyer; f_gga_k_ol2;
  f_gga_k_pw86; f_gga_k_thakkar; f_gga_x_2d_b86_mgc; f_gga_x_airy; f_gga_x_b86; f_gga_x_bpccac;
  f_gga_x_chachiyo; f_gga_x_fd_lb94; f_gga_x_gg99; f_gga_x_hjs; f_gga_x_ityh; f_gga_x_kt;
  f_gga_x_lspbe; f_gga_x_mpbe; f_gga_x_ol2; f_gga_x_pbea; f_gga_x_pbetrans; f_gga_x_q1d;
  f_gga_x_rpbe; f_gga_x_sfat_pbe; f_gga_x_ssb_sw; f_gga_x_wc; f_gga_xc_th1; f_hyb_gga_x_cam_s12;
  f_hyb_lda_xc_bn05; f_hyb_mgga_x_m05; f_lda_c_1d_csc; f_lda_c_2d_prm; f_lda_c_gk72;
  f_lda_c_lp96; f_lda_c_pmgb06; f_lda_c_rc04; f_lda_c_vwn_1; f_lda_c_vwn_4; f_lda_c_wigner;
  f_lda_k_zlp; f_lda_x_1d_soft; f_lda_x_rel; f_lda_xc_1d_ehwlrg; f_lda_xc_zlp; f_mgga_c_bc95;
  f_mgga_c_cs; f_mgga_c_ltapw; f_mgga_c_m08; f_mgga_c_revscan; f_mgga_c_rppscan; f_mgga_c_scan;
  f_mgga_c_vsxc; f_mgga_k_gea2; f_mgga_k_pc07; f_mgga_x_2d_js17; f_mgga_x_br89_explicit;
  f_mgga_x_gdme; f_mgga_x_jk; f_mgga_x_m08; f_mgga_x_mbeefvdw; f_mgga_x_mbrxh_bg; f_mgga_x_ms;
  f_mgga_x_mvsb; f_mgga_x_r2scan; f_mgga_x_regtpss; f_mgga_x_rppscan; f_mgga_x_sa_tpss;
  f_mgga_x_tau_hcth; f_mgga_x_tpss; f_mgga_xc_b98; f_mgga_xc_zlp; f_gga_c_acggap; f_gga_c_ccdf;
  f_gga_c_ft97; f_gga_c_hcth_a; f_gga_c_lypr; f_gga_c_op_pbe; f_gga_c_optc; f_gga_c_pbe;
  f_gga_c_pw91; f_gga_c_revtca; f_gga_c_sogga11; f_gga_c_wi; f_gga_c_zvpbeint; f_gga_k_apbeint;
  f_gga_k_lc94; f_gga_k_lkt; f_gga_k_mpbe; f_gga_k_pearson; f_gga_k_rational_p; f_gga_k_vt84f;
  f_gga_x_2d_b88; f_gga_x_ak13; f_gga_x_b88; f_gga_x_c09x; f_gga_x_dk87; f_gga_x_ft97;
  f_gga_x_hcth_a; f_gga_x_hjs_b88_v2; f_gga_x_ityh_optx; f_gga_x_lag; f_gga_x_lsrpbe;
  f_gga_x_n12; f_gga_x_optx; f_gga_x_pbeint; f_gga_x_pw86; f_gga_x_q2d; f_gga_x_s12; f_gga_x_sg4;
  f_gga_x_vmt; f_gga_x_wpbeh; f_gga_xc_th2; f_hyb_gga_xc_case21; f_hyb_mgga_x_dldf;
  f_hyb_mgga_x_pjs18; f_lda_c_1d_loos; f_lda_c_chachiyo; f_lda_c_gombas; f_lda_c_ml1; f_lda_c_pw;
  f_lda_c_rpa; f_lda_c_vwn_2; f_lda_c_vwn_rpa; f_lda_k_gds08_worker; f_lda_x; f_lda_x_2d;
  f_lda_x_sloc; f_lda_xc_teter93; f_mgga_c_b88; f_mgga_c_cc; f_mgga_c_kcis; f_mgga_c_m05;
  f_mgga_c_pkzb; f_mgga_c_revtpss; f_mgga_c_rregtm; f_mgga_c_tpss; f_mgga_k_csk; f_mgga_k_gea4;
  f_mgga_k_pgslb; f_mgga_x_2d_prhg07; f_mgga_x_edmgga; f_mgga_x_gvt4; f_mgga_x_lta; f_mgga_x_m11;
  f_mgga_x_mbr; f_mgga_x_mggac; f_mgga_x_msb; f_mgga_x_pbe_gx; f_mgga_x_r4scan; f_mgga_x_revtm;
  f_mgga_x_rscan; f_mgga_x_scan; f_mgga_x_th; f_mgga_x_vt84; f_mgga_xc_cc06; f_gga_c_am05;
  f_gga_c_chachiyo; f_gga_c_gapc; f_gga_c_lm; f_gga_c_op_b88; f_gga_c_op_pw91; f_gga_c_p86;
  f_gga_c_pbe_vwn; f_gga_c_q2d; f_gga_c_scan_e0; f_gga_c_tca; f_gga_c_wl; f_gga_c_zvpbeloc;
  f_gga_k_dk; f_gga_k_lgap; f_gga_k_llp; f_gga_k_ol1; f_gga_k_pg; f_gga_k_tflw; f_gga_x_2d_b86;
  f_gga_x_2d_pbe; f_gga_x_am05; f_gga_x_bayesian; f_gga_x_cap; f_gga_x_ev93; f_gga_x_g96;
  f_gga_x_herman; f_gga_x_htbs; f_gga_x_ityh_pbe; f_gga_x_lg93; f_gga_x_lv_rpw86; f_gga_x_ncap;
  f_gga_x_pbe; f_gga_x_pbepow; f_gga_x_pw91; f_gga_x_rge2; f_gga_x_sfat; f_gga_x_sogga11;
  f_gga_x_vmt84; f_gga_xc_b97; f_gga_xc_th3; f_hyb_gga_xc_wb97; f_hyb_mgga_x_js18;
  f_hyb_mgga_xc_wb97mv; f_lda_c_2d_amgb; f_lda_c_chachiyo_mod; f_lda_c_hl; f_lda_c_pk09;
  f_lda_c_pz; f_lda_c_vwn; f_lda_c_vwn_3; f_lda_c_w20; f_lda_k_tf; f_lda_x_1d_exponential;
  f_lda_x_erf; f_lda_x_yukawa; f_lda_xc_tih; f_mgga_c_b94; f_mgga_c_ccalda; f_mgga_c_kcisk;
  f_mgga_c_m06l; f_mgga_c_r2scan; f_mgga_c_rmggac; f_mgga_c_rscan; f_mgga_c_tpssloc;
  f_mgga_k_csk_loc; f_mgga_k_lk; f_mgga_k_rda; f_mgga_x_br89; f_mgga_x_ft98; f_mgga_x_gx;
  f_mgga_x_m06l; f_mgga_x_m11_l; f_mgga_x_mbrxc_bg; f_mgga_x_mn12; f_mgga_x_mvs; f_mgga_x_pkzb;
  f_mgga_x_regtm; f_mgga_x_rlda; f_mgga_x_rtpss; f_mgga_x_task; f_mgga_x_tm; f_mgga_xc_b97mv;
  f_mgga_xc_lp90; f_gga_x_beefvdw; f_mgga_x_mbeef; f_mgga_x_mcml; f_mgga_x_vcml].
Lemma swap_holds : Forall (spin_symmetric) swap_functionals.
Proof.
  change swap_functionals with (map c_src (swap_list1 ++ swap_list2 ++ swap_list3 ++ swap_list4)).
  apply Forall_src. apply Forall_app. split; [exact swap_all1|]. apply Forall_app. split; [exact swap_all2|]. apply Forall_app. split; [exact swap_all3|]. exact swap_all4.
Qed.

Definition scale1_functionals : list source := [
  f_gga_x_airy; f_gga_x_ak13; f_gga_x_am05; f_gga_x_b86; f_gga_x_b88; f_gga_x_bayesian;
  f_gga_x_beefvdw; f_gga_x_bpccac; f_gga_x_c09x; f_gga_x_cap; f_gga_x_chachiyo; f_gga_x_dk87;
  f_gga_x_ev93; f_gga_x_fd_lb94; f_gga_x_g96; f_gga_x_gg99; f_gga_x_hcth_a; f_gga_x_herman;
  f_gga_x_htbs; f_gga_x_lag; f_gga_x_lb; f_gga_x_lg93; f_gga_x_lspbe; f_gga_x_lsrpbe;
  f_gga_x_lv_rpw86; f_gga_x_mpbe; f_gga_x_ncap; f_gga_x_ol2; f_gga_x_optx; f_gga_x_pbe;
  f_gga_x_pbea; f_gga_x_pbeint; f_gga_x_pbepow; f_gga_x_pbetrans; f_gga_x_pw86; f_gga_x_pw91;
  f_gga_x_q1d; f_gga_x_q2d; f_gga_x_rge2; f_gga_x_rpbe; f_gga_x_s12; f_gga_x_sg4;
  f_gga_x_sogga11; f_gga_x_ssb_sw; f_gga_x_vmt; f_gga_x_vmt84; f_gga_x_wc; f_hyb_mgga_x_dldf;
  f_hyb_mgga_x_m05; f_lda_x; f_mgga_x_br89; f_mgga_x_br89_explicit; f_mgga_x_edmgga;
  f_mgga_x_ft98; f_mgga_x_gdme; f_mgga_x_gvt4; f_mgga_x_gx; f_mgga_x_jk; f_mgga_x_lta;
  f_mgga_x_m06l; f_mgga_x_m08; f_mgga_x_mbeef; f_mgga_x_mbeefvdw; f_mgga_x_mbr;
  f_mgga_x_mbrxc_bg; f_mgga_x_mbrxh_bg; f_mgga_x_mcml; f_mgga_x_mggac; f_mgga_x_ms; f_mgga_x_msb;
  f_mgga_x_mvs; f_mgga_x_mvsb; f_mgga_x_pbe_gx; f_mgga_x_pkzb; f_mgga_x_r2scan; f_mgga_x_r4scan;
  f_mgga_x_regtm; f_mgga_x_regtpss; f_mgga_x_revtm; f_mgga_x_rlda; f_mgga_x_rppscan;
  f_mgga_x_rtpss; f_mgga_x_sa_tpss; f_mgga_x_scan; f_mgga_x_task; f_mgga_x_tau_hcth;
  f_mgga_x_tb09; f_mgga_x_th; f_mgga_x_tm; f_mgga_x_tpss; f_mgga_x_vcml; f_mgga_x_vt84].
Lemma scale1_holds : Forall (scales_with 1) scale1_functionals.
Proof.
  change scale1_functionals with (map c_src (scale1_list1)).
  apply Forall_src. exact scale1_all1.
Qed.

Definition scale2_functionals : list source := [
  f_gga_k_apbe; f_gga_k_apbeint; f_gga_k_dk; f_gga_k_exp4; f_gga_k_lc94; f_gga_k_lgap;
  f_gga_k_lgap_ge; f_gga_k_lkt; f_gga_k_llp; f_gga_k_meyer; f_gga_k_mpbe; f_gga_k_ol1;
  f_gga_k_ol2; f_gga_k_pearson; f_gga_k_pg; f_gga_k_pw86; f_gga_k_rational_p; f_gga_k_tflw;
  f_gga_k_thakkar; f_gga_k_vt84f; f_lda_k_tf; f_mgga_k_csk; f_mgga_k_csk_loc; f_mgga_k_gea2;
  f_mgga_k_gea4; f_mgga_k_lk; f_mgga_k_pc07; f_mgga_k_pgslb; f_mgga_k_rda].
Lemma scale2_holds : Forall (scales_with 2) scale2_functionals.
Proof.
  change scale2_functionals with (map c_src (scale2_list1)).
  apply Forall_src. exact scale2_all1.
Qed.

Definition spin_functionals : list source := [
  f_gga_k_apbe; f_gga_k_lc94; f_gga_k_lkt; f_gga_k_mpbe; f_gga_k_pearson; f_gga_k_rational_p;
  f_gga_k_vt84f; f_gga_x_2d_b88; f_gga_x_ak13; f_gga_x_b88; f_gga_x_cap; f_gga_x_ev93;
  f_gga_x_g96; f_gga_x_herman; f_gga_x_ityh; f_gga_x_kt; f_gga_x_lsrpbe; f_gga_x_ncap;
  f_gga_x_pbe; f_gga_x_pbepow; f_gga_x_pw91; f_gga_x_rpbe; f_gga_x_sfat_pbe; f_gga_x_vmt;
  f_gga_x_wpbeh; f_hyb_mgga_x_js18; f_lda_k_gds08_worker; f_lda_x_1d_soft; f_mgga_k_csk;
  f_mgga_k_gea4; f_mgga_k_pgslb; f_mgga_x_br89; f_mgga_x_ft98; f_mgga_x_gx; f_mgga_x_m06l;
  f_mgga_x_m11_l; f_mgga_x_mbrxc_bg; f_mgga_x_mn12; f_mgga_x_mvs; f_mgga_x_pkzb; f_mgga_x_regtm;
  f_mgga_x_rlda; f_mgga_x_rtpss; f_mgga_x_tau_hcth; f_mgga_x_tpss; f_gga_k_apbeint; f_gga_k_lgap;
  f_gga_k_llp; f_gga_k_ol1; f_gga_k_pg; f_gga_k_tflw; f_gga_x_2d_b86; f_gga_x_2d_pbe;
  f_gga_x_am05; f_gga_x_bayesian; f_gga_x_chachiyo; f_gga_x_fd_lb94; f_gga_x_gg99; f_gga_x_hjs;
  f_gga_x_ityh_optx; f_gga_x_lag; f_gga_x_mpbe; f_gga_x_ol2; f_gga_x_pbea; f_gga_x_pbetrans;
  f_gga_x_q1d; f_gga_x_s12; f_gga_x_sogga11; f_gga_x_vmt84; f_hyb_gga_x_cam_s12;
  f_hyb_mgga_x_m05; f_lda_x; f_lda_x_erf; f_mgga_k_csk_loc; f_mgga_k_lk; f_mgga_k_rda;
  f_mgga_x_br89_explicit; f_mgga_x_gdme; f_mgga_x_jk; f_mgga_x_m08; f_mgga_x_mbeefvdw;
  f_mgga_x_mbrxh_bg; f_mgga_x_ms; f_mgga_x_mvsb; f_mgga_x_r2scan; f_mgga_x_regtpss;
  f_mgga_x_rppscan; f_mgga_x_sa_tpss; f_mgga_x_th; f_mgga_x_vt84; f_gga_k_dk; f_gga_k_lgap_ge;
  f_gga_k_meyer; f_gga_k_ol2; f_gga_k_pw86; f_gga_k_thakkar; f_gga_x_2d_b86_mgc; f_gga_x_airy;
  f_gga_x_b86; f_gga_x_c09x; f_gga_x_dk87; f_gga_x_ft97; f_gga_x_hcth_a; f_gga_x_hjs_b88_v2;
  f_gga_x_ityh_pbe; f_gga_x_lspbe; f_gga_x_n12; f_gga_x_optx; f_gga_x_pbeint; f_gga_x_pw86;
  f_gga_x_q2d; f_gga_x_sfat; f_gga_x_ssb_sw; f_gga_x_wc; f_hyb_mgga_x_dldf; f_hyb_mgga_x_pjs18;
  f_lda_x_1d_exponential; f_lda_x_yukawa; f_mgga_k_gea2; f_mgga_k_pc07; f_mgga_x_2d_prhg07;
  f_mgga_x_edmgga; f_mgga_x_gvt4; f_mgga_x_lta; f_mgga_x_m11; f_mgga_x_mbr; f_mgga_x_mggac;
  f_mgga_x_msb; f_mgga_x_pbe_gx; f_mgga_x_r4scan; f_mgga_x_revtm; f_mgga_x_rscan; f_mgga_x_scan;
  f_mgga_x_tm; f_gga_x_beefvdw; f_lda_k_tf; f_lda_x_2d; f_mgga_x_mbeef; f_mgga_x_mcml;
  f_mgga_x_vcml].
Lemma spin_holds : Forall (spin_scales) spin_functionals.
Proof.
  change spin_functionals with (map c_src (spin_list1 ++ spin_list2 ++ spin_list3 ++ spin_list4)).
  apply Forall_src. apply Forall_app. split; [exact spin_all1|]. apply Forall_app. split; [exact spin_all2|]. apply Forall_app. split; [exact spin_all3|]. exact spin_all4.
Qed.

Definition scrp_functionals : list source := [
  f_gga_c_op_b88; f_gga_c_op_g96; f_gga_c_op_pbe; f_gga_c_op_pw91; f_gga_c_op_xalpha;
  f_gga_k_apbe; f_gga_k_apbeint; f_gga_k_dk; f_gga_k_exp4; f_gga_k_lc94; f_gga_k_lgap;
  f_gga_k_lgap_ge; f_gga_k_lkt; f_gga_k_llp; f_gga_k_meyer; f_gga_k_mpbe; f_gga_k_ol1;
  f_gga_k_ol2; f_gga_k_pearson; f_gga_k_pg; f_gga_k_pw86; f_gga_k_rational_p; f_gga_k_tflw;
  f_gga_k_thakkar; f_gga_k_vt84f; f_gga_x_2d_b86; f_gga_x_2d_b86_mgc; f_gga_x_2d_b88;
  f_gga_x_2d_pbe; f_gga_x_airy; f_gga_x_ak13; f_gga_x_am05; f_gga_x_b86; f_gga_x_b88;
  f_gga_x_bayesian; f_gga_x_beefvdw; f_gga_x_bpccac; f_gga_x_c09x; f_gga_x_cap; f_gga_x_chachiyo;
  f_gga_x_dk87; f_gga_x_ev93; f_gga_x_fd_lb94; f_gga_x_ft97; f_gga_x_g96; f_gga_x_gg99;
  f_gga_x_hcth_a; f_gga_x_herman; f_gga_x_hjs; f_gga_x_hjs_b88_v2; f_gga_x_htbs; f_gga_x_ityh;
  f_gga_x_ityh_optx; f_gga_x_ityh_pbe; f_gga_x_kt; f_gga_x_lag; f_gga_x_lg93; f_gga_x_lspbe;
  f_gga_x_lsrpbe; f_gga_x_lv_rpw86; f_gga_x_mpbe; f_gga_x_n12; f_gga_x_ncap; f_gga_x_ol2;
  f_gga_x_optx; f_gga_x_pbe; f_gga_x_pbea; f_gga_x_pbeint; f_gga_x_pbetrans; f_gga_x_pw86;
  f_gga_x_pw91; f_gga_x_q1d; f_gga_x_q2d; f_gga_x_rge2; f_gga_x_rpbe; f_gga_x_s12; f_gga_x_sfat;
  f_gga_x_sfat_pbe; f_gga_x_sg4; f_gga_x_sogga11; f_gga_x_ssb_sw; f_gga_x_vmt; f_gga_x_vmt84;
  f_gga_x_wc; f_hyb_gga_x_cam_s12; f_hyb_mgga_x_dldf; f_hyb_mgga_x_m05; f_lda_k_gds08_worker;
  f_lda_x; f_lda_x_1d_exponential; f_lda_x_1d_soft; f_lda_x_rel; f_mgga_c_b88; f_mgga_c_b94;
  f_mgga_k_csk; f_mgga_k_csk_loc; f_mgga_k_gea2; f_mgga_k_gea4; f_mgga_k_lk; f_mgga_k_pc07;
  f_mgga_k_pgslb; f_mgga_k_rda; f_mgga_x_2d_js17; f_mgga_x_2d_prhg07; f_mgga_x_br89;
  f_mgga_x_br89_explicit; f_mgga_x_edmgga; f_mgga_x_ft98; f_mgga_x_gdme; f_mgga_x_gvt4;
  f_mgga_x_gx; f_mgga_x_jk; f_mgga_x_lta; f_mgga_x_m06l; f_mgga_x_m08; f_mgga_x_m11;
  f_mgga_x_m11_l; f_mgga_x_mbeefvdw; f_mgga_x_mbr; f_mgga_x_mbrxc_bg; f_mgga_x_mbrxh_bg;
  f_mgga_x_mggac; f_mgga_x_mn12; f_mgga_x_ms; f_mgga_x_msb; f_mgga_x_mvs; f_mgga_x_mvsb;
  f_mgga_x_pbe_gx; f_mgga_x_pkzb; f_mgga_x_r2scan; f_mgga_x_r4scan; f_mgga_x_regtm;
  f_mgga_x_regtpss; f_mgga_x_revtm; f_mgga_x_rlda; f_mgga_x_rppscan; f_mgga_x_rscan;
  f_mgga_x_rtpss; f_mgga_x_sa_tpss; f_mgga_x_scan; f_mgga_x_tau_hcth; f_mgga_x_th; f_mgga_x_tm;
  f_mgga_x_tpss; f_mgga_x_vt84].
Lemma scrp_holds : Forall (screened_pol) scrp_functionals.
Proof.
  change scrp_functionals with (map c_src (scrp_list1)).
  apply Forall_src. exact scrp_all1.
Qed.

Definition scru_functionals : list source := [
  f_gga_c_op_b88; f_gga_c_op_g96; f_gga_c_op_pbe; f_gga_c_op_pw91; f_gga_c_op_xalpha;
  f_gga_k_apbe; f_gga_k_apbeint; f_gga_k_dk; f_gga_k_exp4; f_gga_k_lc94; f_gga_k_lgap;
  f_gga_k_lgap_ge; f_gga_k_lkt; f_gga_k_llp; f_gga_k_meyer; f_gga_k_mpbe; f_gga_k_ol1;
  f_gga_k_ol2; f_gga_k_pearson; f_gga_k_pg; f_gga_k_pw86; f_gga_k_rational_p; f_gga_k_tflw;
  f_gga_k_thakkar; f_gga_k_vt84f; f_gga_x_2d_b86; f_gga_x_2d_b86_mgc; f_gga_x_2d_b88;
  f_gga_x_2d_pbe; f_gga_x_airy; f_gga_x_ak13; f_gga_x_am05; f_gga_x_b86; f_gga_x_b88;
  f_gga_x_bayesian; f_gga_x_beefvdw; f_gga_x_bpccac; f_gga_x_c09x; f_gga_x_cap; f_gga_x_chachiyo;
  f_gga_x_dk87; f_gga_x_ev93; f_gga_x_fd_lb94; f_gga_x_ft97; f_gga_x_g96; f_gga_x_gg99;
  f_gga_x_hcth_a; f_gga_x_herman; f_gga_x_hjs; f_gga_x_hjs_b88_v2; f_gga_x_htbs; f_gga_x_ityh;
  f_gga_x_ityh_optx; f_gga_x_ityh_pbe; f_gga_x_kt; f_gga_x_lag; f_gga_x_lg93; f_gga_x_lspbe;
  f_gga_x_lsrpbe; f_gga_x_lv_rpw86; f_gga_x_mpbe; f_gga_x_n12; f_gga_x_ncap; f_gga_x_ol2;
  f_gga_x_optx; f_gga_x_pbe; f_gga_x_pbea; f_gga_x_pbeint; f_gga_x_pbetrans; f_gga_x_pw86;
  f_gga_x_pw91; f_gga_x_q1d; f_gga_x_q2d; f_gga_x_rge2; f_gga_x_rpbe; f_gga_x_s12; f_gga_x_sfat;
  f_gga_x_sfat_pbe; f_gga_x_sg4; f_gga_x_sogga11; f_gga_x_ssb_sw; f_gga_x_vmt; f_gga_x_vmt84;
  f_gga_x_wc; f_hyb_gga_x_cam_s12; f_hyb_mgga_x_dldf; f_hyb_mgga_x_m05; f_lda_k_gds08_worker;
  f_lda_x; f_lda_x_1d_exponential; f_lda_x_1d_soft; f_lda_x_rel; f_mgga_c_b88; f_mgga_c_b94;
  f_mgga_k_csk; f_mgga_k_csk_loc; f_mgga_k_gea2; f_mgga_k_gea4; f_mgga_k_lk; f_mgga_k_pc07;
  f_mgga_k_pgslb; f_mgga_k_rda; f_mgga_x_2d_js17; f_mgga_x_2d_prhg07; f_mgga_x_br89;
  f_mgga_x_br89_explicit; f_mgga_x_edmgga; f_mgga_x_ft98; f_mgga_x_gdme; f_mgga_x_gvt4;
  f_mgga_x_gx; f_mgga_x_jk; f_mgga_x_lta; f_mgga_x_m06l; f_mgga_x_m08; f_mgga_x_m11;
  f_mgga_x_m11_l; f_mgga_x_mbeef; f_mgga_x_mbeefvdw; f_mgga_x_mbr; f_mgga_x_mbrxc_bg;
  f_mgga_x_mbrxh_bg; f_mgga_x_mcml; f_mgga_x_mggac; f_mgga_x_mn12; f_mgga_x_ms; f_mgga_x_msb;
  f_mgga_x_mvs; f_mgga_x_mvsb; f_mgga_x_pbe_gx; f_mgga_x_pkzb; f_mgga_x_r2scan; f_mgga_x_r4scan;
  f_mgga_x_regtm; f_mgga_x_regtpss; f_mgga_x_revtm; f_mgga_x_rlda; f_mgga_x_rppscan;
  f_mgga_x_rscan; f_mgga_x_rtpss; f_mgga_x_sa_tpss; f_mgga_x_scan; f_mgga_x_tau_hcth;
  f_mgga_x_th; f_mgga_x_tm; f_mgga_x_tpss; f_mgga_x_vcml; f_mgga_x_vt84].
Lemma scru_holds : Forall (screened_unpol) scru_functionals.
Proof.
  change scru_functionals with (map c_src (scru_list1)).
  apply Forall_src. exact scru_all1.
Qed.

Definition uniform_x_functionals : list source := [
  f_gga_x_airy; f_gga_x_ak13; f_gga_x_am05; f_gga_x_b86; f_gga_x_b88; f_gga_x_bpccac;
  f_gga_x_c09x; f_gga_x_cap; f_gga_x_dk87; f_gga_x_ev93; f_gga_x_fd_lb94; f_gga_x_ft97;
  f_gga_x_g96; f_gga_x_herman; f_gga_x_htbs; f_gga_x_kt; f_gga_x_lg93; f_gga_x_lspbe;
  f_gga_x_lsrpbe; f_gga_x_lv_rpw86; f_gga_x_mpbe; f_gga_x_ncap; f_gga_x_pbe; f_gga_x_pbea;
  f_gga_x_pbeint; f_gga_x_pbetrans; f_gga_x_pw86; f_gga_x_q1d; f_gga_x_q2d; f_gga_x_rge2;
  f_gga_x_rpbe; f_gga_x_sg4; f_gga_x_vmt; f_gga_x_vmt84; f_gga_x_wc; f_mgga_x_ft98; f_mgga_x_jk;
  f_mgga_x_lta; f_mgga_x_ms; f_mgga_x_msb; f_mgga_x_mvs; f_mgga_x_pkzb; f_mgga_x_regtm;
  f_mgga_x_regtpss; f_mgga_x_revtm; f_mgga_x_rtpss; f_mgga_x_sa_tpss; f_mgga_x_th; f_mgga_x_tm;
  f_mgga_x_tpss; f_mgga_x_vt84].
Lemma uniform_x_holds : Forall (uniform_limit slater_energy []) uniform_x_functionals.
Proof.
  change uniform_x_functionals with (map c_src (uniform_x_list1)).
  apply Forall_src. exact uniform_x_all1.
Qed.

Definition uniform_k_functionals : list source := [
  f_gga_k_apbe; f_gga_k_apbeint; f_gga_k_lgap; f_gga_k_lgap_ge; f_gga_k_llp; f_gga_k_mpbe;
  f_gga_k_ol1; f_gga_k_pearson; f_gga_k_pg; f_gga_k_pw86; f_gga_k_rational_p; f_gga_k_thakkar;
  f_gga_k_vt84f; f_mgga_k_csk; f_mgga_k_csk_loc; f_mgga_k_gea2; f_mgga_k_gea4; f_mgga_k_lk;
  f_mgga_k_pgslb].
Lemma uniform_k_holds : Forall (uniform_limit tf_energy []) uniform_k_functionals.
Proof.
  change uniform_k_functionals with (map c_src (uniform_k_list1)).
  apply Forall_src. exact uniform_k_all1.
Qed.

