(** The entries of /repo/gen_repo/impl/prebuilt/pol and /repo/gen_repo/impl/prebuilt/unpol
    (generated from the listings; the contents of the files are in [Src]). *)
From Coq Require Import List.
From Verif Require Import Bytes.
Import ListNotations.
Definition dir_pol : list bstr := [
  "BUILD";
  "gga_c_acgga.py";
  "gga_c_acggap.py";
  "gga_c_am05.py";
  "gga_c_bmk.py";
  "gga_c_ccdf.py";
  "gga_c_chachiyo.py";
  "gga_c_cs1.py";
  "gga_c_ft97.py";
  "gga_c_gapc.py";
  "gga_c_gaploc.py";
  "gga_c_hcth_a.py";
  "gga_c_lm.py";
  "gga_c_lyp.py";
  "gga_c_lypr.py";
  "gga_c_op_b88.py";
  "gga_c_op_g96.py";
  "gga_c_op_pbe.py";
  "gga_c_op_pw91.py";
  "gga_c_op_xalpha.py";
  "gga_c_optc.py";
  "gga_c_p86.py";
  "gga_c_p86vwn.py";
  "gga_c_pbe.py";
  "gga_c_pbe_vwn.py";
  "gga_c_pbeloc.py";
  "gga_c_pw91.py";
  "gga_c_q2d.py";
  "gga_c_regtpss.py";
  "gga_c_revtca.py";
  "gga_c_scan_e0.py";
  "gga_c_sg4.py";
  "gga_c_sogga11.py";
  "gga_c_tca.py";
  "gga_c_w94.py";
  "gga_c_wi.py";
  "gga_c_wl.py";
  "gga_c_zpbeint.py";
  "gga_c_zvpbeint.py";
  "gga_c_zvpbeloc.py";
  "gga_k_apbe.py";
  "gga_k_apbeint.py";
  "gga_k_dk.py";
  "gga_k_exp4.py";
  "gga_k_lc94.py";
  "gga_k_lgap.py";
  "gga_k_lgap_ge.py";
  "gga_k_lkt.py";
  "gga_k_llp.py";
  "gga_k_meyer.py";
  "gga_k_mpbe.py";
  "gga_k_ol1.py";
  "gga_k_ol2.py";
  "gga_k_pearson.py";
  "gga_k_pg.py";
  "gga_k_pw86.py";
  "gga_k_rational_p.py";
  "gga_k_tflw.py";
  "gga_k_thakkar.py";
  "gga_k_vt84f.py";
  "gga_x_2d_b86.py";
  "gga_x_2d_b86_mgc.py";
  "gga_x_2d_b88.py";
  "gga_x_2d_pbe.py";
  "gga_x_airy.py";
  "gga_x_ak13.py";
  "gga_x_am05.py";
  "gga_x_b86.py";
  "gga_x_b88.py";
  "gga_x_bayesian.py";
  "gga_x_beefvdw.py";
  "gga_x_bpccac.py";
  "gga_x_c09x.py";
  "gga_x_cap.py";
  "gga_x_chachiyo.py";
  "gga_x_dk87.py";
  "gga_x_ev93.py";
  "gga_x_fd_lb94.py";
  "gga_x_ft97.py";
  "gga_x_g96.py";
  "gga_x_gg99.py";
  "gga_x_hcth_a.py";
  "gga_x_herman.py";
  "gga_x_hjs.py";
  "gga_x_hjs_b88_v2.py";
  "gga_x_htbs.py";
  "gga_x_ityh.py";
  "gga_x_ityh_optx.py";
  "gga_x_ityh_pbe.py";
  "gga_x_kt.py";
  "gga_x_lag.py";
  "gga_x_lb.py";
  "gga_x_lg93.py";
  "gga_x_lspbe.py";
  "gga_x_lsrpbe.py";
  "gga_x_lv_rpw86.py";
  "gga_x_mpbe.py";
  "gga_x_n12.py";
  "gga_x_ncap.py";
  "gga_x_ol2.py";
  "gga_x_optx.py";
  "gga_x_pbe.py";
  "gga_x_pbea.py";
  "gga_x_pbeint.py";
  "gga_x_pbepow.py";
  "gga_x_pbetrans.py";
  "gga_x_pw86.py";
  "gga_x_pw91.py";
  "gga_x_q1d.py";
  "gga_x_q2d.py";
  "gga_x_rge2.py";
  "gga_x_rpbe.py";
  "gga_x_s12.py";
  "gga_x_sfat.py";
  "gga_x_sfat_pbe.py";
  "gga_x_sg4.py";
  "gga_x_sogga11.py";
  "gga_x_ssb_sw.py";
  "gga_x_vmt.py";
  "gga_x_vmt84.py";
  "gga_x_wc.py";
  "gga_x_wpbeh.py";
  "gga_xc_b97.py";
  "gga_xc_th1.py";
  "gga_xc_th2.py";
  "gga_xc_th3.py";
  "hyb_gga_x_cam_s12.py";
  "hyb_gga_xc_case21.py";
  "hyb_gga_xc_wb97.py";
  "hyb_lda_xc_bn05.py";
  "hyb_mgga_x_dldf.py";
  "hyb_mgga_x_js18.py";
  "hyb_mgga_x_m05.py";
  "hyb_mgga_x_pjs18.py";
  "hyb_mgga_xc_wb97mv.py";
  "lda_c_1d_csc.py";
  "lda_c_1d_loos.py";
  "lda_c_2d_amgb.py";
  "lda_c_2d_prm.py";
  "lda_c_chachiyo.py";
  "lda_c_chachiyo_mod.py";
  "lda_c_gk72.py";
  "lda_c_gombas.py";
  "lda_c_hl.py";
  "lda_c_lp96.py";
  "lda_c_ml1.py";
  "lda_c_pk09.py";
  "lda_c_pmgb06.py";
  "lda_c_pw.py";
  "lda_c_pz.py";
  "lda_c_rc04.py";
  "lda_c_rpa.py";
  "lda_c_vwn.py";
  "lda_c_vwn_1.py";
  "lda_c_vwn_2.py";
  "lda_c_vwn_3.py";
  "lda_c_vwn_4.py";
  "lda_c_vwn_rpa.py";
  "lda_c_w20.py";
  "lda_c_wigner.py";
  "lda_k_gds08_worker.py";
  "lda_k_tf.py";
  "lda_k_zlp.py";
  "lda_x.py";
  "lda_x_1d_exponential.py";
  "lda_x_1d_soft.py";
  "lda_x_2d.py";
  "lda_x_erf.py";
  "lda_x_rel.py";
  "lda_x_sloc.py";
  "lda_x_yukawa.py";
  "lda_xc_1d_ehwlrg.py";
  "lda_xc_ksdt.py";
  "lda_xc_teter93.py";
  "lda_xc_tih.py";
  "lda_xc_zlp.py";
  "mgga_c_b88.py";
  "mgga_c_b94.py";
  "mgga_c_bc95.py";
  "mgga_c_cc.py";
  "mgga_c_ccalda.py";
  "mgga_c_cs.py";
  "mgga_c_kcis.py";
  "mgga_c_kcisk.py";
  "mgga_c_ltapw.py";
  "mgga_c_m05.py";
  "mgga_c_m06l.py";
  "mgga_c_m08.py";
  "mgga_c_pkzb.py";
  "mgga_c_r2scan.py";
  "mgga_c_revscan.py";
  "mgga_c_revtpss.py";
  "mgga_c_rmggac.py";
  "mgga_c_rppscan.py";
  "mgga_c_rregtm.py";
  "mgga_c_rscan.py";
  "mgga_c_scan.py";
  "mgga_c_tpss.py";
  "mgga_c_tpssloc.py";
  "mgga_c_vsxc.py";
  "mgga_k_csk.py";
  "mgga_k_csk_loc.py";
  "mgga_k_gea2.py";
  "mgga_k_gea4.py";
  "mgga_k_lk.py";
  "mgga_k_pc07.py";
  "mgga_k_pgslb.py";
  "mgga_k_rda.py";
  "mgga_x_2d_js17.py";
  "mgga_x_2d_prhg07.py";
  "mgga_x_2d_prp10.py";
  "mgga_x_br89.py";
  "mgga_x_br89_explicit.py";
  "mgga_x_edmgga.py";
  "mgga_x_ft98.py";
  "mgga_x_gdme.py";
  "mgga_x_gvt4.py";
  "mgga_x_gx.py";
  "mgga_x_jk.py";
  "mgga_x_lta.py";
  "mgga_x_m06l.py";
  "mgga_x_m08.py";
  "mgga_x_m11.py";
  "mgga_x_m11_l.py";
  "mgga_x_mbeef.py";
  "mgga_x_mbeefvdw.py";
  "mgga_x_mbr.py";
  "mgga_x_mbrxc_bg.py";
  "mgga_x_mbrxh_bg.py";
  "mgga_x_mcml.py";
  "mgga_x_mggac.py";
  "mgga_x_mn12.py";
  "mgga_x_ms.py";
  "mgga_x_msb.py";
  "mgga_x_mvs.py";
  "mgga_x_mvsb.py";
  "mgga_x_pbe_gx.py";
  "mgga_x_pkzb.py";
  "mgga_x_r2scan.py";
  "mgga_x_r4scan.py";
  "mgga_x_regtm.py";
  "mgga_x_regtpss.py";
  "mgga_x_revtm.py";
  "mgga_x_rlda.py";
  "mgga_x_rppscan.py";
  "mgga_x_rscan.py";
  "mgga_x_rtpss.py";
  "mgga_x_sa_tpss.py";
  "mgga_x_scan.py";
  "mgga_x_task.py";
  "mgga_x_tau_hcth.py";
  "mgga_x_tb09.py";
  "mgga_x_th.py";
  "mgga_x_tm.py";
  "mgga_x_tpss.py";
  "mgga_x_vcml.py";
  "mgga_x_vt84.py";
  "mgga_xc_b97mv.py";
  "mgga_xc_b98.py";
  "mgga_xc_cc06.py";
  "mgga_xc_lp90.py";
  "mgga_xc_zlp.py"]%b.
Definition dir_unpol : list bstr := [
  "BUILD";
  "gga_c_acgga.py";
  "gga_c_acggap.py";
  "gga_c_am05.py";
  "gga_c_bmk.py";
  "gga_c_ccdf.py";
  "gga_c_chachiyo.py";
  "gga_c_cs1.py";
  "gga_c_ft97.py";
  "gga_c_gapc.py";
  "gga_c_gaploc.py";
  "gga_c_hcth_a.py";
  "gga_c_lm.py";
  "gga_c_lyp.py";
  "gga_c_lypr.py";
  "gga_c_op_b88.py";
  "gga_c_op_g96.py";
  "gga_c_op_pbe.py";
  "gga_c_op_pw91.py";
  "gga_c_op_xalpha.py";
  "gga_c_optc.py";
  "gga_c_p86.py";
  "gga_c_p86vwn.py";
  "gga_c_pbe.py";
  "gga_c_pbe_vwn.py";
  "gga_c_pbeloc.py";
  "gga_c_pw91.py";
  "gga_c_q2d.py";
  "gga_c_regtpss.py";
  "gga_c_revtca.py";
  "gga_c_scan_e0.py";
  "gga_c_sg4.py";
  "gga_c_sogga11.py";
  "gga_c_tca.py";
  "gga_c_w94.py";
  "gga_c_wi.py";
  "gga_c_wl.py";
  "gga_c_zpbeint.py";
  "gga_c_zvpbeint.py";
  "gga_c_zvpbeloc.py";
  "gga_k_apbe.py";
  "gga_k_apbeint.py";
  "gga_k_dk.py";
  "gga_k_exp4.py";
  "gga_k_lc94.py";
  "gga_k_lgap.py";
  "gga_k_lgap_ge.py";
  "gga_k_lkt.py";
  "gga_k_llp.py";
  "gga_k_meyer.py";
  "gga_k_mpbe.py";
  "gga_k_ol1.py";
  "gga_k_ol2.py";
  "gga_k_pearson.py";
  "gga_k_pg.py";
  "gga_k_pw86.py";
  "gga_k_rational_p.py";
  "gga_k_tflw.py";
  "gga_k_thakkar.py";
  "gga_k_vt84f.py";
  "gga_x_2d_b86.py";
  "gga_x_2d_b86_mgc.py";
  "gga_x_2d_b88.py";
  "gga_x_2d_pbe.py";
  "gga_x_airy.py";
  "gga_x_ak13.py";
  "gga_x_am05.py";
  "gga_x_b86.py";
  "gga_x_b88.py";
  "gga_x_bayesian.py";
  "gga_x_beefvdw.py";
  "gga_x_bpccac.py";
  "gga_x_c09x.py";
  "gga_x_cap.py";
  "gga_x_chachiyo.py";
  "gga_x_dk87.py";
  "gga_x_ev93.py";
  "gga_x_fd_lb94.py";
  "gga_x_ft97.py";
  "gga_x_g96.py";
  "gga_x_gg99.py";
  "gga_x_hcth_a.py";
  "gga_x_herman.py";
  "gga_x_hjs.py";
  "gga_x_hjs_b88_v2.py";
  "gga_x_htbs.py";
  "gga_x_ityh.py";
  "gga_x_ityh_optx.py";
  "gga_x_ityh_pbe.py";
  "gga_x_kt.py";
  "gga_x_lag.py";
  "gga_x_lb.py";
  "gga_x_lg93.py";
  "gga_x_lspbe.py";
  "gga_x_lsrpbe.py";
  "gga_x_lv_rpw86.py";
  "gga_x_mpbe.py";
  "gga_x_n12.py";
  "gga_x_ncap.py";
  "gga_x_ol2.py";
  "gga_x_optx.py";
  "gga_x_pbe.py";
  "gga_x_pbea.py";
  "gga_x_pbeint.py";
  "gga_x_pbepow.py";
  "gga_x_pbetrans.py";
  "gga_x_pw86.py";
  "gga_x_pw91.py";
  "gga_x_q1d.py";
  "gga_x_q2d.py";
  "gga_x_rge2.py";
  "gga_x_rpbe.py";
  "gga_x_s12.py";
  "gga_x_sfat.py";
  "gga_x_sfat_pbe.py";
  "gga_x_sg4.py";
  "gga_x_sogga11.py";
  "gga_x_ssb_sw.py";
  "gga_x_vmt.py";
  "gga_x_vmt84.py";
  "gga_x_wc.py";
  "gga_x_wpbeh.py";
  "gga_xc_b97.py";
  "gga_xc_th1.py";
  "gga_xc_th2.py";
  "gga_xc_th3.py";
  "hyb_gga_x_cam_s12.py";
  "hyb_gga_xc_case21.py";
  "hyb_gga_xc_wb97.py";
  "hyb_lda_xc_bn05.py";
  "hyb_mgga_x_dldf.py";
  "hyb_mgga_x_js18.py";
  "hyb_mgga_x_m05.py";
  "hyb_mgga_x_pjs18.py";
  "hyb_mgga_xc_wb97mv.py";
  "lda_c_1d_csc.py";
  "lda_c_1d_loos.py";
  "lda_c_2d_amgb.py";
  "lda_c_2d_prm.py";
  "lda_c_chachiyo.py";
  "lda_c_chachiyo_mod.py";
  "lda_c_gk72.py";
  "lda_c_gombas.py";
  "lda_c_hl.py";
  "lda_c_lp96.py";
  "lda_c_ml1.py";
  "lda_c_pk09.py";
  "lda_c_pmgb06.py";
  "lda_c_pw.py";
  "lda_c_pz.py";
  "lda_c_rc04.py";
  "lda_c_rpa.py";
  "lda_c_vwn.py";
  "lda_c_vwn_1.py";
  "lda_c_vwn_2.py";
  "lda_c_vwn_3.py";
  "lda_c_vwn_4.py";
  "lda_c_vwn_rpa.py";
  "lda_c_w20.py";
  "lda_c_wigner.py";
  "lda_k_gds08_worker.py";
  "lda_k_tf.py";
  "lda_k_zlp.py";
  "lda_x.py";
  "lda_x_1d_exponential.py";
  "lda_x_1d_soft.py";
  "lda_x_2d.py";
  "lda_x_erf.py";
  "lda_x_rel.py";
  "lda_x_sloc.py";
  "lda_x_yukawa.py";
  "lda_xc_1d_ehwlrg.py";
  "lda_xc_ksdt.py";
  "lda_xc_teter93.py";
  "lda_xc_tih.py";
  "lda_xc_zlp.py";
  "mgga_c_b88.py";
  "mgga_c_b94.py";
  "mgga_c_bc95.py";
  "mgga_c_cc.py";
  "mgga_c_ccalda.py";
  "mgga_c_cs.py";
  "mgga_c_kcis.py";
  "mgga_c_kcisk.py";
  "mgga_c_ltapw.py";
  "mgga_c_m05.py";
  "mgga_c_m06l.py";
  "mgga_c_m08.py";
  "mgga_c_pkzb.py";
  "mgga_c_r2scan.py";
  "mgga_c_revscan.py";
  "mgga_c_revtpss.py";
  "mgga_c_rmggac.py";
  "mgga_c_rppscan.py";
  "mgga_c_rregtm.py";
  "mgga_c_rscan.py";
  "mgga_c_scan.py";
  "mgga_c_tpss.py";
  "mgga_c_tpssloc.py";
  "mgga_c_vsxc.py";
  "mgga_k_csk.py";
  "mgga_k_csk_loc.py";
  "mgga_k_gea2.py";
  "mgga_k_gea4.py";
  "mgga_k_lk.py";
  "mgga_k_pc07.py";
  "mgga_k_pgslb.py";
  "mgga_k_rda.py";
  "mgga_x_2d_js17.py";
  "mgga_x_2d_prhg07.py";
  "mgga_x_2d_prp10.py";
  "mgga_x_br89.py";
  "mgga_x_br89_explicit.py";
  "mgga_x_edmgga.py";
  "mgga_x_ft98.py";
  "mgga_x_gdme.py";
  "mgga_x_gvt4.py";
  "mgga_x_gx.py";
  "mgga_x_jk.py";
  "mgga_x_lta.py";
  "mgga_x_m06l.py";
  "mgga_x_m08.py";
  "mgga_x_m11.py";
  "mgga_x_m11_l.py";
  "mgga_x_mbeef.py";
  "mgga_x_mbeefvdw.py";
  "mgga_x_mbr.py";
  "mgga_x_mbrxc_bg.py";
  "mgga_x_mbrxh_bg.py";
  "mgga_x_mcml.py";
  "mgga_x_mggac.py";
  "mgga_x_mn12.py";
  "mgga_x_ms.py";
  "mgga_x_msb.py";
  "mgga_x_mvs.py";
  "mgga_x_mvsb.py";
  "mgga_x_pbe_gx.py";
  "mgga_x_pkzb.py";
  "mgga_x_r2scan.py";
  "mgga_x_r4scan.py";
  "mgga_x_regtm.py";
  "mgga_x_regtpss.py";
  "mgga_x_revtm.py";
  "mgga_x_rlda.py";
  "mgga_x_rppscan.py";
  "mgga_x_rscan.py";
  "mgga_x_rtpss.py";
  "mgga_x_sa_tpss.py";
  "mgga_x_scan.py";
  "mgga_x_task.py";
  "mgga_x_tau_hcth.py";
  "mgga_x_tb09.py";
  "mgga_x_th.py";
  "mgga_x_tm.py";
  "mgga_x_tpss.py";
  "mgga_x_vcml.py";
  "mgga_x_vt84.py";
  "mgga_xc_b97mv.py";
  "mgga_xc_b98.py";
  "mgga_xc_cc06.py";
  "mgga_xc_lp90.py";
  "mgga_xc_zlp.py"]%b.
